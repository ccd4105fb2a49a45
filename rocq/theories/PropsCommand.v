(** Property C141: what the bus can tell of the calls. *)
From Verif Require Import Base Addresses Transport Wire Spec TraceSpec CommandSpec TransportRuns CommandProofs.
Open Scope N_scope.

(** ** C141 *)
(** Writing no octet, the value 0 and the value 64 as small values are the same datagram. *)
Theorem C141_distinct_refuted : exists d, forall v small,
  In (v, small) [([], false); ([0], true); ([64], true)] ->
  exists tr s, exec client 0 no_listeners tr s /\ well_typed tr /\ done_with tr 1 (OWrite lamp v small) d.
Proof.
  eexists. intros v small H. refine (one_write_done v small _ _ eq_refl).
  destruct H as [H|[H|[H|[]]]]; rewrite <- H; auto.
Qed.
(** Two calls of any two executions that sent the same datagram sent the same
    command to the same group. *)
Theorem C141_same_datagram_partial : forall c start ls tr s t o c' start' ls' tr' s' t' o' d a x a' x',
  exec c start ls tr s -> well_typed tr -> exec c' start' ls' tr' s' -> well_typed tr' ->
  done_with tr t o d -> done_with tr' t' o' d -> command_of o = Some (a, x) -> command_of o' = Some (a', x') ->
  a = a' /\ same_command x x'.
Proof. exact same_datagram. Qed.
Example C141_example :
  exists tr s d, exec client 0 no_listeners tr s /\ well_typed tr /\ done_with tr 1 (OWrite lamp [0] true) d /\
    command_of (OWrite lamp [0] true) = Some (0x0901, WriteBits 0).
Proof.
  destruct (one_write_done [0] true _ (or_intror (or_introl eq_refl)) eq_refl) as (tr&s&X&W&D).
  exists tr, s. eexists. split; [exact X|]. split; [exact W|]. split; [exact D|reflexivity].
Qed.
(** Exactly the calls with the same command are sent as the same telegram. *)
Theorem C141_telegrams : forall o o' a x a' x',
  command_of o = Some (a, x) -> command_of o' = Some (a', x') ->
  (telegram o = telegram o' <-> a = a' /\ same_command x x').
Proof. exact telegram_command. Qed.
