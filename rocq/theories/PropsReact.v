(** Property C127: what the background task does with each datagram it
    receives.  Specification in ReactSpec.v, proofs in TransportReact.v. *)
From Verif Require Import Base Addresses Tunneling Emi Core Transport Wire Spec TraceSpec TraceSpec2 ReactSpec
  TransportBase TransportRuns TransportReact.
From Coq Require Import Lia.
Open Scope N_scope.

(** ** C127 *)
Theorem C127_reaction : forall c start ls tr s a d e b r,
  exec c start ls tr s -> Forall bytes (arrived tr) -> bg_events tr = a ++ EvBgRecv d :: e :: b ->
  looks_like (recv_buffer d) r -> reaction r e b.
Proof. exact reacts. Qed.
(** The acknowledgement can be sent at once, whatever the caller does. *)
Theorem C127_at_once : forall c start ls tr s a d r ok,
  exec c start ls tr s -> Forall bytes (arrived tr) -> bg_events tr = a ++ [EvBgRecv d] -> looks_like (recv_buffer d) r ->
  match r with
  | RTunReq t => exists s' es, step c s (LBg ok) = Some (s', send_event ok Bg (ack_datagram (tr_chan t) (tr_seq t)) :: es)
  | RFeature f => exists s' es, step c s (LBg ok) = Some (s', send_event ok Bg (ack_datagram (fr_chan f) (fr_seq f)) :: es)
  | _ => True
  end.
Proof. exact acks_at_once. Qed.
(** In the session: a telegram is acknowledged next, a bad connection state
    clears the connection next, the answer to the disconnect request ends the
    task next.  In the second run the heart beat comes before the acknowledgement. *)
Definition preempted : trace :=
  trace_of client no_listeners
    (connect_with 7 ++ [LTime 60000; LArrive (tunnelled 7 0 (group_ind 0x0902 [9])); LBg true; LTick; LBg true]).
Example C127_example :
  (exists a b, bg_events session =
     a ++ EvBgRecv (tunnelled 7 0 (group_ind 0x0902 [9])) :: EvSend Bg (ack_datagram 7 0) :: b) /\
  (exists a b, bg_events session = a ++ EvBgRecv (state_answer 7 0x21) :: EvCleared :: b) /\
  (exists a, bg_events session = a ++ [EvBgRecv (disconnect_answer 9); EvBgEnd]) /\
  (exists a e, bg_events preempted = a ++ [EvBgRecv (tunnelled 7 0 (group_ind 0x0902 [9])); EvTick; EvSend Bg e] /\ service e = 0x0207).
Proof.
  split; [exists (firstn 3 (bg_events session)), (skipn 5 (bg_events session)); vm_compute; reflexivity|].
  split; [exists (firstn 12 (bg_events session)), (skipn 14 (bg_events session)); vm_compute; reflexivity|].
  split; [exists (firstn 22 (bg_events session)); vm_compute; reflexivity|].
  exists (firstn 3 (bg_events preempted)). eexists. split; [vm_compute; reflexivity|reflexivity].
Qed.
