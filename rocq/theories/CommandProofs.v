(** Lemmas about commands on the bus. *)
From Verif Require Import Base Addresses Apdu Tunneling Emi Core Transport Wire Spec TraceSpec TraceSpec2 CommandSpec
  BaseProofs TransportBase TransportInv TransportCalls TransportReturn TransportThm TransportRuns.
From Coq Require Import Lia ZifyBool ZifyNat ZifyN.
Open Scope N_scope.

Definition tele_of (a : N) (x : command) : list N :=
  match x with
  | Read => cemi_bytes 0x11 [] (ldata_bytes 0xbc 0xe0 0 a 1 apci_group_read [])
  | WriteBits v => cemi_bytes 0x11 [] (ldata_bytes 0xbc 0xe0 0 a 1 (apci_group_write + v) [])
  | WriteOctets v => cemi_bytes 0x11 [] (ldata_bytes 0xbc 0xe0 0 a ((1 + N.of_nat (length v)) mod 256) apci_group_write v)
  end.
Lemma telegram_of o a x : command_of o = Some (a, x) -> telegram o = tele_of a x /\ match x with WriteBits v => v < 64 | _ => True end.
Proof.
  assert (Hw : forall v, hd 0 v mod 64 < 64) by (intro v; apply N.mod_upper_bound; discriminate).
  destruct o as [b|b v []| | | |b|b v []| | |]; intro H; try discriminate H; injection H as <- <-; split; auto; reflexivity.
Qed.
Lemma telegram_command o o' a x a' x' :
  command_of o = Some (a, x) -> command_of o' = Some (a', x') ->
  (telegram o = telegram o' <-> a = a' /\ same_command x x').
Proof.
  intros H H'. destruct (telegram_of _ _ _ H) as (->&B), (telegram_of _ _ _ H') as (->&B'). clear H H' o o'.
  unfold tele_of, cemi_bytes, ldata_bytes, apci_group_read, apci_group_write. cbn [infos_bytes flat_map length app N.of_nat].
  assert (W : forall m n, m / 256 = n / 256 -> m mod 256 = n mod 256 -> m = n).
  { intros m n H1 H2. rewrite (N.div_mod m 256), (N.div_mod n 256) by discriminate. congruence. }
  split.
  - destruct x as [|v|v], x' as [|v'|v']; cbn [app length same_command]; unfold word; cbn [app]; intro T;
      injection T; intros; try (split; [apply W; assumption|]); try reflexivity; subst; try congruence.
    all: try (split; congruence).
    all: repeat match goal with H : context [(128 + ?z) mod 256] |- _ => rewrite (N.mod_small (128 + z)) in H by lia end.
    all: try discriminate; try (exfalso; lia).
    all: try (f_equal; lia).
    all: try (split; [reflexivity|lia]).
  - intros (->&S). destruct x as [|v|v], x' as [|v'|v']; cbn [same_command] in S; try discriminate S; try (injection S as ->; reflexivity); try reflexivity.
    all: destruct S as (->&->); reflexivity.
Qed.
Lemma tunnel_inj ch sq t ch' sq' t' : tunnel_datagram ch sq t = tunnel_datagram ch' sq' t' -> t = t'.
Proof. unfold tunnel_datagram, frame, word. cbn [app]. intro H. injection H. intros. assumption. Qed.
Lemma encodes_command o d a x : command_of o = Some (a, x) -> encodes o d -> exists ch sq, d = tunnel_datagram ch sq (telegram o).
Proof. intros H G. destruct o; try discriminate H; exact G. Qed.
Lemma done_encodes c start ls tr s t o d a x :
  exec c start ls tr s -> well_typed tr -> done_with tr t o d -> command_of o = Some (a, x) ->
  exists ch sq, d = tunnel_datagram ch sq (telegram o).
Proof.
  intros X W (p&n&r&q&body&E&S&I&D) C.
  destruct (success_sent _ _ _ _ _ _ _ _ _ _ _ X W E S) as (body'&I'&G).
  assert (body' = body).
  { destruct I as (h&n1&E1&N1), I' as (h'&n2&E2&N2). rewrite E1 in E2. clear -E2 N1 N2.
    revert h' E2. induction h as [|y h IH]; intros [|y' h'] E2; cbn [app] in E2.
    - injection E2 as _ <-. reflexivity.
    - exfalso. injection E2 as _ E2. destruct (N1 (n2, EvInvoke t o)) as (_&Z); [rewrite E2; apply in_or_app; right; left; reflexivity|].
      exact (Z o eq_refl).
    - exfalso. injection E2 as _ E2. destruct (N2 (n1, EvInvoke t o)) as (_&Z); [rewrite <- E2; apply in_or_app; right; left; reflexivity|].
      exact (Z o eq_refl).
    - injection E2 as _ E2. exact (IH h' E2). }
  subst body'. apply (encodes_command o d a x C).
  destruct o; try discriminate C; destruct G as (d'&G1&G2); rewrite G1 in D; injection D as ->; exact G2.
Qed.
Lemma same_datagram c start ls tr s t o c' start' ls' tr' s' t' o' d a x a' x' :
  exec c start ls tr s -> well_typed tr -> exec c' start' ls' tr' s' -> well_typed tr' ->
  done_with tr t o d -> done_with tr' t' o' d -> command_of o = Some (a, x) -> command_of o' = Some (a', x') ->
  a = a' /\ same_command x x'.
Proof.
  intros X W X' W' D D' C C'.
  destruct (done_encodes _ _ _ _ _ _ _ _ _ _ X W D C) as (ch&sq&->).
  destruct (done_encodes _ _ _ _ _ _ _ _ _ _ X' W' D' C') as (ch'&sq'&E). apply tunnel_inj in E.
  apply (telegram_command o o' a x a' x' C C'), E.
Qed.

(** ** Different writes with the same datagram *)
Definition one_write (v : list N) (small : bool) : list label :=
  connect_with 7 ++ call4 1 (OWrite lamp v small) ++ deliver (tunnelled 7 0 (group_con 0xbc 0x0901 [0])) ++ [LCl 1 true].
Lemma one_write_done v small d :
  (v, small) = ([], false) \/ (v, small) = ([0], true) \/ (v, small) = ([64], true) ->
  d = tunnel_datagram 7 0 (cemi_bytes 0x11 [] (ldata_bytes 0xbc 0xe0 0 0x0901 1 apci_group_write [])) ->
  exists tr s, exec client 0 no_listeners tr s /\ well_typed tr /\ done_with tr 1 (OWrite lamp v small) d.
Proof.
  intros H ->.
  assert (G : forall k, (k = 12)%nat -> exists tr s, exec client 0 no_listeners tr s /\ well_typed tr /\
    tr = firstn k tr ++ (0, EvRet 1 (OWrite lamp v small) RUnit) :: skipn (S k) tr /\
    call_events 1 (firstn k tr) = firstn 0 (call_events 1 (firstn k tr)) ++ (0, EvInvoke 1 (OWrite lamp v small)) :: skipn 1 (call_events 1 (firstn k tr)) /\
    sends 1 (skipn 1 (call_events 1 (firstn k tr))) = [EvSend (Cl 1) (tunnel_datagram 7 0 (cemi_bytes 0x11 [] (ldata_bytes 0xbc 0xe0 0 0x0901 1 apci_group_write [])))] /\
    forallb (fun x => negb (call_end 1 (snd x)) && match snd x with EvInvoke 1 _ => false | _ => true end) (skipn 1 (call_events 1 (firstn k tr))) = true).
  { intros k ->. destruct H as [H|[H|H]]; injection H as -> ->; [execution (one_write [] false)|execution (one_write [0] true)|execution (one_write [64] true)]; (split; [typed|vm_compute; repeat split]). }
  destruct (G _ eq_refl) as (tr&s&X&W&E&I&D&B). exists tr, s. split; [exact X|]. split; [exact W|].
  exists (firstn 12 tr), 0, RUnit, (skipn 13 tr), (skipn 1 (call_events 1 (firstn 12 tr))).
  split; [exact E|]. split; [exact Logic.I|]. split; [|exact D].
  exists [], 0. split; [exact I|]. intros x Hx. rewrite forallb_forall in B. specialize (B x Hx).
  apply andb_prop in B. destruct B as (B1&B2). split; [destruct (call_end 1 (snd x)); [discriminate B1|reflexivity]|].
  intros o' Eo. rewrite Eo in B2. discriminate B2.
Qed.
