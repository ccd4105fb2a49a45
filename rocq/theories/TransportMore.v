(** Delivered messages in terms of octets. *)
From Verif Require Import Base Addresses Apdu Tunneling Emi Core Transport Wire Spec TraceSpec BaseProofs EmiProofs
  TransportBase TransportInv TransportConn TransportCalls TransportReturn TransportThm TransportThm2
  TransportBg TransportBgThm TransportBgThm4.
From Coq Require Import Lia ZifyBool ZifyNat ZifyN.
Open Scope N_scope.

Lemma bytes_repeat0 n : bytes (repeat 0 n).
Proof. induction n; [constructor|]. cbn. apply bytes_cons. split; [lia|assumption]. Qed.
Lemma bytes_firstn n l : bytes l -> bytes (firstn n l).
Proof. intro H. rewrite <- (firstn_skipn n l) in H. apply bytes_app in H. tauto. Qed.
Lemma recv_buffer_bytes d : bytes d -> bytes (recv_buffer d).
Proof. intro H. unfold recv_buffer. apply bytes_app. split; [apply bytes_firstn; exact H|apply bytes_repeat0]. Qed.
Lemma request_cemi_bytes d t : bytes d -> looks_like (recv_buffer d) (RTunReq t) -> bytes (tr_cemi t).
Proof.
  intros Hb (size&pad&tail&_&E&->). apply recv_buffer_bytes in Hb. rewrite E in Hb.
  rewrite !bytes_app in Hb. apply bytes_app. split; [apply bytes_firstn; tauto|apply bytes_repeat0].
Qed.

(** The octets [bs], filled up with zeros if too short, are the message [m]. *)
Lemma cemi_reads p bs m :
  bytes bs -> run_on (cemi_from_packet p) bs = Ok m -> cemi_octets bs m.
Proof.
  intros Hb H. unfold run_on in H. destruct (cemi_from_packet p bs) as [[c rest]| |] eqn:E; try discriminate. injection H as ->.
  destruct (cemi_factor _ _ _ _ Hb E) as (_&size&n&E1&E2&_). exists size, n. auto.
Qed.
Lemma octets_service bs m : bytes bs -> cemi_octets bs m -> bytes (ce_service m).
Proof.
  intros Hb (size&n&E&_). assert (B : bytes (bs ++ repeat 0 n)) by (apply bytes_app; split; [exact Hb|apply bytes_repeat0]).
  rewrite E in B. rewrite !bytes_app in B. tauto.
Qed.
Lemma delivered c start ls tr s a m b :
  exec c start ls tr s -> Forall bytes (arrived tr) -> bg_events tr = a ++ EvEnq m :: b ->
  exists a' d t, a = a' ++ [EvBgRecv d; EvSend Bg (ack_datagram (tr_chan t) (tr_seq t))] /\
    looks_like (recv_buffer d) (RTunReq t) /\ cemi_octets (tr_cemi t) m.
Proof.
  intros H Hb E. destruct (delivered_acked _ _ _ _ _ _ _ _ H Hb E) as (a'&d&t&->&L&R).
  exists a', d, t. split; [reflexivity|]. split; [exact L|]. eapply cemi_reads; [|exact R].
  eapply request_cemi_bytes; [|exact L]. eapply bgrecv_bytes; [exact H|exact Hb|].
  rewrite E. apply in_or_app. left. apply in_or_app. right. left. reflexivity.
Qed.
Lemma queued_service c start ls tr s m :
  exec c start ls tr s -> Forall bytes (arrived tr) -> In m (queued tr) -> bytes (ce_service m).
Proof.
  intros H Hb Hi. unfold queued in Hi. apply in_flat_map in Hi. destruct Hi as ((n&e)&Hi&He). cbn in He.
  destruct e; try contradiction. destruct He as [->|[]].
  assert (I : In (EvEnq m) (bg_events tr)).
  { apply in_bg_events; [reflexivity|]. apply in_evs. eauto. }
  apply in_split in I. destruct I as (a&b&E). destruct (delivered _ _ _ _ _ _ _ _ H Hb E) as (a'&d&t&->&L&O).
  eapply octets_service; [|exact O]. eapply request_cemi_bytes; [|exact L]. eapply bgrecv_bytes; [exact H|exact Hb|].
  rewrite E. apply in_or_app. left. apply in_or_app. right. left. reflexivity.
Qed.
Lemma taken_service c start ls tr s t m n :
  exec c start ls tr s -> Forall bytes (arrived tr) -> In (n, EvDeq t m) tr -> bytes (ce_service m).
Proof.
  intros H Hb Hi. eapply queued_service; [exact H|exact Hb|]. destruct (queue_inv _ _ _ _ _ H) as (->&_).
  apply in_or_app. left. unfold taken. apply in_flat_map. exists (n, EvDeq t m). split; [exact Hi|]. left. reflexivity.
Qed.

Lemma indication_iff m i : bytes (ce_service m) -> (ldata_ind_from_cemi m = Ok i <-> indication_of m i).
Proof.
  intro Hb. split.
  - intro E. assert (L : (9 <= length (ce_service m))%nat).
    { destruct (Nat.lt_ge_cases (length (ce_service m)) 9) as [L|L]; [|exact L]. apply ldata_ind_err_iff in L. congruence. }
    destruct (service_nine _ Hb L) as (c1&c2&src&dst&len&apci&data&B1&B2&B3&Es).
    exists c1, c2, src, dst, len, apci, data. repeat split; auto.
    apply (ldata_ind_value m i c1 c2 src dst len apci data B1 B2 B3 Es). exact E.
  - intros (c1&c2&src&dst&len&apci&data&B1&B2&B3&Es&->). apply (ldata_ind_value m _ c1 c2 src dst len apci data B1 B2 B3 Es). reflexivity.
Qed.
Lemma no_indication_iff m : (forall i, ldata_ind_from_cemi m <> Ok i) <-> (length (ce_service m) < 9)%nat.
Proof.
  rewrite <- ldata_ind_err_iff. split.
  - intro H. pose proof (ldata_ind_np m). destruct (ldata_ind_from_cemi m) as [i| |]; [exfalso; eapply H; reflexivity|reflexivity|congruence].
  - intros -> i. discriminate.
Qed.

(** The calls' results. *)
Lemma in_call_in t o p body x : in_call t o p body -> In x body -> In x p.
Proof.
  intros (h&n&E&_) Hi. assert (In x (call_events t p)) by (rewrite E; apply in_or_app; right; right; exact Hi).
  unfold call_events in *. apply filter_In in H. tauto.
Qed.
Lemma takes_app t a b : takes t (a ++ b) = takes t a ++ takes t b.
Proof. apply map_app. Qed.
Lemma in_takes t n m ms : In (n, m) ms -> In (n, EvDeq t m) (takes t ms).
Proof. intro H. unfold takes. apply in_map_iff. exists (n, m). auto. Qed.
Lemma read_result c start ls tr s p n t a v q :
  exec c start ls tr s -> Forall bytes (arrived tr) -> tr = p ++ (n, EvRet t (ORead a) (RBytes v)) :: q ->
  exists n1 seq n2 d ms n3 m i,
    in_call t (ORead a) p ([(n1, EvSeq t seq); (n2, EvSend (Cl t) d)] ++ takes t (ms ++ [(n3, m)])) /\
    is_ind m /\ indication_of m i /\ ld_dest (li_data i) = addr_to_u16 a /\ v = li_value i /\
    Forall (not_for a) (map snd ms).
Proof.
  intros H Hb E. destruct (read_value _ _ _ _ _ _ _ _ _ _ _ H E) as (n1&seq&n2&d&ms&n3&m&i&I&Hm&Hi&Hd&Hv&Hs).
  exists n1, seq, n2, d, ms, n3, m, i. rewrite takes_app. split; [exact I|].
  assert (B : forall x y, In (x, EvDeq t y) ([(n1, EvSeq t seq); (n2, EvSend (Cl t) d)] ++ takes t ms ++ [(n3, EvDeq t m)]) -> bytes (ce_service y)).
  { intros x y Hy. eapply taken_service; [exact H|exact Hb|]. rewrite E. apply in_or_app. left. eapply in_call_in; [exact I|exact Hy]. }
  split; [exact Hm|]. split; [|split; [exact Hd|split; [exact Hv|]]].
  - apply indication_iff; [|exact Hi]. apply (B n3). apply in_or_app. right. apply in_or_app. right. left. reflexivity.
  - rewrite Forall_forall in Hs |- *. intros y Hy. specialize (Hs y Hy). apply in_map_iff in Hy. destruct Hy as ((x&y')&Ey&Hy). cbn in Ey. subst y'.
    intro Hc. destruct (Hs Hc) as (j&J1&J2). exists j. split; [|exact J2]. apply indication_iff; [|exact J1].
    apply (B x). apply in_or_app. right. apply in_or_app. left. apply in_takes. exact Hy.
Qed.
Lemma next_result c start ls tr s p n t r q :
  exec c start ls tr s -> Forall bytes (arrived tr) -> tr = p ++ (n, EvRet t ONextMsg r) :: q ->
  exists body, in_call t ONextMsg p body /\ next_outcome t p r body.
Proof.
  intros H Hb E. destruct (next_returns _ _ _ _ _ _ _ _ _ _ H E) as (body&I&O). exists body. split; [exact I|].
  destruct r as [| | |i| | |[]]; cbn [next_outcome0 next_outcome] in *; try contradiction.
  - destruct O as (ms&n3&m&->&F&C&J). exists ms, n3, m. rewrite takes_app. split; [reflexivity|]. split; [exact F|]. split; [exact C|].
    apply indication_iff; [|exact J]. eapply (taken_service _ _ _ _ _ t m n3 H Hb). rewrite E. apply in_or_app. left.
    eapply in_call_in; [exact I|]. apply in_or_app. right. left. reflexivity.
  - exact O.
  - destruct O as (ms&n3&m&->&F&C&J). exists ms, n3, m. rewrite takes_app. split; [reflexivity|]. split; [exact F|]. split; [exact C|].
    apply no_indication_iff. exact J.
Qed.

(** Why the task stops. *)
Lemma stop_reason c start ls tr s a e b :
  exec c start ls tr s -> Forall bytes (arrived tr) -> bg_events tr = a ++ e :: b ->
  match e with
  | EvBgEnd => b = [] /\ exists a' d r, a = a' ++ [EvBgRecv d] /\ looks_like (recv_buffer d) (RDiscResp r)
  | EvBgPanic => b = [] /\ exists a' d, 
      (a = a' ++ [EvBgRecv d] /\ exists size chan seq pad rest, size < 10 /\
          recv_buffer d = [0x06; 0x10] ++ word 0x0420 ++ word size ++ [4; chan; seq; pad] ++ rest) \/
      (c_prof c = Debug /\ exists t, a = a' ++ [EvBgRecv d; EvSend Bg (ack_datagram (tr_chan t) (tr_seq t))] /\
          looks_like (recv_buffer d) (RTunReq t) /\ info_overflow (tr_cemi t))
  | _ => True
  end.
Proof.
  intros H Hb E. pose proof (end_reason _ _ _ _ _ _ _ _ H Hb E) as R. destruct e; try exact I; [exact R|].
  destruct R as (->&[(a'&d&size&chan&seq&pad&rest&->&Hs&Er)|(a'&d&t&->&L&P)]); (split; [reflexivity|]); exists a', d.
  - left. split; [reflexivity|]. exists size, chan, seq, pad, rest. auto.
  - right. assert (B : bytes (tr_cemi t)).
    { eapply request_cemi_bytes; [|exact L]. eapply bgrecv_bytes; [exact H|exact Hb|].
      rewrite E. apply in_or_app. left. apply in_or_app. right. left. reflexivity. }
    apply (cemi_panic_iff _ _ B) in P. destruct P as (Pd&code&size&is&ty&k&rest&Eb&K1&K2). split; [exact Pd|].
    exists t. split; [reflexivity|]. split; [exact L|].
    exists code, size, (map info_pair is), (info_code ty), k, rest. auto.
Qed.
