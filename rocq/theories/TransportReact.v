(** What the background task does next with a datagram it received. *)
From Verif Require Import Base Addresses Tunneling Emi Core Transport Wire Spec ReactSpec TraceSpec TraceSpec2 BaseProofs
  TransportBase TransportInv TransportBg TransportBgThm TransportBgThm2 TransportMore TransportMore2 TransportReturn.
From Coq Require Import Lia.
Open Scope N_scope.

Lemma ack_packet_eq ch seq : tunneling_ack_packet {| ta_chan := ch; ta_seq := seq; ta_status := 0 |} = ack_datagram ch seq.
Proof. reflexivity. Qed.
Lemma next_by_dispatch c start ls tr s a d e b :
  exec c start ls tr s -> bg_events tr = a ++ [EvBgRecv d] ++ e :: b ->
  match dispatch d with
  | BAck ch seq _ => acked ch seq e
  | BRecv => ignored e
  | BClear => e = EvCleared
  | BEnded => e = EvBgEnd
  | _ => True
  end.
Proof.
  intros H E. rewrite app_assoc in E.
  destruct (bg_split _ _ _ _ _ _ _ _ H E) as (tr0&s0&l&s1&e1&e2&H0&Hs&Hl&Ea&_&_).
  destruct e1 as [|x e1] using rev_ind.
  - rewrite app_nil_r in Ea. cbn [app] in Hs. destruct (last_recv _ _ _ _ _ _ _ H0 (eq_sym Ea)) as [Hp|(D&Hp)].
    + destruct (dispatch d) as [| | | | | | | |ch seq k| | | | | |] eqn:Ed; try exact I;
      destruct l; try discriminate Hl; cbn [step] in Hs; unfold bg_step, bg_recv_err, bg_timeout, bg_tick in Hs;
        rewrite Hp in Hs; try discriminate Hs; break Hs; try discriminate Hs; try (injection Hs as _ <- _);
        unfold ignored, acked; rewrite <- ?ack_packet_eq; auto;
        try (left; first [exists true; reflexivity|exists false; reflexivity]); try (right; right; eexists; reflexivity).
    + rewrite D. destruct l; try discriminate Hl; cbn [step] in Hs; unfold bg_step, bg_recv_err, bg_timeout, bg_tick in Hs;
        rewrite Hp in Hs; try discriminate Hs; injection Hs as _ <- _; unfold ignored; auto.
  - clear IHe1. rewrite app_assoc in Ea. apply app_inj_tail in Ea. destruct Ea as (_&<-).
    remember ((e1 ++ [EvBgRecv d]) ++ e :: e2) as es eqn:Ee.
    destruct l; try discriminate Hl; inv_step Hs; rewrite <- app_assoc in Ee; cbn [app] in Ee;
      try (destruct e1 as [|? [|? [|]]]; discriminate Ee);
      try (match type of Ee with context [stop_events ?b] => destruct b eqn:? end;
           destruct e1 as [|? [|? [|]]]; try discriminate Ee; cbn in Ee; try (injection Ee as <- <- _);
           match goal with G : dispatch _ = _ |- _ => rewrite G end; auto).
Qed.
Lemma reacts c start ls tr s a d e b r :
  exec c start ls tr s -> Forall bytes (arrived tr) -> bg_events tr = a ++ EvBgRecv d :: e :: b ->
  looks_like (recv_buffer d) r -> reaction r e b.
Proof.
  intros H Hb E L.
  assert (Bd : bytes d).
  { eapply bgrecv_bytes; [exact H|exact Hb|]. rewrite E. apply in_or_app. right. left. reflexivity. }
  pose proof (next_by_dispatch _ _ _ _ _ _ _ _ _ H E) as Hn. rewrite (dispatch_of _ _ Bd L) in Hn.
  destruct r as [t|t|f|x|x|x]; cbn [reaction] in *; try exact Hn.
  - destruct (ss_status x =? 0); exact Hn.
  - pose proof (response_stops _ _ _ _ _ _ _ _ _ H Hb E L) as K. injection K as -> ->. auto.
  - exact L.
Qed.
(** Nothing but the end of the interval between heart beats can come before the
    acknowledgement, and the task can send it at once. *)
Lemma acks_at_once c start ls tr s a d r ok :
  exec c start ls tr s -> Forall bytes (arrived tr) -> bg_events tr = a ++ [EvBgRecv d] -> looks_like (recv_buffer d) r ->
  match r with
  | RTunReq t => exists s' es, step c s (LBg ok) = Some (s', send_event ok Bg (ack_datagram (tr_chan t) (tr_seq t)) :: es)
  | RFeature f => exists s' es, step c s (LBg ok) = Some (s', send_event ok Bg (ack_datagram (fr_chan f) (fr_seq f)) :: es)
  | _ => True
  end.
Proof.
  intros H Hb E L.
  assert (Bd : bytes d).
  { eapply bgrecv_bytes; [exact H|exact Hb|]. rewrite E. apply in_or_app. right. left. reflexivity. }
  pose proof (dispatch_of _ _ Bd L) as D.
  destruct r as [t|t|f|x|x|x]; try exact I;
    (destruct (last_recv _ _ _ _ _ _ _ H E) as [Hp|(K&_)]; [|congruence]);
    rewrite D in Hp; unfold step, bg_step; rewrite Hp; do 2 eexists; reflexivity.
Qed.
