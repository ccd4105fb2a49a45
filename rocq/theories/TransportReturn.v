(** Consequences for returning calls, in terms of traces. *)
From Verif Require Import Base Addresses Apdu Tunneling Emi Core Transport Wire Spec TraceSpec
  BaseProofs CoreProofs EmiProofs AddrProofs ResponseProofs CodecMore MessageMore
  TransportBase TransportInv TransportConn TransportCalls.
From Coq Require Import Lia ZifyBool ZifyNat ZifyN.
Open Scope N_scope.

(** ** Datagrams *)
Lemma telegram_eq p o pkt :
  wf_op o -> tunnel_op o = true -> op_cemi p o = Ok pkt -> pkt = telegram o.
Proof.
  assert (W : forall a v (A : apdu), wf_addr a -> group_value_write v false = Ok A ->
     ldata_req_packet p (ldata_req_new a (t_data_group A)) = Ok pkt ->
     pkt = cemi_bytes 0x11 [] (ldata_bytes 0xbc 0xe0 0 (addr_to_u16 a) ((1 + N.of_nat (length v)) mod 256) apci_group_write v)).
  { intros a v A Ha E1 E2. pose proof (write_apdu_length _ _ E1) as LA. pose proof (group_write_big _ _ E1) as EA.
    rewrite ldata_req_len in E2 by (cbn; apply addr_to_u16_bound; assumption).
    cbn [ldata_req_new lr_priority lr_dest lr_tpdu] in E2. unfold tpdu_packet, t_data_group in E2. cbn [tp_apdu] in E2.
    unfold lenN in E2. rewrite LA, EA in E2.
    assert (L : (1 + N.of_nat (length v)) mod 256 =
      if N.of_nat (2 + length v) mod 256 =? 0 then 255 else N.of_nat (2 + length v) mod 256 - 1).
    { clear. Ltac Zify.zify_post_hook ::= Z.div_mod_to_equations.
      destruct (N.eqb_spec (N.of_nat (2 + length v) mod 256) 0); lia. }
    rewrite L. destruct (N.of_nat (2 + length v) mod 256 =? 0).
    - destruct p; [discriminate|]. injection E2 as <-. reflexivity.
    - injection E2 as <-. reflexivity. }
  assert (S : forall a v (A : apdu), wf_addr a -> group_value_write v true = Ok A ->
     ldata_req_packet p (ldata_req_new a (t_data_group A)) = Ok pkt ->
     pkt = cemi_bytes 0x11 [] (ldata_bytes 0xbc 0xe0 0 (addr_to_u16 a) 1 (apci_group_write + hd 0 v mod 64) [])).
  { intros a v A Ha E1 E2. destruct v as [|b v]; [discriminate E1|].
    pose proof (small_write_request p a 3 b v A Ha E1) as R.
    change (set_priority (ldata_req_new a (t_data_group A)) 3) with (ldata_req_new a (t_data_group A)) in R.
    rewrite R in E2. injection E2 as <-. reflexivity. }
  assert (R : forall a, wf_addr a ->
     ldata_req_packet p (ldata_req_new a (t_data_group group_value_read)) = Ok pkt ->
     pkt = cemi_bytes 0x11 [] (ldata_bytes 0xbc 0xe0 0 (addr_to_u16 a) 1 apci_group_read [])).
  { intros a Ha E2. pose proof (read_request p a 3 Ha) as R.
    change (set_priority (ldata_req_new a (t_data_group group_value_read)) 3) with (ldata_req_new a (t_data_group group_value_read)) in R.
    rewrite R in E2. injection E2 as <-. reflexivity. }
  intros Hw Ht E. unfold op_cemi, bind in E. destruct o as [a|a v [|]| | | |a|a v [|]| | |]; try discriminate Ht;
    cbn [op_apdu op_addr] in E; cbn [wf_op] in Hw; cbn [telegram];
    try (apply R; assumption).
  all: match type of E with context [group_value_write ?v ?b] =>
         destruct (group_value_write v b) eqn:G; try discriminate E end.
  all: first [eapply S; [apply Hw|exact G|exact E] | eapply W; [apply Hw|exact G|exact E]].
Qed.
Lemma telegram_length o : wf_op o -> N.of_nat (length (telegram o)) <= 65500.
Proof.
  intro H. destruct o as [a|a v [|]| | | |a|a v [|]| | |]; cbn; try lia; cbn in H; destruct H as [_ H]; lia.
Qed.
Lemma request_eq c o ch seq bs :
  wf_op o -> tunnel_op o = true -> request c o ch seq bs -> bs = tunnel_datagram ch seq (telegram o).
Proof.
  intros Hw Ht (pkt&E1&E2). apply (telegram_eq _ _ _ Hw Ht) in E1. subst pkt.
  rewrite tunneling_request_frame in E2.
  - cbn [tr_chan tr_seq tr_cemi] in E2. injection E2 as <-. reflexivity.
  - cbn [tr_cemi]. unfold lenN. pose proof (telegram_length o Hw). lia.
Qed.
Lemma direct_eq o ch ep :
  wf_hpai ep -> direct o ch ep = match o with OStatus => state_datagram ch ep | _ => disconnect_datagram ch ep end.
Proof.
  intro H. destruct o; cbn [direct];
    first [rewrite disconnect_request_frame by exact H | rewrite connstate_request_frame by exact H]; reflexivity.
Qed.

Lemma consumed_in tr d : In d (consumed tr) <->
  In (EvConnRecv d) (evs tr) \/ In (EvBgRecv d) (evs tr) \/ exists t, In (EvClRecv t d) (evs tr).
Proof.
  unfold consumed. rewrite in_flat_map. split.
  - intros ([n e]&H&Hd). cbn in Hd. destruct e; cbn in Hd; try contradiction; destruct Hd as [->|[]];
      [left|right; left|right; right; exists t]; apply in_evs; eauto.
  - intros [H|[H|(t&H)]]; apply in_evs in H; destruct H as (n&H); eexists; (split; [exact H|]); cbn; auto.
Qed.
Lemma consumed_bytes c start ls tr s d :
  exec c start ls tr s -> Forall bytes (arrived tr) -> In d (consumed tr) -> bytes d.
Proof.
  intros H Hb Hd. rewrite (inbox_inv _ _ _ _ _ H) in Hb. apply Forall_app in Hb. destruct Hb as [Hb _].
  rewrite Forall_forall in Hb. auto.
Qed.
Lemma granted_grants c start ls tr s ch ep :
  exec c start ls tr s -> Forall bytes (arrived tr) -> granted tr ch ep ->
  exists d, In (EvConnRecv d) (evs tr) /\ grants d ch ep.
Proof.
  intros H Hb (d&r&Hd&Ha&<-&<-). exists d. split; [exact Hd|]. apply accept_grants; [|exact Ha].
  eapply consumed_bytes; eauto. apply consumed_in. auto.
Qed.
Lemma grants_wf d ch ep : grants d ch ep -> wf_hpai ep.
Proof. intros (?&?&?&_&_&_&H). exact H. Qed.

(** ** Modes *)
Lemma op_mode_inv c start ls tr s :
  exec c start ls tr s -> forall t o, pc_op (s_clients s t) = Some o -> op_mode o = c_mode c.
Proof.
  intro H. pattern tr, s. revert tr s H. apply exec_inv; [discriminate|].
  intros tr s l s' es H IH Hs t o E.
  assert (D : call_label l = Some t \/ call_label l <> Some t).
  { destruct (call_label l) as [u|]; [destruct (Nat.eq_dec u t); [left|right]; congruence|right; discriminate]. }
  destruct D as [D|D].
  - specialize (IH t). clear H. destruct l; try discriminate D; injection D as ->; inv_step Hs; revert E; sys; rewrite ?upd_same;
      cbn [pc_op]; intro E; try discriminate E; try (injection E as <-);
      try (repeat match goal with G : s_clients ?x ?u = _ |- _ => rewrite G in IH; clear G end; apply IH; reflexivity);
      try congruence; auto.
    all: match goal with G : s_clients _ _ = CIdle |- _ => rewrite G in E; discriminate E end.
  - apply (IH t). rewrite <- E. f_equal. symmetry.
    destruct (bg_label l) eqn:Hb; [destruct (bg_frame _ _ _ _ _ Hs Hb) as (_&_&_&->&_); reflexivity|].
    destruct (call_label l) as [u|] eqn:Hl.
    + apply (call_frame _ _ _ _ _ _ Hs Hl). congruence.
    + destruct (env_frame _ _ _ _ _ Hs Hb Hl) as (_&_&_&_&_&->&_). reflexivity.
Qed.

(** ** Which call is open *)
Lemma in_call_unique t o o' tr b b' : in_call t o tr b -> in_call t o' tr b' -> o = o' /\ b = b'.
Proof.
  intros (h&n&E&F) (h'&n'&E'&F'). rewrite E in E'. apply app_split in E'.
  destruct E' as [(q&E1&E2)|(q&E1&E2)].
  - (* the second one is inside h *)
    exfalso. assert (In (n, EvInvoke t o) b') as Hi by (rewrite E2; apply in_or_app; right; left; reflexivity).
    destruct (F' _ Hi) as [_ G]. apply (G o). reflexivity.
  - destruct q as [|x q].
    + injection E2 as _ -> ->. auto.
    + injection E2 as <- E2. exfalso.
      assert (In (n', EvInvoke t o') b) as Hi by (rewrite E2; apply in_or_app; right; left; reflexivity).
      destruct (F _ Hi) as [_ G]. apply (G o'). reflexivity.
Qed.

Definition quiet (t : nat) (body : trace) : Prop :=
  forall x, In x body -> call_end t (snd x) = false /\ forall o', snd x <> EvInvoke t o'.
Lemma quiet_nil t : quiet t []. Proof. intros x []. Qed.
Lemma quiet_app t a b : quiet t a -> quiet t b -> quiet t (a ++ b).
Proof. intros Ha Hb x Hx. apply in_app_or in Hx. destruct Hx; auto. Qed.
Lemma quiet_one t n e : call_end t e = false -> (forall o', e <> EvInvoke t o') -> quiet t [(n, e)].
Proof. intros H1 H2 x [<-|[]]. auto. Qed.
Lemma quiet_deqs t ms : quiet t (deqs t ms).
Proof.
  intros x Hx. unfold deqs in Hx. apply in_map_iff in Hx. destruct Hx as (y&<-&_). cbn. split; [reflexivity|discriminate].
Qed.
Lemma ready_call c tr t o bs cur : ready c tr t o bs cur ->
  exists n body, cur = (n, EvInvoke t o) :: body /\ quiet t body /\
    ((tunnel_op o = true /\ exists n1 seq, body = [(n1, EvSeq t seq)]) \/ (direct_op o = true /\ body = [])).
Proof.
  intros [[H (ch&ep&seq&G&R&(n&n1&->))]|[H (ch&ep&ch'&ep'&G&G'&R&(n&->))]]; eexists _, _; (split; [reflexivity|split]).
  - apply quiet_one; [reflexivity|discriminate].
  - left. eauto.
  - apply quiet_nil.
  - right. auto.
Qed.
Lemma sent_call c tr t o cur : sent c tr t o cur ->
  exists n body, cur = (n, EvInvoke t o) :: body /\ quiet t body.
Proof.
  intros (cur0&n&bs&H&->). destruct (ready_call _ _ _ _ _ _ H) as (n0&body&->&Q&_).
  eexists _, (body ++ [_]). split; [reflexivity|]. apply quiet_app; [exact Q|]. apply quiet_one; [reflexivity|discriminate].
Qed.
Lemma hist_call c tr t pc cur o : hist c tr t pc cur -> pc_op pc = Some o ->
  exists n body, cur = (n, EvInvoke t o) :: body /\ quiet t body.
Proof.
  intros H E.
  assert (O : forall o', opened t o' cur -> o' = o -> exists n body, cur = (n, EvInvoke t o) :: body /\ quiet t body).
  { intros o' (n&->) ->. exists n, []. split; [reflexivity|apply quiet_nil]. }
  destruct pc as [|o1|o1 ?|o1 ? ?|o1|o1 ch|o1 bs|o1 dl|o1| |]; cbn in H, E; try discriminate E; injection E as E; subst.
  - eauto.
  - destruct H as (_&_&H). eauto.
  - destruct H as (_&_&(n&n1&->)). eexists _, _. split; [reflexivity|]. apply quiet_one; [reflexivity|discriminate].
  - destruct H as (_&H). eauto.
  - destruct H as (_&_&H). eauto.
  - destruct (ready_call _ _ _ _ _ _ H) as (n0&body&->&Q&_). eauto.
  - destruct o; try contradiction.
    + destruct H as (cur0&ms&H&->&_). destruct (sent_call _ _ _ _ _ H) as (n&body&->&Q).
      exists n, (body ++ deqs t ms). split; [reflexivity|]. apply quiet_app; [exact Q|apply quiet_deqs].
    + destruct H as (H&_). eapply sent_call, H.
    + eapply sent_call, H.
    + destruct H as (cur0&ms&(n&->)&->&_). exists n, (deqs t ms). split; [reflexivity|apply quiet_deqs].
  - destruct H as (_&H). eapply sent_call, H.
  - eauto.
  - eauto.
Qed.
Lemma hist_in_call c start ls tr s t o :
  exec c start ls tr s -> pc_op (s_clients s t) = Some o -> exists body, in_call t o tr body.
Proof.
  intros H E. destruct (hist_inv _ _ _ _ _ H t) as (h&cur&E1&_&Hh).
  destruct (hist_call _ _ _ _ _ _ Hh E) as (n&body&->&Q). exists body, h, n. auto.
Qed.
(** A call is open in the trace exactly when it is in the state. *)
Lemma in_call_pc c start ls tr s t o body :
  exec c start ls tr s -> in_call t o tr body ->
  pc_op (s_clients s t) = Some o /\
  exists n, hist c tr t (s_clients s t) ((n, EvInvoke t o) :: body).
Proof.
  intros H I. destruct (hist_inv _ _ _ _ _ H t) as (h&cur&E1&Hc&Hh).
  destruct (pc_op (s_clients s t)) as [o'|] eqn:Ep.
  - destruct (hist_call _ _ _ _ _ _ Hh Ep) as (n&body'&->&Q).
    assert (I' : in_call t o' tr body') by (exists h, n; auto).
    destruct (in_call_unique _ _ _ _ _ _ I I') as [-> ->]. eauto.
  - exfalso. destruct (s_clients s t); try discriminate Ep. cbn in Hh. subst cur. rewrite app_nil_r in E1.
    destruct I as (h'&n&E2&F). rewrite E1 in E2. destruct Hc as [->|(h0&x&->&Hx)]; [destruct h'; discriminate E2|].
    destruct (exists_last (l := (n, EvInvoke t o) :: body)) as (l0&y&El); [discriminate|].
    rewrite El, app_assoc in E2. apply app_inj_tail in E2. destruct E2 as [_ ->].
    destruct l0 as [|z l0].
    + injection El as <- ->. discriminate Hx.
    + injection El as _ El. destruct (F y) as [G _]; [rewrite El; apply in_or_app; right; left; reflexivity|]. congruence.
Qed.

(** ** Sends *)
Lemma send_cases c s l s' e1 e2 t d :
  step c s l = Some (s', e1 ++ EvSend (Cl t) d :: e2) \/ step c s l = Some (s', e1 ++ EvSendFail (Cl t) d :: e2) ->
  e1 = [] /\ call_label l = Some t /\ exists o, s_clients s t = CSend o d.
Proof.
  intro Hs.
  assert (exists es, step c s l = Some (s', es) /\ (es = e1 ++ EvSend (Cl t) d :: e2 \/ es = e1 ++ EvSendFail (Cl t) d :: e2))
    as (es&Hs'&E) by (destruct Hs; eauto). clear Hs. rename Hs' into Hs.
  assert (B : forall e e' b, call_event t e' = true -> bg_event e = true -> e :: stop_events b = e1 ++ e' :: e2 -> False).
  { intros e e' b H1 H2 H3. assert (In e' (e :: stop_events b)) as [->|Hi] by (rewrite H3; apply in_or_app; right; left; reflexivity).
    - apply (bg_not_call t) in H2. rewrite H1 in H2. discriminate.
    - destruct b; cbn in Hi; try contradiction; destruct Hi as [<-|[]]; discriminate. }
  assert (C : call_event t (EvSend (Cl t) d) = true) by apply Nat.eqb_refl.
  destruct l; inv_step Hs; cbn [app] in E;
    try (destruct E as [E|E]; eapply B in E; try exact C; try reflexivity; contradiction);
    try (destruct E as [E|E]; (destruct e1; discriminate E));
    try (destruct E as [E|E]; apply one_last in E; destruct E as (->&E&->); try discriminate E; injection E as -> <-;
         repeat split; eauto; fail);
    try (destruct E as [E|E]; apply two_last in E; destruct E as [(->&E&->)|(->&E&->)]; try discriminate E;
         injection E as -> <-; repeat split; eauto; fail).
Qed.
Lemma send_hist c start ls tr s p n t d q :
  exec c start ls tr s ->
  tr = p ++ (n, EvSend (Cl t) d) :: q \/ tr = p ++ (n, EvSendFail (Cl t) d) :: q ->
  exists s0 o h cur, exec c start ls p s0 /\ s_clients s0 t = CSend o d /\
    call_events t p = h ++ cur /\ closed t h /\ ready c p t o d cur.
Proof.
  intros H E.
  assert (exists tr0 s0 l s1 e1 e2, exec c start ls tr0 s0 /\
     (step c s0 l = Some (s1, e1 ++ EvSend (Cl t) d :: e2) \/ step c s0 l = Some (s1, e1 ++ EvSendFail (Cl t) d :: e2)) /\
     p = tr0 ++ stamp (s_now s0) e1) as (tr0&s0&l&s1&e1&e2&H0&Hs&->).
  { destruct E as [E|E]; destruct (exec_split _ _ _ _ _ _ _ _ _ H E) as (tr0&s0&l&s1&e1&e2&H0&Hs&->&->&_);
      exists tr0, s0, l, s1, e1, e2; auto. }
  destruct (send_cases _ _ _ _ _ _ _ _ Hs) as (->&Hl&o&Hp). cbn [stamp map]. rewrite app_nil_r in *.
  destruct (hist_inv _ _ _ _ _ H0 t) as (h&cur&E0&Hc&Hh). rewrite Hp in Hh. exists s0, o, h, cur. auto.
Qed.

Lemma is_send_call t e : is_send t e = true -> call_event t e = true /\ call_end t e = false.
Proof. destruct e as [| | | |[] ?|[] ?| | | | | | | | | | | | | |]; cbn; try discriminate; auto. Qed.
(** A datagram of an earlier call is followed by that call's end. *)
Lemma acts_then_end (P : event -> bool) t tr h cur p x m :
  (forall e, P e = true -> call_event t e = true /\ call_end t e = false) ->
  call_events t tr = h ++ cur -> closed t h -> (forall y, In y cur -> P (snd y) = false) ->
  tr = p ++ x :: m -> P (snd x) = true -> exists y, In y m /\ call_end t (snd y) = true.
Proof.
  intros HP E Hc Hn -> Hx. destruct (HP _ Hx) as [Hx1 Hx2].
  rewrite call_events_app in E. unfold call_events at 2 in E. cbn [filter] in E. rewrite Hx1 in E.
  fold (call_events t m) in E. symmetry in E. apply app_split in E.
  destruct E as [(q'&->&E)|(p'&E1&->)].
  - destruct Hc as [Hc|(h'&z&Hc&Hz)].
    + destruct (call_events t p); discriminate Hc.
    + destruct q' as [|w q'] using rev_ind.
      * apply app_inj_tail in Hc. destruct Hc as [_ <-]. congruence.
      * change (call_events t p ++ x :: q' ++ [w]) with (call_events t p ++ (x :: q') ++ [w]) in Hc.
        rewrite app_assoc in Hc. apply app_inj_tail in Hc. destruct Hc as [_ <-]. exists w. split; [|exact Hz].
        assert (In w (call_events t m)) as Hw by (rewrite E; apply in_or_app; left; apply in_or_app; right; left; reflexivity).
        unfold call_events in Hw. apply filter_In in Hw. apply Hw.
  - specialize (Hn x). rewrite Hn in Hx; [discriminate|]. apply in_or_app. right. left. reflexivity.
Qed.
Lemma send_then_end t tr h cur p x m :
  call_events t tr = h ++ cur -> closed t h -> (forall y, In y cur -> is_send t (snd y) = false) ->
  tr = p ++ x :: m -> is_send t (snd x) = true -> exists y, In y m /\ call_end t (snd y) = true.
Proof. apply acts_then_end. exact (is_send_call t). Qed.
