(** In prompt executions an answer ends the call in the instant of its arrival. *)
From Verif Require Import Base Addresses Apdu Tunneling Emi Core Transport Wire Spec TraceSpec TraceSpec2 LiveSpec PromptSpec AnswerSpec BaseProofs CoreProofs EmiProofs
  ResponseProofs MessageMore TransportBase TransportInv TransportConn TransportCalls TransportReturn TransportThm TransportThm2 TransportThm3
  TransportBg TransportBgThm TransportBgThm2 TransportBgThm4 TransportMore TransportMore2 TransportRuns TransportLive TransportReads TransportRecover
  TransportFair TransportPrompt TransportPrompt2.
From Coq Require Import Lia ZifyBool ZifyNat ZifyN.
Open Scope N_scope.

(** ** What an answer does, in the model *)
Lemma answered_effect p o d r :
  answered o d r ->
  exists chan seq bs m, dispatch d = BAck chan seq (Some bs) /\ after_ack p (Some bs) = BEnq m /\
    forall s t dl, on_message s t o dl m = finish s t o r [EvDeq t m].
Proof.
  assert (G : forall chan seq code is c1 c2 src dst len apci data,
    byte chan -> byte seq -> indication_octets code is c1 c2 src dst len apci data ->
    exists js i, dispatch (tunnel_datagram chan seq (cemi_bytes code is (ldata_bytes c1 c2 src dst len apci data))) =
        BAck chan seq (Some (cemi_bytes code is (ldata_bytes c1 c2 src dst len apci data))) /\
      let m := {| ce_code := code; ce_infos := js; ce_service := ldata_bytes c1 c2 src dst len apci data |} in
      after_ack p (Some (cemi_bytes code is (ldata_bytes c1 c2 src dst len apci data))) = BEnq m /\
      ldata_ind_from_cemi m = Ok i /\ ld_dest (li_data i) = dst /\ li_value i = short_or_long len apci data).
  { intros chan seq code is c1 c2 src dst len apci data B1 B2 Hi.
    destruct (indication_parts _ _ _ _ _ _ _ _ _ Hi) as (P1&P2&P3). destruct Hi as (H1&H2&H3&H4&H5&H6&H7&H8&H9&L).
    set (svc := ldata_bytes c1 c2 src dst len apci data) in *.
    destruct (cemi_read_known p code is svc) as (js&Ej&Ec); [eapply Forall_impl, H2; intros ? (K&_); exact K|exact P3|].
    destruct (indication_reads js code c1 c2 src dst len apci data H3 H4 H5 H6 H7 H8 H9) as (i&Ei&Ed&_&Ev&_).
    exists js, i. split.
    - apply (dispatch_of _ (RTunReq {| tr_chan := chan; tr_seq := seq; tr_cemi := cemi_bytes code is svc |})).
      + apply frame_bytes_tunnel; assumption.
      + apply tunnelled_looks. lia.
    - split; [unfold after_ack, run_on; rewrite Ec; reflexivity|]. auto. }
  intros A. destruct A as [a chan seq is c1 c2 src len apci data B1 B2 Hi|a v small chan seq is c1 c2 src dst len apci data B1 B2 Hi
    |a v small chan seq code is c1 c2 src dst len apci data B1 B2 Hi N|chan seq code is c1 c2 src dst len apci data B1 B2 Hi];
    destruct (G _ _ _ _ _ _ _ _ _ _ _ B1 B2 Hi) as (js&i&D&E&Ei&Ed&Ev); eexists _, _, _, _; (split; [exact D|split; [exact E|]]); intros s t dl; unfold on_message; cbn [ce_code].
  - change (0x29 =? code_LDataCon) with false. change (0x29 =? code_LDataInd) with true. cbv iota. rewrite Ei, Ed, N.eqb_refl, Ev. reflexivity.
  - reflexivity.
  - change code_LDataCon with 0x2e. destruct (N.eqb_spec code 0x2e); [congruence|reflexivity].
  - reflexivity.
Qed.
Definition asks_bus (o : op) : Prop := match o with ORead _ | OWrite _ _ _ | ODisconnect => True | _ => False end.
Lemma answered_asks o d r : answered o d r -> asks_bus o.
Proof. destruct 1; exact I. Qed.
Lemma asked_waits c start ls tr s t o body n2 d :
  exec c start ls tr s -> in_call t o tr body -> asks_bus o -> In (n2, EvSend (Cl t) d) body -> exists dl, s_clients s t = CWaitQ o dl.
Proof.
  intros H I Ho Hi. destruct (in_call_pc _ _ _ _ _ _ _ _ H I) as (G&n&Hh).
  assert (Hn : sends t ((n, EvInvoke t o) :: body) <> []).
  { intro F. rewrite sends_nil in F. specialize (F (n2, EvSend (Cl t) d)). cbn in F. rewrite Nat.eqb_refl in F.
    discriminate F. auto. }
  destruct (s_clients s t) as [|o1|o1 ?|o1 ? ?|o1|o1 ch|o1 bs|o1 dl|o1| |] eqn:Ep; cbn in G; try discriminate G; injection G as G; subst; cbn [hist] in Hh.
  - exfalso. apply Hn. eapply opened_sends, Hh.
  - exfalso. apply Hn. destruct Hh as (_&_&Hh). eapply opened_sends, Hh.
  - exfalso. apply Hn. destruct Hh as (_&_&Hh). eapply numbered_sends, Hh.
  - exfalso. apply Hn. destruct Hh as (_&Hh). eapply opened_sends, Hh.
  - exfalso. apply Hn. destruct Hh as (_&_&Hh). eapply opened_sends, Hh.
  - exfalso. apply Hn. eapply ready_sends, Hh.
  - eauto.
  - exfalso. destruct Hh as ([->| ->]&_); destruct Ho.
  - destruct Ho.
  - destruct Ho.
Qed.

(** ** Before the answer *)
(** The task listens and nothing is waiting, or a receive error is about to end the connection. *)
Definition listens (s : sys) : Prop := s_rxq s = [] /\ (s_bg s = BClear \/ s_bg s = BRecv /\ s_inbox s = []).
(** Other tasks can do nothing that matters while [t] waits. *)
Lemma others_wait c start ls tr s t o dl l u s' es :
  exec c start ls tr s -> c_mode c = MClient -> s_clients s t = CWaitQ o dl -> asks_bus o ->
  step c s l = Some (s', es) -> call_label l = Some u -> u <> t ->
  s_now s' = s_now s /\ s_bg s' = s_bg s /\ s_rxq s' = s_rxq s /\ s_inbox s' = s_inbox s /\ s_clients s' t = s_clients s t.
Proof.
  intros H Hm Et Ho Hs Hc Hu. pose proof (lock_inv _ _ _ _ _ H) as L.
  assert (T : s_tlock s = Some t) by (apply L; rewrite Et; destruct o; try destruct Ho; reflexivity).
  assert (Hh : holds (s_clients s u) = false). { destruct (holds (s_clients s u)) eqn:E; [apply L in E; congruence|reflexivity]. }
  pose proof (op_mode_inv _ _ _ _ _ H u) as M. rewrite Hm in M.
  destruct (call_frame _ _ _ _ _ _ Hs Hc) as (En&_&_&Eb&_&_&Eo&_). rewrite En, Eb, (Eo t) by congruence. split; [reflexivity|]. split; [reflexivity|].
  assert (D : s_rxq s' = s_rxq s /\ s_inbox s' = s_inbox s); [|tauto].
  destruct (s_clients s u) as [|o1|o1 ?|o1 ? ?|o1|o1 ch|o1 bs|o1 dl1|o1| |] eqn:Ep; try discriminate Hh.
  - destruct l; try discriminate Hc; injection Hc as ->; inv_step Hs; sys; auto; congruence.
  - destruct l; try discriminate Hc; injection Hc as ->; inv_step Hs; sys; auto; congruence.
  - specialize (M o1 eq_refl). destruct o1; try discriminate Hh. discriminate M.
Qed.
Lemma listening c start ls tr s :
  prompt c start ls tr s -> c_mode c = MClient -> s_rx_alive s = true ->
  forall t o body n2 d, Forall (fun x => fst x < s_now s) tr -> connected_now tr = true ->
  in_call t o tr body -> asks_bus o -> In (n2, EvSend (Cl t) d) body -> listens s.
Proof.
  induction 1 as [|tr s l s' es HP IH Hs HT]; intros Hm Ha t o body n2 d F C I Ho Hi.
  - exfalso. destruct I as (h&n&E&_). destruct h; discriminate E.
  - pose proof (prompt_exec _ _ _ _ _ HP) as H. pose proof (alive_back _ _ _ _ _ Hs Ha) as Ha0.
    assert (E : es = []).
    { destruct es as [|e es]; [reflexivity|]. exfalso. apply Forall_app in F. destruct F as [_ F]. inversion F as [|? ? X]; subst.
      cbn in X. rewrite (event_now _ _ _ _ _ Hs ltac:(discriminate)) in X. lia. }
    subst es. cbn [stamp map] in *. rewrite app_nil_r in *.
    destruct (asked_waits _ _ _ _ _ _ _ _ _ _ H I Ho Hi) as (dl&Et).
    pose proof (conn_inv _ _ _ _ _ H) as K. pose proof (connected_inv _ _ _ _ _ H) as CN. rewrite C in CN.
    assert (D : (exists dt, l = LTime dt) \/ forall dt, l <> LTime dt) by (destruct l; eauto; right; discriminate).
    destruct D as [(dt&->)|D].
    + injection Hs as <-. sysb_in F. sysb_in Ha.
      assert (Z : Forall (fun x => fst x < s_now s) tr \/ dt <> 0) by (destruct (N.eq_dec dt 0) as [->|Z]; [left; rewrite N.add_0_r in F; exact F|right; exact Z]).
      destruct Z as [Z|Z]; [destruct (IH Hm Ha t o body n2 d Z C I Ho Hi); split; auto|].
      pose proof (lets_last _ _ _ (HT _ eq_refl) Z) as R. unfold listens. sysb.
      pose proof (R (LCl t true) Logic.I) as RC. cbn in RC. rewrite Ha in RC. unfold cl_step in RC. sysb_in RC. rewrite Et in RC.
      destruct (s_rxq s) as [|m rq] eqn:Eq.
      2:{ exfalso. unfold on_message, finish, goto in RC. destruct o; try destruct Ho; repeat match type of RC with context [match ?x with _ => _ end] => destruct x end; discriminate RC. }
      split; [reflexivity|]. right.
      pose proof (R (LBg true) Logic.I) as RB. cbn in RB. unfold bg_step in RB. sysb_in RB.
      pose proof (client_not_locked _ _ _ _ _ H Hm) as NL. unfold cd_locked in NL. unfold bg_gone in RC. sysb_in RC.
      destruct (s_bg s) eqn:Eb; try discriminate RB; try discriminate RC; try discriminate NL;
        try (rewrite (proj2 K eq_refl) in CN; discriminate CN).
      * split; [reflexivity|]. destruct (s_inbox s); [reflexivity|discriminate RB].
      * exfalso. rewrite Ha, Eq in RB. discriminate RB.
      * exfalso. destruct (s_conn s); discriminate RB.
    + rewrite (other_now _ _ _ _ _ Hs D) in F. destruct (IH Hm Ha0 t o body n2 d F C I Ho Hi) as [L1 L2]. unfold listens.
      destruct (call_label l) as [u|] eqn:Hc.
      * destruct (Nat.eq_dec u t) as [->|N].
        -- exfalso. destruct l; try discriminate Hc; injection Hc as ->; cbn in Hs; rewrite ?Ha0 in Hs;
             unfold cl_step, cl_sock_err, cl_timeout, cl_dbg, cl_cancel, invoke, bg_gone, finish in Hs; rewrite ?Et, ?L1 in Hs; cbn [pc_op] in Hs;
             try discriminate Hs.
           ++ destruct L2 as [L2|(L2&_)]; rewrite L2 in Hs; discriminate Hs.
           ++ destruct o; try discriminate Hs; destruct (dl <=? s_now s); discriminate Hs.
        -- destruct (others_wait _ _ _ _ _ _ _ _ _ _ _ _ H Hm Et Ho Hs Hc N) as (_&->&->&->&_). auto.
      * destruct (bg_label l) eqn:Hb.
        -- destruct L2 as [L2|(L2&L3)]; destruct l; try discriminate Hb; cbn in Hs; unfold bg_step, bg_recv_err, bg_timeout, bg_tick in Hs; rewrite ?L2, ?L3 in Hs;
             try discriminate Hs; try (injection Hs as <-; sysb; auto; fail).
           destruct (s_hb s <=? s_now s); discriminate Hs.
        -- destruct l; try discriminate Hb; try discriminate Hc; cbn in Hs; try discriminate Hs; break Hs; injection Hs as <-; sysb; auto.
Qed.

(** ** On its way *)
Definition on_its_way (n : N) (t : nat) (o : op) (dl : N) (d : list N) (b1 b2 : bg_pc) (m : cemi) (s : sys) : Prop :=
  s_now s = n /\ s_clients s t = CWaitQ o dl /\
  ((s_bg s = BClear /\ s_rxq s = []) \/
   (s_bg s = BRecv /\ (exists q, s_inbox s = d :: q) /\ s_rxq s = []) \/
   ((s_bg s = b1 \/ s_bg s = b2) /\ s_rxq s = []) \/
   exists q, s_rxq s = m :: q).
Lemma way_step c start ls tr s l s' es n t o dl d chan seq bs m r :
  exec c start ls tr s -> c_mode c = MClient -> s_rx_alive s = true -> asks_bus o ->
  dispatch d = BAck chan seq (Some bs) -> after_ack (c_prof c) (Some bs) = BEnq m ->
  (forall s t dl, on_message s t o dl m = finish s t o r [EvDeq t m]) ->
  step c s l = Some (s', es) -> (forall dt, l = LTime dt -> lets_pass c s dt) ->
  ~ In EvTick es -> ~ In EvCleared es -> ~ In (EvCancel t o) es ->
  on_its_way n t o dl d (BAck chan seq (Some bs)) (BEnq m) m s ->
  on_its_way n t o dl d (BAck chan seq (Some bs)) (BEnq m) m s' \/ exists r', In (EvRet t o r') es /\ (r' = r \/ r' = RErr ETimeout /\ is_transfer o /\ dl <= n).
Proof.
  intros H Hm Ha Ho Hd Haf Hon Hs HT NT NC NX (En&Et&Ph). unfold on_its_way.
  assert (D : (exists dt, l = LTime dt) \/ forall dt, l <> LTime dt) by (destruct l; eauto; right; discriminate).
  destruct D as [(dt&->)|D].
  { left. injection Hs as <- <-. sysb. destruct (N.eq_dec dt 0) as [->|Z].
    - rewrite N.add_0_r. eauto.
    - exfalso. assert (R : at_rest c (set_now s (s_now s + 0))) by (apply (HT _ eq_refl); lia).
      pose proof (R (LBg true) I) as RB. pose proof (R (LCl t true) I) as RC. cbn in RB, RC. rewrite Ha in RC.
      unfold bg_step in RB. unfold cl_step in RC. sysb_in RB. sysb_in RC. rewrite Et in RC.
      destruct Ph as [(P&_)|[(P&(q&Q)&Z1)|[([P|P]&Z1)|(q&Q)]]].
      + rewrite P in RB. discriminate RB.
      + rewrite P, Q in RB. discriminate RB.
      + rewrite P in RB. discriminate RB.
      + rewrite P, Ha, Z1 in RB. discriminate RB.
      + rewrite Q, Hon in RC. discriminate RC. }
  assert (En' : s_now s' = n) by (rewrite (other_now _ _ _ _ _ Hs D); exact En).
  destruct (call_label l) as [u|] eqn:Hc.
  - destruct (Nat.eq_dec u t) as [->|N].
    + destruct (call_frame _ _ _ _ _ _ Hs Hc) as (_&_&_&Eb&_).
      destruct l; try discriminate Hc; injection Hc as ->; cbn in Hs; rewrite ?Ha in Hs;
        unfold cl_step, cl_sock_err, cl_timeout, cl_dbg, cl_cancel, invoke in Hs; rewrite ?Et in Hs; cbn [pc_op] in Hs; try discriminate Hs.
      * right. destruct Ph as [(P&Z)|[(P&(q&Q)&Z)|[([P|P]&Z)|(q&Q)]]].
        -- rewrite Z in Hs. unfold bg_gone in Hs. rewrite P in Hs. discriminate Hs.
        -- rewrite Z in Hs. unfold bg_gone in Hs. rewrite P in Hs. discriminate Hs.
        -- rewrite Z in Hs. unfold bg_gone in Hs. rewrite P in Hs. discriminate Hs.
        -- rewrite Z in Hs. unfold bg_gone in Hs. rewrite P in Hs. discriminate Hs.
        -- rewrite Q, Hon in Hs. injection Hs as <- <-. exists r. split; [right; left; reflexivity|auto].
      * right. destruct o; try discriminate Hs; destruct (N.leb_spec dl (s_now s)); try discriminate Hs; injection Hs as <- <-;
          eexists; (split; [left; reflexivity|right; split; [reflexivity|split; [exact I|lia]]]).
      * injection Hs as <- <-. destruct NX. left. reflexivity.
    + left. destruct (others_wait _ _ _ _ _ _ _ _ _ _ _ _ H Hm Et Ho Hs Hc N) as (_&->&->&->&->). rewrite Et. eauto.
  - left. split; [exact En'|]. destruct (bg_label l) eqn:Hb.
    + destruct (bg_frame _ _ _ _ _ Hs Hb) as (_&_&_&Ec&_). rewrite Ec, Et. split; [reflexivity|].
      destruct Ph as [(P&Z)|[(P&(q&Q)&Z)|[([P|P]&Z)|(q&Q)]]].
      * exfalso. destruct l; try discriminate Hb; cbn in Hs; unfold bg_step, bg_recv_err, bg_timeout, bg_tick in Hs; rewrite P in Hs; try discriminate Hs.
        injection Hs as <- <-. destruct NC. left. reflexivity.
      * destruct l; try discriminate Hb; cbn in Hs; unfold bg_step, bg_recv_err, bg_timeout, bg_tick in Hs; rewrite P in Hs; try discriminate Hs.
        -- rewrite Q, Hd in Hs. injection Hs as <- <-. sysb. right. right. left. auto.
        -- injection Hs as <- <-. sysb. auto.
        -- destruct (s_hb s <=? s_now s); [|discriminate Hs]. injection Hs as <- <-. destruct NT. left. reflexivity.
      * destruct l; try discriminate Hb; cbn in Hs; unfold bg_step, bg_recv_err, bg_timeout, bg_tick in Hs; rewrite P in Hs; try discriminate Hs.
        -- rewrite Haf in Hs. injection Hs as <- <-. sysb. destruct ok; [right; right; left; auto|auto].
        -- destruct (s_hb s <=? s_now s); [|discriminate Hs]. injection Hs as <- <-. destruct NT. left. reflexivity.
      * destruct l; try discriminate Hb; cbn in Hs; unfold bg_step, bg_recv_err, bg_timeout, bg_tick in Hs; rewrite P in Hs; try discriminate Hs.
        -- rewrite Ha, Z in Hs. injection Hs as <- <-. sysb. right. right. right. eexists. reflexivity.
        -- destruct (s_hb s <=? s_now s); [|discriminate Hs]. injection Hs as <- <-. destruct NT. left. reflexivity.
      * right. right. right. destruct l; try discriminate Hb; inv_step Hs; sysb; rewrite ?Q; cbn [app]; eauto.
    + destruct l; try discriminate Hb; try discriminate Hc; try (destruct (D dt); reflexivity); inv_step Hs; sysb; split; eauto.
      destruct Ph as [(P&Z)|[(P&(q&Q)&Z)|[P|P]]]; auto. right. left. rewrite Q. cbn [app]. eauto.
Qed.
Lemma not_stamped n tr m es e : not_at n e (tr ++ stamp m es) -> m = n -> not_at n e tr /\ ~ In e es.
Proof.
  unfold not_at. intros H ->. split; intro X; apply H; apply in_or_app; [left; exact X|]. right. apply (in_map (fun x => (n, x))), X.
Qed.
Lemma arrives_by c s l s' es d : step c s l = Some (s', es) -> In (EvArrive d) es -> l = LArrive d /\ es = [EvArrive d] /\ s' = set_inbox s (s_inbox s ++ [d]).
Proof.
  intros Hs I. destruct (call_label l) as [t|] eqn:Hc; [|destruct (bg_label l) eqn:Hb].
  - exfalso. destruct l; try discriminate Hc; injection Hc as ->; inv_step Hs; repeat (destruct I as [I|I]; [discriminate I|]); destruct I.
  - exfalso. destruct l; try discriminate Hb; inv_step Hs; cbn in I; unfold send_event, stop_events, after_ack, dispatch in I;
      repeat match type of I with context [match ?x with _ => _ end] => destruct x | context [if ?x then _ else _] => destruct x end;
      repeat (destruct I as [I|I]; [discriminate I|]); destruct I.
  - destruct l; try discriminate Hc; try discriminate Hb; inv_step Hs; try (destruct I; fail). destruct I as [I|I]; [|destruct I]. injection I as ->. auto.
Qed.
Lemma asked_deadline c start ls tr s t o dl body n2 d :
  exec c start ls tr s -> in_call t o tr body -> is_transfer o -> In (n2, EvSend (Cl t) d) body -> s_clients s t = CWaitQ o dl ->
  Forall (fun x => fst x + 10000 <= dl) body.
Proof.
  intros H I Ho Hi Et. destruct (in_call_pc _ _ _ _ _ _ _ _ H I) as (_&n&Hh). rewrite Et in Hh. cbn [hist] in Hh.
  destruct o; try destruct Ho.
  - destruct Hh as (cur0&ms&_&_&_&T&_). inversion T; subst. assumption.
  - destruct Hh as (_&T&_). inversion T; subst. assumption.
Qed.
Theorem answered_at_once c start ls tr s p n d q t o r body n2 d0 :
  prompt c start ls tr s -> c_mode c = MClient -> s_rx_alive s = true ->
  tr = p ++ (n, EvArrive d) :: q -> n < s_now s ->
  Forall (fun x => fst x < n) p -> connected_now p = true ->
  in_call t o p body -> In (n2, EvSend (Cl t) d0) body -> answered o d r ->
  not_at n EvTick q -> not_at n EvCleared q -> not_at n (EvCancel t o) q ->
  exists r', In (n, EvRet t o r') q /\ (r' = r \/ r' = RErr ETimeout /\ Forall (fun x => fst x + 10000 <= n) body).
Proof.
  intros HP Hm Ha E Hn F C I Hi A NT NC NX.
  pose proof (answered_asks _ _ _ A) as Ho. destruct (answered_effect (c_prof c) _ _ _ A) as (chan&seq&bs&m&E1&E2&E3).
  assert (G : (exists dl, (is_transfer o -> Forall (fun x => fst x + 10000 <= dl) body) /\ on_its_way n t o dl d (BAck chan seq (Some bs)) (BEnq m) m s) \/
    exists r', In (n, EvRet t o r') q /\ (r' = r \/ r' = RErr ETimeout /\ Forall (fun x => fst x + 10000 <= n) body)).
  2:{ destruct G as [(dl&_&G&_)|G]; [lia|exact G]. }
  clear Hn. revert Ha q E NT NC NX. induction HP as [|tr s l s' es HP IH Hs HT]; intros Ha q E NT NC NX; [destruct p; discriminate E|].
  pose proof (prompt_exec _ _ _ _ _ HP) as H. pose proof (alive_back _ _ _ _ _ Hs Ha) as Ha0.
  apply app_split in E. destruct E as [(q'&->&->)|(p'&->&E)].
  - assert (Q : not_at n EvTick q' /\ not_at n EvCleared q' /\ not_at n (EvCancel t o) q').
    { repeat split; intro X; [apply NT|apply NC|apply NX]; apply in_or_app; left; exact X. }
    destruct Q as (Q1&Q2&Q3). destruct (IH Ha0 q' eq_refl Q1 Q2 Q3) as [(dl&DL&W)|(r'&R1&R2)].
    + pose proof W as (En&_). apply not_stamped in NT, NC, NX; try exact En.
      destruct (way_step _ _ _ _ _ _ _ _ n t o dl d chan seq bs m r H Hm Ha0 Ho E1 E2 E3 Hs HT (proj2 NT) (proj2 NC) (proj2 NX) W) as [W'|(r'&R1&R2)]; [left; eauto|].
      right. exists r'. split; [apply in_or_app; right; rewrite En; apply (in_map (fun x => (n, x))), R1|].
      destruct R2 as [R2|(R2&R3&R4)]; [auto|right]. split; [exact R2|]. eapply Forall_impl; [|exact (DL R3)]. cbn. lia.
    + right. exists r'. split; [apply in_or_app; left; exact R1|exact R2].
  - apply stamp_split in E. destruct E as (e1&e'&e2&->&->&E&->). injection E as -> <-.
    destruct (arrives_by _ _ _ _ _ d Hs ltac:(apply in_or_app; right; left; reflexivity)) as (->&E&->).
    destruct e1 as [|x e1]; [|destruct e1; discriminate E]. injection E as E. subst e2. cbn [stamp map] in *. rewrite app_nil_r in *.
    left. destruct (listening _ _ _ _ _ HP Hm Ha0 t o body n2 d0 F C I Ho Hi) as [L1 L2].
    destruct (asked_waits _ _ _ _ _ _ _ _ _ _ H I Ho Hi) as (dl&Et). exists dl.
    split; [intro Ht; eapply asked_deadline; eassumption|].
    split; [reflexivity|]. split; [exact Et|]. sysb. destruct L2 as [L2|(L2&L3)]; [left; auto|]. right. left.
    rewrite L3. cbn [app]. eauto.
Qed.
