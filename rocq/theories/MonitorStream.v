(** The stream of messages next_msg returns. *)
From Verif Require Import Base Addresses Apdu Tunneling Emi Core Transport Wire Spec TraceSpec TraceSpec2 SessionSpec MonitorSpec BaseProofs
  EmiProofs TransportBase TransportInv TransportReturn TransportMore TransportRuns TransportLive TransportLive2 TransportOrder TransportCalls TransportSession.
From Coq Require Import Lia ZifyBool ZifyNat ZifyN.
Open Scope N_scope.

(** ** Nothing lost, repeated or reordered *)
Definition shown0 (m : cemi) (r : api_result) : Prop :=
  match ldata_ind_from_cemi m with Ok i => r = RInd i | _ => r = RErr EBadCemi end.
Lemma deliveries_app a b : deliveries (a ++ b) = deliveries a ++ deliveries b. Proof. apply flat_map_app. Qed.
(** A next_msg call is waiting for the lock or for a message. *)
Definition next_pc (pc : client_pc) : Prop :=
  match pc with CLock _ | CWaitQ _ _ => True | _ => pc_op pc <> Some ONextMsg end.
Lemma next_pc_inv c start ls tr s : exec c start ls tr s -> forall t, next_pc (s_clients s t).
Proof.
  intros H t. destruct (hist_inv _ _ _ _ _ H t) as (h&cur&_&_&Hh).
  destruct (s_clients s t) as [|o1|o1 ?|o1 ? ?|o1|o1 ch|o1 bs|o1 dl|o1| |]; cbn [next_pc pc_op hist] in *; try exact I; try discriminate;
    intro E; injection E as ->.
  - destruct Hh as (Hh&_). discriminate Hh.
  - destruct Hh as (Hh&_). discriminate Hh.
  - destruct Hh as (Hh&_). discriminate Hh.
  - destruct Hh as (Hh&_). discriminate Hh.
  - destruct Hh as [(Hh&_)|(Hh&_)]; discriminate Hh.
  - destruct Hh as ([Hh|Hh]&_); discriminate Hh.
Qed.
Lemma step_stream c s l s' es :
  step c s l = Some (s', es) -> c_mode c = MMonitor -> (forall t o, pc_op (s_clients s t) = Some o -> op_mode o = MMonitor) ->
  (forall t, next_pc (s_clients s t)) ->
  Forall2 shown0 (filter bus_message (taken (stamp (s_now s) es))) (deliveries (stamp (s_now s) es)).
Proof.
  intros Hs Hm Hop Hn. destruct l; inv_step Hs; cbn [stamp map taken deliveries delivery flat_map snd app filter]; try constructor.
  all: try (match goal with |- context [stop_events ?b] => destruct b end; cbn; constructor).
  all: try match goal with G : s_clients _ ?t = _ |- _ => specialize (Hop t); specialize (Hn t); rewrite G in Hop, Hn; specialize (Hop _ eq_refl); try discriminate Hop end.
  all: try (cbn [next_pc pc_op] in Hn; destruct o; try constructor; exfalso; apply Hn; reflexivity).
  all: unfold bus_message; change 0x29 with code_LDataInd; change 0x2b with code_LBusmonInd;
    repeat match goal with H : (_ || _) = _ |- _ => rewrite H end; try constructor.
  all: try (match goal with H : ce_code _ =? code_LDataCon = true |- _ => apply N.eqb_eq in H; rewrite H end; constructor).
  all: try constructor; unfold shown0; match goal with H : ldata_ind_from_cemi _ = _ |- _ => rewrite H end; reflexivity.
Qed.
Lemma stream0 c start ls tr s :
  exec c start ls tr s -> c_mode c = MMonitor -> Forall2 shown0 (filter bus_message (taken tr)) (deliveries tr).
Proof.
  intros H Hm. pattern tr, s. revert tr s H. apply exec_inv; [constructor|].
  intros tr s l s' es H IH Hs. rewrite taken_app, filter_app, deliveries_app. apply Forall2_app; [exact IH|].
  apply (step_stream _ _ _ _ _ Hs Hm).
  - intros t o E. rewrite <- Hm. eapply op_mode_inv; eauto.
  - eapply next_pc_inv; exact H.
Qed.
Lemma shown0_shown m r : bytes (ce_service m) -> shown0 m r -> shown m r.
Proof.
  intros B H. unfold shown0 in H. destruct (ldata_ind_from_cemi m) as [i| |] eqn:E; subst r; cbn [shown].
  - apply indication_iff; assumption.
  - apply ldata_ind_err_iff. exact E.
  - destruct (ldata_ind_np m). exact E.
Qed.
Lemma Forall2_in A B (P Q : A -> B -> Prop) xs ys :
  Forall2 P xs ys -> (forall x y, In x xs -> P x y -> Q x y) -> Forall2 Q xs ys.
Proof. induction 1; intro G; constructor; [apply G; [left; reflexivity|assumption]|apply IHForall2; intros; apply G; [right|]; assumption]. Qed.
Lemma in_taken_queued c start ls tr s m : exec c start ls tr s -> In m (taken tr) -> In m (queued tr).
Proof. intros H Hi. destruct (queue_inv _ _ _ _ _ H) as (->&_). apply in_or_app. left. exact Hi. Qed.
Lemma stream c start ls tr s :
  exec c start ls tr s -> c_mode c = MMonitor -> Forall bytes (arrived tr) ->
  exists rest, queued tr = taken tr ++ rest /\ Forall2 shown (filter bus_message (taken tr)) (deliveries tr).
Proof.
  intros H Hm Hb. destruct (queue_inv _ _ _ _ _ H) as (E&_). exists (s_rxq s). split; [exact E|].
  apply (Forall2_in _ _ _ _ _ _ (stream0 _ _ _ _ _ H Hm)). intros m r Hi. apply shown0_shown.
  apply filter_In in Hi. eapply queued_service; [exact H|exact Hb|]. eapply in_taken_queued; [exact H|apply Hi].
Qed.
Lemma sublist_nil A (l : list A) : sublist [] l.
Proof. induction l; constructor; assumption. Qed.
Lemma sublist_trans A (b c : list A) : sublist b c -> forall a, sublist a b -> sublist a c.
Proof.
  induction 1 as [|x b c S IH|x b c S IH]; intros a Sa; [exact Sa| |constructor; apply IH, Sa].
  inversion Sa; subst; constructor; apply IH; assumption.
Qed.
Lemma stream_datagrams c start ls tr s :
  exec c start ls tr s -> c_mode c = MMonitor -> Forall bytes (arrived tr) ->
  exists ds, sublist ds (received tr) /\
    Forall2 (fun d r => exists m, carries d m /\ bus_message m = true /\ shown m r) ds (deliveries tr).
Proof.
  intros H Hm Hb. destruct (stream _ _ _ _ _ H Hm Hb) as (rest&E&F).
  destruct (delivered_in_order _ _ _ _ _ H Hb) as (ds&S&G). rewrite E in G. clear E H Hb.
  assert (K : exists ds0, sublist ds0 ds /\ Forall2 (fun d r => exists m, carries d m /\ bus_message m = true /\ shown m r) ds0 (deliveries tr)).
  { clear S. revert ds G F. generalize (deliveries tr), (taken tr). intros os ms. revert os.
    induction ms as [|m ms IH]; intros os ds G F; cbn [filter app] in *.
    - inversion F; subst. exists []. split; [apply sublist_nil|constructor].
    - inversion G as [|d ? ds' ? C G' E]; subst. destruct (bus_message m) eqn:Bm.
      + inversion F as [|? o ? os' Sh F' E]; subst. destruct (IH _ _ G' F') as (ds0&S0&P). exists (d :: ds0).
        split; [constructor; exact S0|]. constructor; [exists m; auto|exact P].
      + destruct (IH _ _ G' F) as (ds0&S0&P). exists ds0. split; [constructor; exact S0|exact P]. }
  destruct K as (ds0&S0&P). exists ds0. split; [eapply sublist_trans; eauto|exact P].
Qed.

(** ** The backlog can be fetched *)
Lemma next_step c s t dl m q :
  s_rx_alive s = true -> s_clients s t = CWaitQ ONextMsg dl -> s_rxq s = m :: q ->
  exists s' r, step c s (LCl t true) = Some (s', EvDeq t m :: if bus_message m then [EvRet t ONextMsg r] else []) /\
    (bus_message m = true -> shown0 m r) /\
    s_clients s' t = (if bus_message m then CIdle else CWaitQ ONextMsg (s_now s + ms_api)) /\
    s_rx_alive s' = true /\ s_rxq s' = q /\ s_now s' = s_now s /\ s_bg s' = s_bg s /\ s_inbox s' = s_inbox s /\ (s_tlock s = None -> s_tlock s' = None).
Proof.
  intros Ha Hp Hq. cbn [step]. rewrite Ha. unfold cl_step. rewrite Hp, Hq. unfold on_message, bus_message.
  change 0x29 with code_LDataInd. change 0x2b with code_LBusmonInd. unfold shown0, finish, goto.
  destruct (N.eqb_spec (ce_code m) code_LDataCon) as [E|E].
  - rewrite E. cbn [N.eqb orb code_LDataCon code_LDataInd code_LBusmonInd Pos.eqb]. eexists _, RUnit. split; [reflexivity|]. split; [discriminate|].
    sysb. rewrite upd_same. repeat split; auto.
  - destruct ((ce_code m =? code_LDataInd) || (ce_code m =? code_LBusmonInd)).
    + destruct (ldata_ind_from_cemi m) as [i| |]; eexists _, _; (split; [reflexivity|]); sys; rewrite upd_same;
        repeat split; auto; intros ->; reflexivity.
    + eexists _, RUnit. split; [reflexivity|]. split; [discriminate|]. sysb. rewrite upd_same. repeat split; auto.
Qed.
(** No call of [t], or one that waits for a message; nobody has the lock. *)
Definition listening (s : sys) (t : nat) : Prop :=
  s_rx_alive s = true /\ s_tlock s = None /\ (s_clients s t = CIdle \/ exists dl, s_clients s t = CWaitQ ONextMsg dl).
Definition same_task (s s' : sys) : Prop := s_now s' = s_now s /\ s_bg s' = s_bg s /\ s_inbox s' = s_inbox s.
Lemma start_next c s t :
  c_mode c = MMonitor -> listening s t -> exists sched es s' dl, Forall (fetching t) sched /\ run c s sched = Some (s', stamp (s_now s) es) /\
    (es = [] \/ es = [EvInvoke t ONextMsg]) /\
    listening s' t /\ s_clients s' t = CWaitQ ONextMsg dl /\ s_rxq s' = s_rxq s /\ same_task s s'.
Proof.
  intros Hm (Ha&Hl&[Hp|(dl&Hp)]).
  - eexists [LInvoke t ONextMsg; LCl t true], [EvInvoke t ONextMsg], _, _. split; [constructor; [left; reflexivity|constructor; [right; reflexivity|constructor]]|].
    split.
    { cbn [run step]. rewrite Ha. unfold invoke. rewrite Hp, Hm. cbn [op_mode op_apdu]. sysb. rewrite Ha. unfold cl_step. sysb. rewrite upd_same, Hl.
      unfold after_lock, goto. reflexivity. }
    split; [right; reflexivity|]. unfold listening, same_task. sys. rewrite Nat.eqb_refl, !upd_same. repeat split; eauto.
  - exists [], [], s, dl. split; [constructor|]. split; [reflexivity|]. unfold listening, same_task. repeat split; eauto.
Qed.
Lemma fetch_all c t ms : forall s rest,
  c_mode c = MMonitor -> listening s t -> s_rxq s = ms ++ rest ->
  exists sched s' es rs, Forall (fetching t) sched /\ run c s sched = Some (s', stamp (s_now s) es) /\
    arrived (stamp (s_now s) es) = [] /\
    results (stamp (s_now s) es) = map (fun r => (t, ONextMsg, r)) rs /\ Forall2 shown0 (filter bus_message ms) rs /\
    listening s' t /\ s_rxq s' = rest /\ same_task s s'.
Proof.
  induction ms as [|m ms IH]; intros s rest Hm Hl Hq.
  - exists [], s, [], []. unfold same_task. do 4 (split; [try reflexivity; constructor|]). split; [constructor|]. auto.
  - destruct (start_next c s t Hm Hl) as (sc1&es1&s1&dl&F1&R1&E1&(A1&L1&_)&P1&Q1&(N1&B1&I1)). rewrite Hq in Q1. cbn [app] in Q1.
    destruct (next_step c s1 t dl m _ A1 P1 Q1) as (s2&r&R2&S2&P2&A2&Q2&N2&B2&I2&L2).
    assert (Hl2 : listening s2 t). { split; [exact A2|]. split; [auto|]. rewrite P2. destruct (bus_message m); eauto. }
    destruct (IH s2 rest Hm Hl2 Q2) as (sc3&s3&es3&rs&F3&R3&V3&E3&G3&Hl3&Q3&(N3&B3&I3)).
    exists (sc1 ++ LCl t true :: sc3), s3, (es1 ++ (EvDeq t m :: if bus_message m then [EvRet t ONextMsg r] else []) ++ es3),
      ((if bus_message m then [r] else []) ++ rs).
    split; [apply Forall_app; split; [exact F1|]; constructor; [right; reflexivity|exact F3]|]. split.
    { rewrite run_app, R1. cbn [run]. rewrite R2, R3. unfold stamp. rewrite !map_app, N1, N2, N1. reflexivity. }
    rewrite N2, N1 in *. unfold stamp in *. rewrite !map_app, !arrived_app, !results_app, V3, E3.
    split; [destruct E1 as [->| ->]; destruct (bus_message m); reflexivity|].
    split; [destruct E1 as [->| ->]; destruct (bus_message m); reflexivity|].
    split. { cbn [filter]. destruct (bus_message m); [constructor; [apply S2; reflexivity|exact G3]|exact G3]. }
    split; [exact Hl3|]. split; [exact Q3|]. unfold same_task. repeat split; congruence.
Qed.
Lemma backlog c start ls tr s t ms rest :
  exec c start ls tr s -> c_mode c = MMonitor -> Forall bytes (arrived tr) -> s_rx_alive s = true ->
  s_tlock s = None -> s_clients s t = CIdle -> queued tr = taken tr ++ ms ++ rest ->
  exists sched s' tr' rs, Forall (fetching t) sched /\ run c s sched = Some (s', tr') /\
    results tr' = map (fun r => (t, ONextMsg, r)) rs /\ Forall2 shown (filter bus_message ms) rs.
Proof.
  intros H Hm Hb Ha Hl Hp Hq. pose proof (pending _ _ _ _ _ _ H Hq) as Q.
  destruct (fetch_all c t ms s rest Hm) as (sched&s'&es&rs&F&R&_&E&G&_); [split; [exact Ha|split; [exact Hl|left; exact Hp]]|exact Q|].
  exists sched, s', (stamp (s_now s) es), rs. repeat split; auto.
  apply (Forall2_in _ _ _ _ _ _ G). intros m r Hi. apply shown0_shown. apply filter_In in Hi. eapply queued_service; [exact H|exact Hb|].
  rewrite Hq. apply in_or_app. right. apply in_or_app. left. apply Hi.
Qed.

(** ** Sessions of the monitor *)
Lemma te_message_bus y m : te_message y m -> bus_message m = bus_tele y.
Proof. intros (E&_). unfold bus_message, bus_tele. rewrite E. reflexivity. Qed.
Lemma te_message_shown y m r : te_ok y -> te_message y m -> shown0 m r -> tele_shown y r.
Proof.
  intros (Bs&Ho) Hm S. destruct Ho as (H1&H2&H3&H4&H5&H6&H7&H8&H9&L).
  destruct (indication_reads (ce_infos m) (te_code y) _ _ _ _ _ _ _ H3 H4 H5 H6 H7 H8 H9) as (i&Ei&Ed&Es&Ev&Ec).
  assert (E : m = {| ce_code := te_code y; ce_infos := ce_infos m; ce_service := te_service y |}).
  { destruct Hm as (M1&_&M3). destruct m as [a b d]. cbn in *. subst. reflexivity. }
  unfold shown0 in S. rewrite E in S. unfold te_service in S. rewrite Ei in S. exists i. split; [exact S|]. rewrite Ec.
  split; [|repeat split; assumption]. unfold te_service in E. rewrite <- E. exact Hm.
Qed.
Lemma arrive_all c t ch ys : forall s,
  listening s t -> byte ch -> s_bg s = BRecv -> s_inbox s = [] -> Forall te_ok ys -> (length (s_rxq s) + length ys <= 100)%nat ->
  exists sched s' es ms, Forall (monitor_step t) sched /\ run c s sched = Some (s', stamp (s_now s) es) /\
    arrived (stamp (s_now s) es) = map (te_datagram ch) ys /\ results (stamp (s_now s) es) = [] /\
    Forall2 te_message ys ms /\ listening s' t /\ s_rxq s' = s_rxq s ++ ms /\ same_task s s'.
Proof.
  induction ys as [|y ys IH]; intros s Hl Bc Hb Hi F Hq.
  - exists [], s, [], []. unfold same_task. rewrite app_nil_r. do 5 (split; [try reflexivity; constructor|]). auto.
  - inversion F as [|? ? Hy F']; subst. cbn [length] in Hq. destruct Hl as (Ha&Hk&Hp). destruct Hy as (Bs&Ho).
    destruct (telegram_taken c s ch (te_seq y) _ _ _ _ _ _ _ _ _ Bc Bs Ho Hb Hi Ha) as (js&s1&Ej&R&R1&R2&R3&R4&R5&R6&R7&R8); [lia|].
    destruct (IH s1) as (sched&s2&es&ms&G1&G2&G3&G4&G5&G6&G7&(N1&B1&I1)); auto.
    { split; [exact R8|]. split; [congruence|]. rewrite R4. exact Hp. }
    { rewrite R3, app_length. cbn. lia. }
    exists ([LArrive (te_datagram ch y); LBg true; LBg true; LBg true] ++ sched), s2.
    set (m := {| ce_code := te_code y; ce_infos := js; ce_service := te_service y |}).
    exists ([EvArrive (te_datagram ch y); EvBgRecv (te_datagram ch y); EvSend Bg (ack_datagram ch (te_seq y)); EvEnq m] ++ es), (m :: ms). split.
    { apply Forall_app. split; [|exact G1]. constructor; [right; right; eauto|]. repeat (constructor; [right; left; reflexivity|]). constructor. }
    rewrite run_app. unfold te_datagram at 1, te_service at 1. rewrite R, G2, R7. unfold stamp in *. rewrite map_app, arrived_app, results_app.
    rewrite R7 in G3, G4. rewrite G3, G4. split; [reflexivity|].
    split; [reflexivity|]. split; [reflexivity|]. split; [constructor; [repeat split; exact Ej|exact G5]|split; [exact G6|]].
    rewrite G7, R3, <- app_assoc. unfold same_task. repeat split; congruence.
Qed.
Lemma bus_shown ys ms rs : Forall te_ok ys -> Forall2 te_message ys ms -> Forall2 shown0 (filter bus_message ms) rs ->
  Forall2 tele_shown (filter bus_tele ys) rs.
Proof.
  intros F M. revert rs F. induction M as [|y m ys ms Hm M IH]; intros rs F S; cbn [filter] in *; [inversion S; constructor|].
  inversion F; subst. rewrite (te_message_bus _ _ Hm) in S. destruct (bus_tele y); [|auto].
  inversion S; subst. constructor; [eapply te_message_shown; eauto|auto].
Qed.
Lemma batch_done c t ch ys s :
  c_mode c = MMonitor -> listening s t -> byte ch -> s_bg s = BRecv -> s_inbox s = [] -> s_rxq s = [] -> Forall te_ok ys -> (length ys <= 100)%nat ->
  exists sched s' es rs, Forall (monitor_step t) sched /\ run c s sched = Some (s', stamp (s_now s) es) /\
    arrived (stamp (s_now s) es) = map (te_datagram ch) ys /\
    results (stamp (s_now s) es) = map (fun r => (t, ONextMsg, r)) rs /\ Forall2 tele_shown (filter bus_tele ys) rs /\
    listening s' t /\ s_rxq s' = [] /\ same_task s s'.
Proof.
  intros Hm Hl Bc Hb Hi Hq F L.
  destruct (arrive_all c t ch ys s Hl Bc Hb Hi F) as (sc1&s1&es1&ms&F1&R1&V1&E1&M1&Hl1&Q1&(N1&B1&I1)); [rewrite Hq; exact L|].
  rewrite Hq in Q1. cbn [app] in Q1.
  destruct (fetch_all c t ms s1 [] Hm Hl1) as (sc2&s2&es2&rs&F2&R2&V2&E2&G2&Hl2&Q2&(N2&B2&I2)); [rewrite app_nil_r; exact Q1|].
  exists (sc1 ++ sc2), s2, (es1 ++ es2), rs. split.
  { apply Forall_app. split; [exact F1|]. eapply Forall_impl, F2. intros l H. left. exact H. }
  rewrite run_app, R1, R2, N1. unfold stamp in *. rewrite map_app. rewrite N1 in V2, E2. split; [reflexivity|].
  rewrite arrived_app, results_app, V1, V2, E1, E2, app_nil_r. split; [reflexivity|]. split; [reflexivity|].
  split; [eapply bus_shown; eauto|]. split; [exact Hl2|]. split; [exact Q2|]. unfold same_task. repeat split; congruence.
Qed.
Lemma batches_done c t ch bs : forall s,
  c_mode c = MMonitor -> listening s t -> byte ch -> s_bg s = BRecv -> s_inbox s = [] -> s_rxq s = [] ->
  Forall batch_ok bs ->
  exists sched s' es rs, Forall (monitor_step t) sched /\ run c s sched = Some (s', stamp (s_now s) es) /\
    arrived (stamp (s_now s) es) = map (te_datagram ch) (concat bs) /\
    results (stamp (s_now s) es) = map (fun r => (t, ONextMsg, r)) rs /\ Forall2 tele_shown (filter bus_tele (concat bs)) rs.
Proof.
  induction bs as [|ys bs IH]; intros s Hm Hl Bc Hb Hi Hq F.
  - exists [], s, [], []. do 4 (split; [try reflexivity; constructor|]). constructor.
  - inversion F as [|? ? (Hy&Ly) F']; subst.
    destruct (batch_done c t ch ys s Hm Hl Bc Hb Hi Hq Hy Ly) as (sc1&s1&es1&rs1&F1&R1&V1&E1&M1&Hl1&Q1&(N1&B1&I1)).
    destruct (IH s1 Hm Hl1 Bc) as (sc2&s2&es2&rs2&F2&R2&V2&E2&M2); try congruence; auto.
    exists (sc1 ++ sc2), s2, (es1 ++ es2), (rs1 ++ rs2). split; [apply Forall_app; auto|].
    rewrite run_app, R1, R2, N1. unfold stamp in *. rewrite map_app. rewrite N1 in V2, E2. split; [reflexivity|].
    cbn [concat]. rewrite arrived_app, results_app, V1, V2, E1, E2, !map_app, filter_app. split; [reflexivity|]. split; [reflexivity|].
    apply Forall2_app; assumption.
Qed.
Lemma monitor_whole p start ls t g ch ep bs :
  bytes g -> grants g ch ep -> byte ch -> Forall batch_ok bs ->
  exists sched s tr rs, Forall (monitor_step t) sched /\
    run {| c_mode := MMonitor; c_prof := p |} (init_sys start ls) sched = Some (s, tr) /\
    arrived tr = g :: map (te_datagram ch) (concat bs) /\
    results tr = map (fun r => (t, ONextMsg, r)) rs /\ Forall2 tele_shown (filter bus_tele (concat bs)) rs.
Proof.
  intros Bg Hg Bc F. set (c := {| c_mode := MMonitor; c_prof := p |}).
  destruct (monitor_connects c (set_bg (init_sys start ls) BConnSend) g ch ep eq_refl eq_refl eq_refl Bg Hg eq_refl) as (s1&R1&P1&P2&P3&P4&P5&P6&P7&P8).
  destruct (batches_done c t ch bs s1 eq_refl) as (sc&s2&es&rs&F2&R2&V2&E2&M2); auto.
  { split; [exact P7|]. split; [exact P6|]. left. rewrite P5. reflexivity. }
  exists ([LBg true] ++ [LBg true; LArrive g; LBg true; LBg true; LBg true; LBg true] ++ sc). eexists s2, _, rs. split.
  { repeat (constructor; [first [right; left; reflexivity|right; right; eexists; reflexivity]|]). exact F2. }
  rewrite run_app.
  change (run c (init_sys start ls) [LBg true]) with (Some (set_bg (init_sys start ls) BConnSend, @nil (N * event))). cbv iota beta.
  rewrite run_app, R1, R2. split; [reflexivity|]. cbn [app]. rewrite arrived_app, results_app, V2, E2. split; [reflexivity|]. split; [reflexivity|exact M2].
Qed.
