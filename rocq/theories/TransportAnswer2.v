(** The monitor in prompt executions. *)
From Verif Require Import Base Addresses Apdu Tunneling Emi Core Transport Wire Spec TraceSpec TraceSpec2 LiveSpec PromptSpec AnswerSpec SessionSpec MonitorSpec AnswerSpec2
  BaseProofs CoreProofs EmiProofs
  ResponseProofs MessageMore TransportBase TransportInv TransportConn TransportCalls TransportReturn TransportThm TransportThm2 TransportThm3
  TransportBg TransportBgThm TransportBgThm2 TransportBgThm4 TransportMore TransportMore2 TransportRuns TransportLive TransportReads TransportRecover
  TransportFair TransportPrompt TransportPrompt2 TransportAnswer.
From Coq Require Import Lia ZifyBool ZifyNat ZifyN.
Open Scope N_scope.

Lemma no_disconnects_prefix a b : no_disconnects (a ++ b) -> no_disconnects a.
Proof. intros H t I. apply (H t). rewrite evs_app. apply in_or_app. left. exact I. Qed.

(** ** Where the calls of the monitor are *)
Definition mon_pc (pc : client_pc) : Prop :=
  match pc with
  | CChan2 _ | CEp _ _ | CWaitSock _ => False
  | CSeq o _ | CChan o _ _ | CSend o _ => tunnel_op o = true
  | CWaitQ o _ => o = ONextMsg
  | _ => True
  end.
Lemma mon_pcs c start ls tr s u :
  exec c start ls tr s -> c_mode c = MMonitor -> no_disconnects tr -> mon_pc (s_clients s u).
Proof.
  intros H Hm ND. pose proof (op_mode_inv _ _ _ _ _ H u) as M. rewrite Hm in M.
  assert (NDu : pc_op (s_clients s u) = Some OMDisconnect -> False).
  { intro E. destruct (hist_in_call _ _ _ _ _ _ _ H E) as (body&h&n&Ec&_). apply (ND u). apply in_evs. exists n.
    apply (proj1 (filter_In (fun x => call_event u (snd x)) (n, EvInvoke u OMDisconnect) tr)). fold (call_events u tr). rewrite Ec. apply in_or_app. right. left. reflexivity. }
  destruct (hist_inv _ _ _ _ _ H u) as (h&cur&_&_&Hh).
  destruct (s_clients s u) as [|o|o pkt|o pkt seq|o|o ch|o bs|o dl|o| |] eqn:Ep; cbn [mon_pc hist pc_op] in *; try exact I.
  - tauto.
  - tauto.
  - specialize (M o eq_refl). destruct Hh as (Hh&_). destruct o; try discriminate Hh; try discriminate M. exact (NDu eq_refl).
  - specialize (M o eq_refl). destruct Hh as (Hh&_). destruct o; try discriminate Hh; try discriminate M. exact (NDu eq_refl).
  - destruct Hh as [(Hh&_)|(Hh&_)]; [exact Hh|]. specialize (M o eq_refl). destruct o; try discriminate Hh; try discriminate M. destruct (NDu eq_refl).
  - specialize (M o eq_refl). destruct o; try destruct Hh; try discriminate M; reflexivity.
  - destruct Hh as ([->| ->]&_); [specialize (M _ eq_refl); discriminate M|exact (NDu eq_refl)].
Qed.

(** Time passes: every call there is waits in [next_msg]. *)
Lemma mon_rest c start ls tr s m :
  exec c start ls tr s -> c_mode c = MMonitor -> s_rx_alive s = true -> has_room tr s -> no_disconnects tr -> at_rest c (set_now s m) ->
  forall u, s_clients s u = CIdle \/ exists dl, s_clients s u = CWaitQ ONextMsg dl.
Proof.
  intros H Hm Ha NR ND R.
  assert (NL : cd_locked (set_now s m) = false).
  { pose proof (rest_pauses _ _ _ _ _ _ H NR R) as P. unfold cd_locked. sysb. destruct (s_bg s); try reflexivity; discriminate P. }
  assert (S1 : forall u, holds (s_clients s u) = false).
  { intro u. pose proof (mon_pcs _ _ _ _ _ u H Hm ND) as P. specialize (R (LCl u true) I). cbn in R. rewrite Ha in R. unfold cl_step in R. sysb_in R.
    destruct (s_clients s u) as [|o|o pkt|o pkt seq|o|o ch|o bs|o dl|o| |] eqn:Ep; cbn [mon_pc] in P; try reflexivity; try contradiction P; try (rewrite P; reflexivity); rewrite ?NL in R; exfalso.
    - destruct (s_conn s); discriminate R.
    - destruct (s_conn s); [destruct (tunneling_request_packet _ _)|]; discriminate R.
    - destruct o; try discriminate P; discriminate R.
    - discriminate R.
    - discriminate R. }
  assert (S2 : s_tlock s = None).
  { destruct (s_tlock s) as [u|] eqn:E; [|reflexivity]. apply (lock_inv _ _ _ _ _ H) in E. rewrite S1 in E. discriminate E. }
  intro u. pose proof (mon_pcs _ _ _ _ _ u H Hm ND) as P. specialize (S1 u).
  destruct (s_clients s u) as [|o|o pkt|o pkt seq|o|o ch|o bs|o dl|o| |] eqn:Ep; cbn [mon_pc] in P; try discriminate S1; auto.
  - exfalso. specialize (R (LCl u true) I). cbn in R. rewrite Ha in R. unfold cl_step in R. sysb_in R. rewrite Ep, S2 in R.
    unfold after_lock in R. destruct o; unfold goto, crash in R; try discriminate R; destruct (op_cemi _ _); discriminate R.
  - subst. eauto.
Qed.

(** ** Calls that do not wait *)
Theorem calls_at_once c start ls tr s :
  attended c start ls tr s -> c_mode c = MMonitor -> s_rx_alive s = true -> no_disconnects tr ->
  forall t o body, in_call t o tr body -> o <> ONextMsg -> made_at (s_now s) t o tr body.
Proof.
  induction 1 as [|tr s l s' es HP IH Hs HT]; intros Hm Ha ND t o body I Ho.
  - destruct I as (h&n&E&_). destruct h; discriminate E.
  - pose proof (prompt_exec _ _ _ _ _ (attended_prompt _ _ _ _ _ HP)) as H. pose proof (alive_back _ _ _ _ _ Hs Ha) as Ha0.
    specialize (IH Hm Ha0 (no_disconnects_prefix _ _ ND)).
    assert (D : (exists dt, l = LTime dt) \/ forall dt, l <> LTime dt) by (destruct l; eauto; right; discriminate).
    destruct D as [(dt&->)|D].
    + injection Hs as <- <-. cbn [stamp map] in *. rewrite app_nil_r in *. sysb. destruct (N.eq_dec dt 0) as [->|Z].
      { rewrite N.add_0_r. apply IH; assumption. }
      exfalso. destruct (in_call_pc _ _ _ _ _ _ _ _ H I) as (G&_).
      destruct (mon_rest _ _ _ _ _ _ H Hm Ha0 (proj2 (HT _ eq_refl)) ND (lets_last _ _ _ (proj1 (HT _ eq_refl)) Z) t) as [E|(dl&E)]; rewrite E in G; cbn in G; [discriminate G|].
      injection G as <-. apply Ho. reflexivity.
    + rewrite (other_now _ _ _ _ _ Hs D). unfold made_at in *. destruct I as (h&n&E&Q). unfold call_events in *. rewrite filter_app in *.
      apply app_split in E. destruct E as [(q'&E&->)|(p'&->&E)].
      * destruct (IH t o q') as (h'&E'); [exists h, n; split; [exact E|]; intros x Hx; apply Q, in_or_app; left; exact Hx|exact Ho|].
        exists h'. rewrite E', <- app_assoc. reflexivity.
      * exists (filter (fun x => call_event t (snd x)) tr ++ p'). rewrite E, <- app_assoc.
        assert (X : In (n, EvInvoke t o) (stamp (s_now s) es)).
        { apply (proj1 (filter_In (fun x => call_event t (snd x)) _ _)). rewrite E. apply in_or_app. right. left. reflexivity. }
        apply in_map_iff in X. destruct X as (e&X&_). injection X as <- _. reflexivity.
Qed.

(** ** Messages reach [next_msg] at once *)
Lemma shown_effect p y ch :
  byte ch -> te_ok y -> bus_tele y = true ->
  exists bs m r, dispatch (te_datagram ch y) = BAck ch (te_seq y) (Some bs) /\ after_ack p (Some bs) = BEnq m /\ tele_shown y r /\
    forall s t dl, on_message s t ONextMsg dl m = finish s t ONextMsg r [EvDeq t m].
Proof.
  intros Bc (Bs&Hi) Hb. pose proof Hi as Hi0.
  destruct (indication_parts _ _ _ _ _ _ _ _ _ Hi) as (P1&P2&P3). destruct Hi as (H1&H2&H3&H4&H5&H6&H7&H8&H9&L).
  unfold te_datagram. set (svc := te_service y) in *. change (ldata_bytes _ _ _ _ _ _ _) with svc in P3.
  destruct (cemi_read_known p (te_code y) (te_infos y) svc) as (js&Ej&Ec); [eapply Forall_impl, H2; intros ? (K&_); exact K|exact P3|].
  destruct (indication_reads js (te_code y) _ _ _ _ _ _ _ H3 H4 H5 H6 H7 H8 H9) as (i&Ei&Ed&Es&Ev&Em).
  exists (cemi_bytes (te_code y) (te_infos y) svc), {| ce_code := te_code y; ce_infos := js; ce_service := svc |}, (RInd i). split.
  - apply (dispatch_of _ (RTunReq {| tr_chan := ch; tr_seq := te_seq y; tr_cemi := cemi_bytes (te_code y) (te_infos y) svc |})).
    + apply frame_bytes_tunnel; assumption.
    + apply tunnelled_looks. unfold svc, te_service. lia.
  - split; [unfold after_ack, run_on; rewrite Ec; reflexivity|]. split.
    + exists i. rewrite Em. repeat split; auto.
    + intros s t dl. unfold on_message. cbn [ce_code]. unfold bus_tele in Hb. change code_LDataCon with 0x2e. change code_LDataInd with 0x29. change code_LBusmonInd with 0x2b.
      destruct (N.eqb_spec (te_code y) 0x2e) as [E|E]; [rewrite E in Hb; discriminate Hb|]. rewrite Hb. unfold svc, te_service. rewrite Ei. reflexivity.
Qed.

(** What one of several callers can do. *)
Lemma mon_step c start ls tr s l u s' es :
  exec c start ls tr s -> c_mode c = MMonitor -> no_disconnects tr -> step c s l = Some (s', es) -> call_label l = Some u ->
  s_inbox s' = s_inbox s /\
  (s_rxq s' = s_rxq s \/ exists m q dl, s_rxq s = m :: q /\ on_message (set_rxq s q) u ONextMsg dl m = Some (s', es)).
Proof.
  intros H Hm ND Hs Hc. pose proof (mon_pcs _ _ _ _ _ u H Hm ND) as P.
  destruct l; try discriminate Hc; injection Hc as ->.
  - inv_step Hs; sys; auto.
  - cbn in Hs. destruct (s_rx_alive s) eqn:Ha; [|discriminate Hs]. unfold cl_step in Hs.
    destruct (s_clients s u) as [|o1|o1 pkt|o1 pkt seq|o1|o1 ch|o1 bs|o1 dl|o1| |] eqn:Ep; cbn [mon_pc] in P; try contradiction P; try discriminate Hs.
    + destruct (s_tlock s); [discriminate Hs|]. unfold after_lock, goto, crash in Hs. break Hs; injection Hs as <- <-; sys; auto.
    + unfold goto, finish in Hs. break Hs; injection Hs as <- <-; sys; auto.
    + unfold goto, finish, crash in Hs. break Hs; injection Hs as <- <-; sys; auto.
    + unfold goto, finish, crash in Hs. break Hs; injection Hs as <- <-; sys; auto.
    + subst o1. destruct (s_rxq s) as [|m q] eqn:Eq.
      * unfold finish in Hs. break Hs; injection Hs as <- <-; sys; auto.
      * split; [|right; exists m, q, dl; split; [reflexivity|exact Hs]]. unfold on_message, goto, finish in Hs. break Hs; injection Hs as <- <-; sys; reflexivity.
    + unfold finish in Hs. break Hs; injection Hs as <- <-; sys; auto.
    + unfold finish in Hs. break Hs; injection Hs as <- <-; sys; auto.
  - inv_step Hs; sys; auto.
  - inv_step Hs; sys; auto.
  - inv_step Hs; sys; auto.
  - inv_step Hs; sys; auto.
Qed.

Definition waits_on (s : sys) (t : nat) : Prop := exists dl, s_clients s t = CWaitQ ONextMsg dl.
Lemma mon_listening c start ls tr s :
  attended c start ls tr s -> c_mode c = MMonitor -> s_rx_alive s = true -> no_disconnects tr ->
  forall t body, Forall (fun x => fst x < s_now s) tr -> connected_now tr = true -> in_call t ONextMsg tr body -> waits_on s t /\ listens s.
Proof.
  induction 1 as [|tr s l s' es HP IH Hs HT]; intros Hm Ha ND t body F C I.
  - exfalso. destruct I as (h&n&E&_). destruct h; discriminate E.
  - pose proof (prompt_exec _ _ _ _ _ (attended_prompt _ _ _ _ _ HP)) as H. pose proof (alive_back _ _ _ _ _ Hs Ha) as Ha0.
    assert (E : es = []).
    { destruct es as [|e es]; [reflexivity|]. exfalso. apply Forall_app in F. destruct F as [_ F]. inversion F as [|? ? X]; subst.
      cbn in X. rewrite (event_now _ _ _ _ _ Hs ltac:(discriminate)) in X. lia. }
    subst es. cbn [stamp map] in *. rewrite app_nil_r in *.
    pose proof (conn_inv _ _ _ _ _ H) as K. pose proof (connected_inv _ _ _ _ _ H) as CN. rewrite C in CN.
    assert (D : (exists dt, l = LTime dt) \/ forall dt, l <> LTime dt) by (destruct l; eauto; right; discriminate).
    destruct D as [(dt&->)|D].
    + injection Hs as <-. sysb_in F. sysb_in Ha.
      assert (Z : Forall (fun x => fst x < s_now s) tr \/ dt <> 0) by (destruct (N.eq_dec dt 0) as [->|Z]; [left; rewrite N.add_0_r in F; exact F|right; exact Z]).
      unfold waits_on, listens. sysb.
      destruct Z as [Z|Z]; [exact (IH Hm Ha ND t body Z C I)|].
      destruct (HT _ eq_refl) as [HL NR]. pose proof (lets_last _ _ _ HL Z) as R.
      assert (Et : exists dl, s_clients s t = CWaitQ ONextMsg dl).
      { destruct (in_call_pc _ _ _ _ _ _ _ _ H I) as (G&_). destruct (mon_rest _ _ _ _ _ _ H Hm Ha NR ND R t) as [E|E]; [rewrite E in G; discriminate G|exact E]. }
      split; [exact Et|]. destruct Et as (dl&Et).
      pose proof (R (LCl t true) Logic.I) as RC. cbn in RC. rewrite Ha in RC. unfold cl_step in RC. sysb_in RC. rewrite Et in RC.
      destruct (s_rxq s) as [|m rq] eqn:Eq.
      2:{ exfalso. unfold on_message, finish, goto in RC. repeat match type of RC with context [match ?x with _ => _ end] => destruct x end; discriminate RC. }
      split; [reflexivity|]. right.
      pose proof (R (LBg true) Logic.I) as RB. cbn in RB. unfold bg_step in RB. sysb_in RB.
      pose proof (rest_pauses _ _ _ _ _ _ H NR R) as P. unfold bg_gone in RC. sysb_in RC.
      destruct (s_bg s) eqn:Eb; try discriminate P; try discriminate RC; try (rewrite (proj2 K eq_refl) in CN; discriminate CN).
      * split; [reflexivity|]. destruct (s_inbox s); [reflexivity|discriminate RB].
      * exfalso. rewrite Ha, Eq in RB. discriminate RB.
    + rewrite (other_now _ _ _ _ _ Hs D) in F. destruct (IH Hm Ha0 ND t body F C I) as [(dl&Et) [L1 L2]]. unfold waits_on, listens.
      destruct (call_label l) as [u|] eqn:Hc.
      * destruct (Nat.eq_dec u t) as [->|N].
        -- exfalso. destruct l; try discriminate Hc; injection Hc as ->; cbn in Hs; rewrite ?Ha0 in Hs;
             unfold cl_step, cl_sock_err, cl_timeout, cl_dbg, cl_cancel, invoke, bg_gone, finish in Hs; rewrite ?Et, ?L1 in Hs; cbn [pc_op] in Hs;
             try discriminate Hs.
           destruct L2 as [L2|(L2&_)]; rewrite L2 in Hs; discriminate Hs.
        -- destruct (call_frame _ _ _ _ _ _ Hs Hc) as (_&_&_&Eb&_&_&Eo&_). destruct (mon_step _ _ _ _ _ _ _ _ _ H Hm ND Hs Hc) as [Ei [Eq|(m&q&?&X&_)]]; [|congruence].
           rewrite Eb, Ei, Eq, (Eo t) by congruence. eauto.
      * destruct (bg_label l) eqn:Hb.
        -- destruct (bg_frame _ _ _ _ _ Hs Hb) as (_&_&_&Ec&_). rewrite Ec. split; [eauto|].
           destruct L2 as [L2|(L2&L3)]; destruct l; try discriminate Hb; cbn in Hs; unfold bg_step, bg_recv_err, bg_timeout, bg_tick in Hs; rewrite ?L2, ?L3 in Hs;
             try discriminate Hs; try (injection Hs as <-; sysb; auto; fail).
           destruct (s_hb s <=? s_now s); discriminate Hs.
        -- destruct l; try discriminate Hb; try discriminate Hc; cbn in Hs; try discriminate Hs; break Hs; injection Hs as <-; sysb; eauto.
Qed.

Definition mon_way (n : N) (t : nat) (d : list N) (b1 b2 : bg_pc) (m : cemi) (s : sys) : Prop :=
  s_now s = n /\ waits_on s t /\
  ((s_bg s = BClear /\ s_rxq s = []) \/
   (s_bg s = BRecv /\ (exists q, s_inbox s = d :: q) /\ s_rxq s = []) \/
   ((s_bg s = b1 \/ s_bg s = b2) /\ s_rxq s = []) \/
   exists q, s_rxq s = m :: q).
Lemma mon_way_step c start ls tr s l s' es n t d chan seq bs m r :
  exec c start ls tr s -> c_mode c = MMonitor -> s_rx_alive s = true -> no_disconnects tr ->
  dispatch d = BAck chan seq (Some bs) -> after_ack (c_prof c) (Some bs) = BEnq m ->
  (forall s t dl, on_message s t ONextMsg dl m = finish s t ONextMsg r [EvDeq t m]) ->
  step c s l = Some (s', es) -> (forall dt, l = LTime dt -> lets_pass c s dt) ->
  ~ In EvTick es -> ~ In EvCleared es -> ~ In (EvCancel t ONextMsg) es ->
  mon_way n t d (BAck chan seq (Some bs)) (BEnq m) m s ->
  mon_way n t d (BAck chan seq (Some bs)) (BEnq m) m s' \/ exists u, In (EvRet u ONextMsg r) es.
Proof.
  intros H Hm Ha ND Hd Haf Hon Hs HT NT NC NX (En&(dl&Et)&Ph). unfold mon_way, waits_on.
  assert (D : (exists dt, l = LTime dt) \/ forall dt, l <> LTime dt) by (destruct l; eauto; right; discriminate).
  destruct D as [(dt&->)|D].
  { left. injection Hs as <- <-. sysb. destruct (N.eq_dec dt 0) as [->|Z].
    - rewrite N.add_0_r. eauto.
    - exfalso. assert (R : at_rest c (set_now s (s_now s + 0))) by (apply (HT _ eq_refl); lia).
      pose proof (R (LBg true) I) as RB. pose proof (R (LCl t true) I) as RC. cbn in RB, RC. rewrite Ha in RC.
      unfold bg_step in RB. unfold cl_step in RC. sysb_in RB. sysb_in RC. rewrite Et in RC.
      destruct Ph as [(P&_)|[(P&(q&Q)&Z1)|[([P|P]&Z1)|(q&Q)]]].
      + rewrite P in RB. discriminate RB.
      + rewrite P, Q in RB. discriminate RB.
      + rewrite P in RB. discriminate RB.
      + rewrite P, Ha, Z1 in RB. discriminate RB.
      + rewrite Q, Hon in RC. discriminate RC. }
  assert (En' : s_now s' = n) by (rewrite (other_now _ _ _ _ _ Hs D); exact En).
  destruct (call_label l) as [u|] eqn:Hc.
  - destruct (call_frame _ _ _ _ _ _ Hs Hc) as (_&_&_&Eb&_&_&Eo&_).
    destruct (Nat.eq_dec u t) as [->|N].
    + destruct l; try discriminate Hc; injection Hc as ->; cbn in Hs; rewrite ?Ha in Hs;
        unfold cl_step, cl_sock_err, cl_timeout, cl_dbg, cl_cancel, invoke in Hs; rewrite ?Et in Hs; cbn [pc_op] in Hs; try discriminate Hs.
      * right. destruct Ph as [(P&Z)|[(P&(q&Q)&Z)|[([P|P]&Z)|(q&Q)]]].
        -- rewrite Z in Hs. unfold bg_gone in Hs. rewrite P in Hs. discriminate Hs.
        -- rewrite Z in Hs. unfold bg_gone in Hs. rewrite P in Hs. discriminate Hs.
        -- rewrite Z in Hs. unfold bg_gone in Hs. rewrite P in Hs. discriminate Hs.
        -- rewrite Z in Hs. unfold bg_gone in Hs. rewrite P in Hs. discriminate Hs.
        -- rewrite Q, Hon in Hs. injection Hs as <- <-. exists t. right; left; reflexivity.
      * injection Hs as <- <-. destruct NX. left. reflexivity.
    + destruct (mon_step _ _ _ _ _ _ _ _ _ H Hm ND Hs Hc) as [Ei [Eq|(m'&q'&dl'&X&Y)]].
      * left. rewrite Eb, Ei, Eq, (Eo t) by congruence. eauto.
      * right. destruct Ph as [(P&Z)|[(P&(q&Q)&Z)|[(P&Z)|(q&Q)]]]; try congruence.
        assert (m' = m) by congruence. subst m'. rewrite Hon in Y. injection Y as <- <-. exists u. right; left; reflexivity.
  - left. split; [exact En'|]. destruct (bg_label l) eqn:Hb.
    + destruct (bg_frame _ _ _ _ _ Hs Hb) as (_&_&_&Ec&_). rewrite Ec, Et. split; [eauto|].
      destruct Ph as [(P&Z)|[(P&(q&Q)&Z)|[([P|P]&Z)|(q&Q)]]].
      * exfalso. destruct l; try discriminate Hb; cbn in Hs; unfold bg_step, bg_recv_err, bg_timeout, bg_tick in Hs; rewrite P in Hs; try discriminate Hs.
        injection Hs as <- <-. destruct NC. left. reflexivity.
      * destruct l; try discriminate Hb; cbn in Hs; unfold bg_step, bg_recv_err, bg_timeout, bg_tick in Hs; rewrite P in Hs; try discriminate Hs.
        -- rewrite Q, Hd in Hs. injection Hs as <- <-. sysb. right. right. left. auto.
        -- injection Hs as <- <-. sysb. auto.
        -- destruct (s_hb s <=? s_now s); [|discriminate Hs]. injection Hs as <- <-. destruct NT. left. reflexivity.
      * destruct l; try discriminate Hb; cbn in Hs; unfold bg_step, bg_recv_err, bg_timeout, bg_tick in Hs; rewrite P in Hs; try discriminate Hs.
        -- rewrite Haf in Hs. injection Hs as <- <-. sysb. destruct ok; [right; right; left; auto|auto].
        -- destruct (s_hb s <=? s_now s); [|discriminate Hs]. injection Hs as <- <-. destruct NT. left. reflexivity.
      * destruct l; try discriminate Hb; cbn in Hs; unfold bg_step, bg_recv_err, bg_timeout, bg_tick in Hs; rewrite P in Hs; try discriminate Hs.
        -- rewrite Ha, Z in Hs. injection Hs as <- <-. sysb. right. right. right. eexists. reflexivity.
        -- destruct (s_hb s <=? s_now s); [|discriminate Hs]. injection Hs as <- <-. destruct NT. left. reflexivity.
      * right. right. right. destruct l; try discriminate Hb; inv_step Hs; sysb; rewrite ?Q; cbn [app]; eauto.
    + destruct l; try discriminate Hb; try discriminate Hc; try (destruct (D dt); reflexivity); inv_step Hs; sysb; split; eauto.
      destruct Ph as [(P&Z)|[(P&(q&Q)&Z)|[P|P]]]; auto. right. left. rewrite Q. cbn [app]. eauto.
Qed.
Theorem shown_at_once c start ls tr s p n ch y q t body :
  attended c start ls tr s -> c_mode c = MMonitor -> s_rx_alive s = true -> no_disconnects tr ->
  byte ch -> te_ok y -> bus_tele y = true ->
  tr = p ++ (n, EvArrive (te_datagram ch y)) :: q -> n < s_now s ->
  Forall (fun x => fst x < n) p -> connected_now p = true -> in_call t ONextMsg p body ->
  not_at n EvTick q -> not_at n EvCleared q -> not_at n (EvCancel t ONextMsg) q ->
  exists u r, In (n, EvRet u ONextMsg r) q /\ tele_shown y r.
Proof.
  intros HP Hm Ha ND Bc Hy Hb E Hn F C I NT NC NX.
  destruct (shown_effect (c_prof c) y ch Bc Hy Hb) as (bs&m&r&E1&E2&Sr&E3).
  assert (G : mon_way n t (te_datagram ch y) (BAck ch (te_seq y) (Some bs)) (BEnq m) m s \/ exists u, In (n, EvRet u ONextMsg r) q).
  2:{ destruct G as [(G&_)|(u&G)]; [lia|]. eauto. }
  clear Hn. revert Ha ND q E NT NC NX. induction HP as [|tr s l s' es HP IH Hs HT]; intros Ha ND q E NT NC NX; [destruct p; discriminate E|].
  pose proof (prompt_exec _ _ _ _ _ (attended_prompt _ _ _ _ _ HP)) as H. pose proof (alive_back _ _ _ _ _ Hs Ha) as Ha0.
  pose proof (no_disconnects_prefix _ _ ND) as ND0.
  apply app_split in E. destruct E as [(q'&->&->)|(p'&->&E)].
  - assert (Q : not_at n EvTick q' /\ not_at n EvCleared q' /\ not_at n (EvCancel t ONextMsg) q').
    { repeat split; intro X; [apply NT|apply NC|apply NX]; apply in_or_app; left; exact X. }
    destruct Q as (Q1&Q2&Q3). destruct (IH Ha0 ND0 q' eq_refl Q1 Q2 Q3) as [W|(u&R1)].
    + pose proof W as (En&_). apply not_stamped in NT, NC, NX; try exact En.
      destruct (mon_way_step _ _ _ _ _ _ _ _ n t _ ch (te_seq y) bs m r H Hm Ha0 ND0 E1 E2 E3 Hs (fun dt E => proj1 (HT dt E)) (proj2 NT) (proj2 NC) (proj2 NX) W) as [W'|(u&R1)]; [left; exact W'|].
      right. exists u. apply in_or_app; right; rewrite En; apply (in_map (fun x => (n, x))), R1.
    + right. exists u. apply in_or_app; left; exact R1.
  - apply stamp_split in E. destruct E as (e1&e'&e2&->&->&E&->). injection E as -> <-.
    destruct (arrives_by _ _ _ _ _ (te_datagram ch y) Hs ltac:(apply in_or_app; right; left; reflexivity)) as (->&E&->).
    destruct e1 as [|x e1]; [|destruct e1; discriminate E]. injection E as E. subst e2. cbn [stamp map] in *. rewrite app_nil_r in *.
    left. destruct (mon_listening _ _ _ _ _ HP Hm Ha0 ND0 t body F C I) as [Et [L1 L2]].
    split; [reflexivity|]. split; [exact Et|]. sysb. destruct L2 as [L2|(L2&L3)]; [left; auto|]. right. left.
    rewrite L3. cbn [app]. eauto.
Qed.
