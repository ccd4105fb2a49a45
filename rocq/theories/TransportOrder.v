(** Order of delivery, datagrams without effect, and the pace of connection attempts. *)
From Verif Require Import Base Addresses Apdu Tunneling Emi Core Transport Wire Spec BaseProofs ResponseProofs TraceSpec TraceSpec2
  TransportBase TransportInv TransportConn TransportCalls TransportReturn TransportThm TransportThm2 TransportThm3
  TransportBg TransportBgThm TransportBgThm2 TransportBgThm3 TransportMore TransportMore2 TransportWire.
From Coq Require Import Lia ZifyBool ZifyNat ZifyN.
Open Scope N_scope.

(** ** Messages are delivered in the order of their datagrams, each at most once *)
Lemma received_app a b : received (a ++ b) = received a ++ received b. Proof. apply flat_map_app. Qed.
Lemma received_bg tr : received tr = flat_map (fun e => match e with EvBgRecv d => [d] | _ => [] end) (bg_events tr).
Proof.
  induction tr as [|[n e] tr IH]; [reflexivity|]. unfold received, bg_events in *. cbn. rewrite IH.
  destruct e as [| | | |[] ?|[] ?| | | | | | | | | | | | | |]; reflexivity.
Qed.
Lemma queued_bg tr : queued tr = flat_map (fun e => match e with EvEnq d => [d] | _ => [] end) (bg_events tr).
Proof.
  induction tr as [|[n e] tr IH]; [reflexivity|]. unfold queued, bg_events in *. cbn. rewrite IH.
  destruct e as [| | | |[] ?|[] ?| | | | | | | | | | | | | |]; reflexivity.
Qed.
Definition orderly (h : list event) (b : bg_pc) : Prop :=
  exists ds, Forall2 carries ds (flat_map (fun e => match e with EvEnq d => [d] | _ => [] end) h) /\
    match b with
    | BAck _ _ _ | BEnq _ => exists rs d, flat_map (fun e => match e with EvBgRecv d => [d] | _ => [] end) h = rs ++ [d] /\ sublist ds rs
    | _ => sublist ds (flat_map (fun e => match e with EvBgRecv d => [d] | _ => [] end) h)
    end.
Lemma sublist_snoc A (a b : list A) x : sublist a b -> sublist (a ++ [x]) (b ++ [x]).
Proof. induction 1; cbn; repeat constructor; auto. Qed.
Lemma sublist_right A (a b c : list A) : sublist a b -> sublist a (b ++ c).
Proof. induction 1; cbn; try constructor; auto. induction c; constructor; auto. Qed.
Lemma orderly_weak h b b' : orderly h b -> match b' with BAck _ _ _ | BEnq _ => False | _ => True end -> orderly h b'.
Proof.
  intros (ds&F&S) Hb. exists ds. split; [exact F|].
  assert (W : sublist ds (flat_map (fun e => match e with EvBgRecv d => [d] | _ => [] end) h)).
  { destruct b; try exact S; destruct S as (rs&d&->&S); apply sublist_right, S. }
  destruct b'; try contradiction; exact W.
Qed.
Definition dull (e : event) : bool := match e with EvBgRecv _ | EvEnq _ => false | _ => true end.
Lemma orderly_dull h b es : forallb dull es = true -> (orderly (h ++ es) b <-> orderly h b).
Proof.
  intro Hd. unfold orderly. rewrite !flat_map_app.
  assert (E1 : flat_map (fun e => match e with EvEnq d => [d] | _ => [] end) es = []).
  { induction es as [|[] es IH]; try discriminate Hd; try reflexivity; cbn in *; auto. }
  assert (E2 : flat_map (fun e => match e with EvBgRecv d => [d] | _ => [] end) es = []).
  { clear E1. induction es as [|[] es IH]; try discriminate Hd; try reflexivity; cbn in *; auto. }
  rewrite E1, E2, !app_nil_r. reflexivity.
Qed.
Lemma stop_dull b : forallb dull (stop_events b) = true. Proof. destruct b; reflexivity. Qed.
Lemma order_inv c start ls tr s :
  exec c start ls tr s -> Forall bytes (arrived tr) -> orderly (bg_events tr) (s_bg s).
Proof.
  intro H. pattern tr, s. revert tr s H. apply exec_inv; [intros _; exists []; repeat constructor|].
  intros tr s l s' es H IH Hs Hb. rewrite bg_events_app, bg_events_stamp.
  assert (H' : exec c start ls (tr ++ stamp (s_now s) es) s') by (econstructor; eassumption).
  assert (Hb0 : Forall bytes (arrived tr)) by (rewrite arrived_app in Hb; apply Forall_app in Hb; tauto).
  specialize (IH Hb0). destruct (bg_label l) eqn:Hl.
  - rewrite (step_bg_events_all _ _ _ _ _ Hs Hl).
    assert (D : forallb dull es = true -> match s_bg s' with BAck _ _ _ | BEnq _ => False | _ => True end ->
                orderly (bg_events tr ++ es) (s_bg s')).
    { intros D1 D2. apply orderly_dull; [exact D1|]. eapply orderly_weak; [exact IH|exact D2]. }
    destruct l; try discriminate Hl.
    all: inv_step Hs; sysb; try (apply D; [reflexivity|sys; try destruct (s_conn s); try destruct (c_mode c); exact I]).
    + (* datagram taken *)
      match goal with E : s_inbox s = ?x :: _ |- _ => rename x into d0 end.
      change (EvBgRecv d0 :: stop_events (dispatch d0)) with ([EvBgRecv d0] ++ stop_events (dispatch d0)).
      rewrite app_assoc. apply orderly_dull; [apply stop_dull|].
      destruct IH as (ds&F&S). exists ds. rewrite !flat_map_app. cbn [flat_map app]. rewrite !app_nil_r. split; [exact F|].
      destruct (dispatch d0); try (apply sublist_right, S); eexists _, _; split; try reflexivity; exact S.
    + (* acknowledged *)
      match goal with |- context [?e :: stop_events ?b] => change (e :: stop_events b) with ([e] ++ stop_events b) end. rewrite app_assoc.
      apply orderly_dull; [apply stop_dull|]. apply orderly_dull; [reflexivity|].
      destruct (after_ack (c_prof c) k) eqn:Ea; try (exfalso; exact (after_ack_shape _ _ _ Ea));
        try (eapply orderly_weak; [exact IH|exact I]). exact IH.
    + (* delivered *)
      destruct IH as (ds&F&rs&d0&E&S). exists (ds ++ [d0]). rewrite !flat_map_app. cbn [flat_map app]. rewrite !app_nil_r. split.
      * apply Forall2_app; [exact F|]. constructor; [|constructor].
        assert (B : bg_events (tr ++ stamp (s_now s) [EvEnq c0]) = bg_events tr ++ EvEnq c0 :: []).
        { rewrite bg_events_app, bg_events_stamp. reflexivity. }
        destruct (delivered _ _ _ _ _ _ _ _ H' Hb B) as (a'&d&t&Ea&L&O).
        rewrite Ea in E. rewrite flat_map_app in E. cbn [flat_map app] in E. apply app_inj_tail in E. destruct E as (_&<-).
        exists t. auto.
      * rewrite E. apply sublist_snoc, S.
  - rewrite (step_bg_events _ _ _ _ _ Hs Hl), app_nil_r.
    destruct (call_label l) as [t|] eqn:Hc.
    + destruct (call_frame _ _ _ _ _ _ Hs Hc) as (_&_&_&->&_). exact IH.
    + destruct (env_frame _ _ _ _ _ Hs Hl Hc) as (_&_&->&_). exact IH.
Qed.
Lemma delivered_in_order c start ls tr s :
  exec c start ls tr s -> Forall bytes (arrived tr) ->
  exists ds, sublist ds (received tr) /\ Forall2 carries ds (queued tr).
Proof.
  intros H Hb. destruct (orderly_weak _ _ BRecv (order_inv _ _ _ _ _ H Hb) I) as (ds&F&S).
  exists ds. rewrite received_bg, queued_bg. auto.
Qed.

(** ** Datagrams that change nothing *)
Definition idle_at (s : sys) : Prop := s_bg s = BRecv /\ s_inbox s = [].
Lemma nothing_happens c s d : idle_at s -> dispatch d = BRecv ->
  run c s [LArrive d; LBg true] = Some (s, [(s_now s, EvArrive d); (s_now s, EvBgRecv d)]).
Proof.
  intros (Hb&Hi) Hd. unfold run, step, bg_step. destruct s. cbn in *. subst. cbn. rewrite Hd. reflexivity.
Qed.
Lemma ack_ignored c s d a : idle_at s -> bytes d -> looks_like (recv_buffer d) (RTunAck a) ->
  run c s [LArrive d; LBg true] = Some (s, [(s_now s, EvArrive d); (s_now s, EvBgRecv d)]).
Proof. intros Hs Hd Hl. apply nothing_happens; [exact Hs|]. rewrite (dispatch_of _ _ Hd Hl). reflexivity. Qed.
Lemma good_state_ignored c s d st : idle_at s -> bytes d -> looks_like (recv_buffer d) (RConnState st) -> ss_status st = 0 ->
  run c s [LArrive d; LBg true] = Some (s, [(s_now s, EvArrive d); (s_now s, EvBgRecv d)]).
Proof. intros Hs Hd Hl E. apply nothing_happens; [exact Hs|]. rewrite (dispatch_of _ _ Hd Hl), E. reflexivity. Qed.
Lemma feature_acked c s d f : idle_at s -> bytes d -> looks_like (recv_buffer d) (RFeature f) ->
  run c s [LArrive d; LBg true; LBg true] =
    Some (s, [(s_now s, EvArrive d); (s_now s, EvBgRecv d); (s_now s, EvSend Bg (ack_datagram (fr_chan f) (fr_seq f)))]).
Proof.
  intros (Hb&Hi) Hd Hl. rewrite <- ackp_eq. apply (dispatch_of _ _ Hd) in Hl.
  unfold run, step, bg_step. destruct s. cbn in *. subst. cbn. rewrite Hl. reflexivity.
Qed.

(** ** Heart beats go on *)
Lemma hb_inv c start ls tr s : exec c start ls tr s -> s_hb s <= s_now s + 60000.
Proof.
  intro H. pattern tr, s. revert tr s H. apply exec_inv; [cbn; lia|].
  intros tr s l s' es H IH Hs. destruct (bg_label l) eqn:Hb.
  - destruct (bg_frame _ _ _ _ _ Hs Hb) as (->&_). destruct (step_hb _ _ _ _ _ Hs) as [->|T]; [exact IH|].
    apply in_split in T. destruct T as (e1&e2&->). destruct (step_tick _ _ _ _ _ _ Hs) as (_&_&L&->).
    unfold next_tick, ms_heart_beat. destruct (s_hb s + 5 <? s_now s) eqn:E; lia.
  - destruct (call_label l) as [u|] eqn:Hl.
    + destruct (call_frame _ _ _ _ _ _ Hs Hl) as (->&_&_&_&->&_). exact IH.
    + destruct (env_frame _ _ _ _ _ Hs Hb Hl) as (_&_&_&->&_&_&_&L&_). lia.
Qed.
Lemma beat_possible c start ls tr s dt ok : exec c start ls tr s -> Forall bytes (arrived tr) -> s_bg s = BRecv -> 60000 <= dt ->
  exists cd s', s_conn s = Some cd /\ run c s [LTime dt; LTick; LBg ok] =
    Some (s', [(s_now s + dt, EvTick); (s_now s + dt, send_event ok Bg (state_datagram (cd_chan cd) (cd_ep cd)))]).
Proof.
  intros H Hb0 Hb Ht. pose proof (hb_inv _ _ _ _ _ H) as Hh.
  destruct (s_conn s) as [cd|] eqn:Ec.
  - assert (W : wf_hpai (cd_ep cd)).
    { destruct (granted_inv _ _ _ _ _ H) as (_&G). destruct (G _ Ec) as (d&r&Hi&Ha&_&<-).
      assert (Bd : bytes d) by (eapply consumed_bytes; [exact H|exact Hb0|]; apply consumed_in; auto).
      destruct (accept_grants _ _ Bd Ha) as (?&?&?&_&_&_&W). exact W. }
    exists cd. eexists. split; [reflexivity|]. rewrite <- statep_eq by exact W.
    unfold run, step, bg_tick, bg_step. cbn [s_bg set_now]. rewrite Hb. cbn [s_hb s_now set_now].
    replace (s_hb s <=? s_now s + dt) with true by lia.
    cbn [s_bg set_bg set_hb s_conn set_now]. rewrite Ec. reflexivity.
  - exfalso. apply (conn_inv _ _ _ _ _ H) in Ec. rewrite Hb in Ec. discriminate.
Qed.

(** ** Pace of the connection attempts *)
Definition waits_for (n : N) (s : sys) : Prop :=
  n + 40000 <= s_now s \/ s_bg s = BConnWait (n + 30000) \/ exists dl, s_bg s = BConnSleep dl /\ n + 40000 <= dl.
Lemma wait_step c s l s' es n :
  step c s l = Some (s', es) -> no_recv_error l = true -> forallb (fun e => negb (is_conn_recv e)) es = true -> waits_for n s ->
  waits_for n s' /\ forall ok, In (send_event ok Bg connp) es -> n + 40000 <= s_now s.
Proof.
  intros Hs Hl Hr W. assert (T : s_now s <= s_now s').
  { destruct (bg_label l) eqn:Hb; [destruct (bg_frame _ _ _ _ _ Hs Hb) as (->&_); lia|].
    destruct (call_label l) as [u|] eqn:Hc.
    - destruct (call_frame _ _ _ _ _ _ Hs Hc) as (->&_). lia.
    - destruct (env_frame _ _ _ _ _ Hs Hb Hc) as (_&_&_&_&_&_&_&L&_). exact L. }
  destruct (N.le_gt_cases (n + 40000) (s_now s)) as [L|L]; [split; [left; lia|auto]|].
  destruct W as [W|W]; [lia|]. destruct (bg_label l) eqn:Hb.
  - destruct W as [W|(dl&W&Wd)]; destruct l; try discriminate Hb; try discriminate Hl;
      cbn [step] in Hs; unfold bg_step, bg_recv_err, bg_timeout, bg_tick in Hs; rewrite W in Hs; try discriminate Hs.
    + destruct (s_inbox s) as [|d rest]; [discriminate|]. injection Hs as <- <-. discriminate Hr.
    + destruct (n + 30000 <=? s_now s) eqn:E; [|discriminate]. injection Hs as <- <-. split.
      * right. right. eexists. split; [reflexivity|]. cbn. unfold ms_retry. lia.
      * intros ok [].
    + destruct (dl <=? s_now s) eqn:E; [|discriminate]. lia.
  - assert (B : s_bg s' = s_bg s).
    { destruct (call_label l) as [u|] eqn:Hc.
      - destruct (call_frame _ _ _ _ _ _ Hs Hc) as (_&_&_&->&_). reflexivity.
      - destruct (env_frame _ _ _ _ _ Hs Hb Hc) as (_&_&->&_). reflexivity. }
    split.
    + right. rewrite B. exact W.
    + intros ok Hi. pose proof (step_bg_events _ _ _ _ _ Hs Hb) as F.
      assert (In (send_event ok Bg connp) (filter bg_event es)) by (apply filter_In; split; [exact Hi|destruct ok; reflexivity]).
      rewrite F in *. contradiction.
Qed.
Lemma wait_run c n : forall sched s s' tr,
  run c s sched = Some (s', tr) -> forallb no_recv_error sched = true ->
  forallb (fun e => negb (is_conn_recv e)) (evs tr) = true -> waits_for n s ->
  forall n2 ok, In (n2, send_event ok Bg connp) tr -> n + 40000 <= n2.
Proof.
  induction sched as [|l sched IH]; intros s s' tr R F G W n2 ok Hi; cbn in R, F.
  - injection R as <- <-. destruct Hi.
  - apply andb_prop in F. destruct F as (F1&F2). destruct (step c s l) as [[s1 es]|] eqn:E; [|discriminate].
    destruct (run c s1 sched) as [[s2 tr2]|] eqn:E2; [|discriminate]. injection R as <- <-.
    rewrite evs_app, evs_stamp, forallb_app in G. apply andb_prop in G. destruct G as (G1&G2).
    destruct (wait_step _ _ _ _ _ _ E F1 G1 W) as (W'&T).
    apply in_app_or in Hi. destruct Hi as [Hi|Hi].
    + unfold stamp in Hi. apply in_map_iff in Hi. destruct Hi as (e&Ee&Hi). injection Ee as <- ->. eapply T, Hi.
    + eapply IH; eassumption.
Qed.
Lemma request_waits c s s1 : step c s (LBg true) = Some (s1, [EvSend Bg connection_datagram]) -> s_bg s1 = BConnWait (s_now s + 30000).
Proof.
  rewrite <- connp_eq. intro Hs. cbn [step] in Hs. unfold bg_step in Hs. destruct (s_bg s) eqn:Eb; try discriminate Hs.
  all: try (destruct (s_inbox s); [discriminate Hs|]; injection Hs as _ Hs; discriminate Hs).
  all: repeat match type of Hs with context [match ?x with _ => _ end] => destruct x eqn:?; try discriminate Hs end.
  all: try (injection Hs as _ Hs; apply (f_equal service) in Hs; discriminate Hs).
  all: try (injection Hs as _ Hs _; apply (f_equal service) in Hs; discriminate Hs).
  injection Hs as <-. reflexivity.
Qed.
Lemma connect_patience c s s1 sched s' tr n2 ok :
  step c s (LBg true) = Some (s1, [EvSend Bg connection_datagram]) ->
  run c s1 sched = Some (s', tr) -> forallb no_recv_error sched = true -> forallb (fun e => negb (is_conn_recv e)) (evs tr) = true ->
  In (n2, send_event ok Bg connection_datagram) tr -> s_now s + 40000 <= n2.
Proof.
  intros Hs R F G Hi. rewrite <- connp_eq in Hi. eapply wait_run; try eassumption. right. left. eapply request_waits, Hs.
Qed.
Lemma connect_retries c s s1 ok :
  step c s (LBg true) = Some (s1, [EvSend Bg connection_datagram]) ->
  exists s2, run c s1 [LTime 30000; LBgTimeout; LTime 10000; LBg true; LBg ok] = Some (s2, [(s_now s1 + 30000 + 10000, send_event ok Bg connection_datagram)]).
Proof.
  intro Hs. assert (E : s_now s1 = s_now s) by (eapply bg_frame; [exact Hs|reflexivity]). apply request_waits in Hs. rewrite <- connp_eq.
  cbn [run step]. unfold bg_timeout. cbn [s_bg set_now]. rewrite Hs. cbn [s_now set_now].
  replace (s_now s + 30000 <=? s_now s1 + 30000) with true by lia.
  unfold bg_step. cbn [s_bg set_bg set_now s_now]. unfold ms_retry.
  replace (s_now s1 + 30000 + 10000 <=? s_now s1 + 30000 + 10000) with true by lia.
  cbn [s_bg set_bg]. eexists. reflexivity.
Qed.

(** The monitor, unless the request that follows a granted connection fails. *)
Lemma monitor_attempts_inv c start ls tr s p n ok q :
  exec c start ls tr s -> tr = p ++ (n, send_event ok Bg connp) :: q -> no_connected q ->
  forallb (fun e => negb (feature_failed e)) (evs q) = true ->
  match s_bg s with
  | BConnWait _ | BStore _ | BMonEnable _ => n <= s_now s
  | BConnSleep dl => n + 10000 <= dl
  | BConnSend => n + 10000 <= s_now s
  | _ => False
  end.
Proof.
  intros H. revert p n ok q. pattern tr, s. revert tr s H. apply exec_inv; [intros [|] ? ? ? E; discriminate E|].
  intros tr s l s' es H IH Hs p n ok q E Hn Hf. apply app_split in E.
  destruct E as [(q'&E&->)|(p'&->&E)].
  - apply no_connected_app in Hn. destruct Hn as [Hn Hn']. rewrite evs_app, evs_stamp, forallb_app in Hf. apply andb_prop in Hf. destruct Hf as (Hf&Hf').
    specialize (IH _ _ _ _ E Hn Hf).
    assert (Hle : n <= s_now s).
    { pose proof (stamp_inv _ _ _ _ _ H) as F. rewrite Forall_forall in F. apply (F (n, send_event ok Bg connp)). rewrite E. apply in_mid. }
    destruct (bg_label l) eqn:Hb.
    + clear E. destruct l; try discriminate Hb; inv_step Hs; sys;
        repeat match goal with G : s_bg s = _ |- _ => rewrite G in *; clear G end; try contradiction; try congruence;
        unfold ms_retry; try lia; try (discriminate Hn'); try (discriminate Hf').
    + assert (s_bg s' = s_bg s /\ s_now s <= s_now s') as (->&L).
      { destruct (call_label l) as [u|] eqn:Hl.
        - destruct (call_frame _ _ _ _ _ _ Hs Hl) as (->&_&_&->&_). split; [reflexivity|lia].
        - destruct (env_frame _ _ _ _ _ Hs Hb Hl) as (_&_&->&_&_&_&_&L&_). auto. }
      destruct (s_bg s); auto; lia.
  - apply stamp_split in E. destruct E as (e1&e&e2&->&->&Ee&->). injection Ee as -> <-.
    assert (Hl : bg_label l = true).
    { destruct (bg_label l) eqn:Hl; [reflexivity|]. pose proof (step_bg_events _ _ _ _ _ Hs Hl) as F.
      rewrite filter_app in F. cbn in F. destruct ok; cbn in F; destruct (filter bg_event e1); discriminate. }
    destruct (step_bg_send _ _ _ _ _ _ _ _ Hs Hl) as (->&Hc).
    assert (Hc' : s_bg s = BConnSend).
    { destruct Hc as [(Hc&_)|[(r&Hc&Ex)|[(ch&seq&k&Hc&Ex)|[(cd&Hc&_&Ex)|(r&Hc)]]]]; [exact Hc| | | |];
        try (apply (f_equal service) in Ex; discriminate Ex).
      destruct l; try discriminate Hl; cbn [step app] in Hs; unfold bg_step, bg_recv_err, bg_timeout, bg_tick in Hs; rewrite Hc in Hs; try discriminate Hs.
      - injection Hs as _ Hs _. exfalso. destruct ok0, ok; try discriminate Hs;
        apply (f_equal (fun e => match e with EvSend _ d | EvSendFail _ d => service d | _ => 0 end)) in Hs; discriminate Hs.
      - destruct (s_hb s <=? s_now s); [|discriminate Hs]. destruct ok; discriminate Hs. }
    destruct l; try discriminate Hl; cbn [step app] in Hs; unfold bg_step, bg_recv_err, bg_timeout, bg_tick in Hs; rewrite Hc' in Hs; try discriminate Hs.
    injection Hs as <- _ _. cbn. destruct ok0; unfold ms_retry; lia.
Qed.
Lemma monitor_attempts_spaced c start ls tr s p n1 ok1 m n2 ok2 q :
  exec c start ls tr s ->
  tr = p ++ (n1, send_event ok1 Bg connection_datagram) :: m ++ (n2, send_event ok2 Bg connection_datagram) :: q ->
  no_connected m -> forallb (fun e => negb (feature_failed e)) (evs m) = true -> n1 + 10000 <= n2.
Proof.
  rewrite <- connp_eq. intros H E Hn Hf.
  rewrite app_comm_cons, app_assoc in E.
  destruct (exec_split _ _ _ _ _ _ _ _ _ H E) as (tr0&s0&l&s1&e1&e2&H0&Hs&->&Ep&_).
  assert (Hl : bg_label l = true).
  { destruct (bg_label l) eqn:Hl; [reflexivity|]. pose proof (step_bg_events _ _ _ _ _ Hs Hl) as F.
    rewrite filter_app in F. cbn in F. destruct ok2; cbn in F; destruct (filter bg_event e1); discriminate. }
  destruct (step_bg_send _ _ _ _ _ _ _ _ Hs Hl) as (->&Hc). cbn [stamp map] in Ep. rewrite app_nil_r in Ep.
  pose proof (monitor_attempts_inv _ _ _ _ _ _ _ _ _ H0 (eq_sym Ep) Hn Hf) as A.
  assert (Hc' : s_bg s0 = BConnSend).
  { destruct Hc as [(Hc&_)|[(r&Hc&Ex)|[(ch&seq&k&Hc&Ex)|[(cd&Hc&_&Ex)|(r&Hc)]]]]; [exact Hc| | | |];
      try (apply (f_equal service) in Ex; discriminate Ex); rewrite Hc in A; contradiction. }
  rewrite Hc' in A. exact A.
Qed.

(** ** A fresh answer *)
(** A read that found the queue empty when it sent its request returns a value
    that was queued afterwards. *)
Lemma fresh_read c start ls tr s p d q n t a v r n0 :
  exec c start ls tr s -> Forall bytes (arrived tr) ->
  tr = p ++ (n0, EvSend (Cl t) d) :: q ++ (n, EvRet t (ORead a) (RBytes v)) :: r ->
  queued p = taken p ->
  exists m i, In m (queued q) /\ In m (taken q) /\ is_ind m /\ indication_of m i /\ ld_dest (li_data i) = addr_to_u16 a /\ v = li_value i.
Proof.
  intros H Hb E He.
  change ((n0, EvSend (Cl t) d) :: q ++ (n, EvRet t (ORead a) (RBytes v)) :: r)
    with (((n0, EvSend (Cl t) d) :: q) ++ (n, EvRet t (ORead a) (RBytes v)) :: r) in E. rewrite app_assoc in E.
  destruct (read_result _ _ _ _ _ _ _ _ _ _ _ H Hb E) as (n1&seq&n2&d'&ms&n3&m&i&(h&ni&Ec&Hbody)&Hm&Hi&Hd&Hv&_).
  exists m, i.
  assert (M : In (n3, EvDeq t m) (call_events t q)).
  { rewrite call_events_app in Ec. cbn [call_events filter snd call_event] in Ec. rewrite Nat.eqb_refl in Ec.
    fold (call_events t q) in Ec.
    rewrite takes_app, !app_assoc in Ec. change (takes t [(n3, m)]) with [(n3, EvDeq t m)] in Ec.
    rewrite app_comm_cons, app_assoc in Ec.
    assert (X : exists z, (n0, EvSend (Cl t) d) :: call_events t q = z ++ [(n3, EvDeq t m)]).
    { destruct (call_events t q) as [|y w] using rev_ind.
      - exfalso. apply app_inj_tail in Ec. destruct Ec as (_&D). discriminate D.
      - rewrite app_comm_cons, app_assoc in Ec. apply app_inj_tail in Ec. destruct Ec as (_&->).
        eexists. rewrite app_comm_cons. reflexivity. }
    destruct X as (z&X). destruct z as [|y z]; [discriminate X|]. injection X as _ X. rewrite X. apply in_or_app. right. left. reflexivity. }
  assert (Mq : In (n3, EvDeq t m) q) by (unfold call_events in M; apply filter_In in M; tauto).
  assert (Mt : In m (taken q)) by (unfold taken; apply in_flat_map; eexists; split; [exact Mq|left; reflexivity]).
  split; [|auto 8].
  destruct (exec_split _ _ _ _ _ _ _ _ _ H E) as (tr0&s0&l&s1&e1&e2&H0&Hs&_&Ep&_).
  assert (exists s2, exec c start ls (tr0 ++ stamp (s_now s0) (e1 ++ EvRet t (ORead a) (RBytes v) :: e2)) s2) as (s2&H2)
    by (eexists; econstructor; eassumption).
  destruct (queue_inv _ _ _ _ _ H2) as (Q&_).
  rewrite stamp_app, app_assoc, <- Ep, queued_app, taken_app in Q.
  rewrite (queued_app p), (taken_app p) in Q. rewrite He in Q.
  change (queued ((n0, EvSend (Cl t) d) :: q)) with (queued q) in Q.
  change (taken ((n0, EvSend (Cl t) d) :: q)) with (taken q) in Q.
  assert (Z : queued (stamp (s_now s0) (EvRet t (ORead a) (RBytes v) :: e2)) = []).
  { assert (Hl : bg_label l = false).
    { destruct (bg_label l) eqn:Hl; [|reflexivity]. destruct (bg_frame _ _ _ _ _ Hs Hl) as (_&_&_&_&F).
      rewrite forallb_app in F. apply andb_prop in F. destruct F as (_&F). discriminate F. }
    rewrite queued_bg, bg_events_stamp. pose proof (step_bg_events _ _ _ _ _ Hs Hl) as F. rewrite filter_app in F.
    apply app_eq_nil in F. destruct F as (_&->). reflexivity. }
  rewrite Z, app_nil_r, <- !app_assoc in Q. apply app_inv_head in Q. rewrite Q. apply in_or_app. auto.
Qed.
