(** Theorems about heart beats, retry spacing, notification and the end of the task. *)
From Verif Require Import Base Addresses Apdu Tunneling Emi Core Transport Wire Spec BaseProofs CoreProofs EmiProofs
  ResponseProofs CodecMore TraceSpec
  TransportBase TransportInv TransportConn TransportCalls TransportReturn TransportThm TransportThm2 TransportThm3 TransportBg TransportBgThm TransportBgThm2.
From Coq Require Import Lia ZifyBool ZifyNat ZifyN.
Open Scope N_scope.

(** ** Heart beats *)
Lemma step_tick c s l s' e1 e2 :
  step c s l = Some (s', e1 ++ EvTick :: e2) ->
  e1 = [] /\ l = LTick /\ s_hb s <= s_now s /\ s_hb s' = next_tick (s_hb s) (s_now s).
Proof.
  intro Hs. remember (e1 ++ EvTick :: e2) as es eqn:E.
  assert (B : forall y b, y :: stop_events b = e1 ++ EvTick :: e2 -> y = EvTick).
  { intros y b Ey. destruct e1 as [|z e1]; cbn in Ey; [injection Ey as -> _; auto|]. injection Ey as -> Ey.
    exfalso. destruct b; cbn in Ey; destruct e1 as [|? [|]]; try discriminate Ey. }
  destruct l; inv_step Hs; cbn [app] in E;
    try (destruct e1; discriminate E);
    try (apply B in E; discriminate E);
    try (apply one_last in E; destruct E as (->&E&->); try discriminate E);
    try (apply two_last in E; destruct E as [(->&E&->)|(->&E&->)]; try discriminate E);
    repeat split; lia.
Qed.
Lemma step_hb c s l s' es : step c s l = Some (s', es) -> s_hb s' = s_hb s \/ In EvTick es.
Proof.
  intro Hs. destruct l; inv_step Hs; sys; auto; right; left; reflexivity.
Qed.
Lemma tick_inv c start ls tr s n :
  exec c start ls tr s -> In (n, EvTick) tr -> n + 59995 <= s_hb s.
Proof.
  intro H. revert n. pattern tr, s. revert tr s H. apply exec_inv; [intros n []|].
  intros tr s l s' es H IH Hs n Hi. apply in_app_or in Hi. destruct Hi as [Hi|Hi].
  - specialize (IH _ Hi). destruct (step_hb _ _ _ _ _ Hs) as [->|T]; [exact IH|].
    apply in_split in T. destruct T as (e1&e2&->). destruct (step_tick _ _ _ _ _ _ Hs) as (_&_&L&->).
    unfold next_tick, ms_heart_beat. destruct (s_hb s + 5 <? s_now s) eqn:E; lia.
  - unfold stamp in Hi. apply in_map_iff in Hi. destruct Hi as (x&Ex&Hx). injection Ex as <- ->.
    apply in_split in Hx. destruct Hx as (e1&e2&->). destruct (step_tick _ _ _ _ _ _ Hs) as (_&_&L&->).
    unfold next_tick, ms_heart_beat. destruct (s_hb s + 5 <? s_now s) eqn:E; lia.
Qed.
Lemma ticks_spaced c start ls tr s p n1 m n2 q :
  exec c start ls tr s -> tr = p ++ (n1, EvTick) :: m ++ (n2, EvTick) :: q -> n1 + 59995 <= n2.
Proof.
  intros H E. change (p ++ (n1, EvTick) :: m ++ (n2, EvTick) :: q) with (p ++ ((n1, EvTick) :: m) ++ (n2, EvTick) :: q) in E.
  rewrite app_assoc in E.
  destruct (exec_split _ _ _ _ _ _ _ _ _ H E) as (tr0&s0&l&s1&e1&e2&H0&Hs&->&Ep&_).
  destruct (step_tick _ _ _ _ _ _ Hs) as (->&_&L&_). cbn in Ep. rewrite app_nil_r in Ep. subst tr0.
  pose proof (tick_inv _ _ _ _ _ n1 H0 (in_mid _ _ _ _)). lia.
Qed.
(** Once connected, no EvCleared since the last EvConnected. *)
Lemma connected_not_cleared c start ls tr s cd b :
  exec c start ls tr s -> current tr = Some (cd, b) -> s_conn s <> None -> ~ In EvCleared (evs b).
Proof.
  intro H. revert cd b. pattern tr, s. revert tr s H. apply exec_inv; [discriminate|].
  intros tr s l s' es H IH Hs cd b Hc Hn Hi. rewrite current_app in Hc.
  assert (K : no_connected (stamp (s_now s) es) -> (s_conn s' <> None -> s_conn s <> None) -> ~ In EvCleared es -> False).
  { intros K1 K2 K3. rewrite (fold_no_connected _ _ K1) in Hc. destruct (current tr) as [[c0 b0]|] eqn:Ec; [|discriminate].
    injection Hc as <- <-. rewrite evs_app, evs_stamp in Hi. apply in_app_or in Hi. destruct Hi as [Hi|Hi]; [|auto].
    exact (IH _ _ eq_refl (K2 Hn) Hi). }
  destruct (bg_label l) eqn:Hb.
  - destruct (bg_conn _ _ _ _ _ Hs Hb) as (_&[(r&Hr&->&_)|(Hno&Hcase)]).
    + cbn in Hc. injection Hc as <- <-. destruct Hi.
    + apply K; [exact Hno| |].
      * destruct Hcase as [->| ->]; [auto|congruence].
      * clear - Hs Hb Hn. intro Hi. revert Hn. destruct l; try discriminate Hb; inv_step Hs; sys; cbn in Hi; try (intuition discriminate);
          intuition try discriminate; try congruence;
          match goal with G : In _ (stop_events ?b) |- _ => destruct b; cbn in G; intuition discriminate end.
  - destruct (call_label l) as [t|] eqn:Hl.
    + apply K; [eapply call_no_connected; eauto| |].
      * destruct (call_conn _ _ _ _ _ _ Hs Hl) as [(->&_)|(c1&E&_)]; [auto|congruence].
      * intro Hj. destruct (call_frame _ _ _ _ _ _ Hs Hl) as (_&_&_&_&_&_&_&F). rewrite forallb_forall in F.
        specialize (F _ Hj). discriminate F.
    + destruct (env_frame _ _ _ _ _ Hs Hb Hl) as (E&_&_&_&_&_&_&_&Ev). apply K.
      * destruct Ev as [(d&->&_)|(->&_)]; reflexivity.
      * rewrite E. auto.
      * destruct Ev as [(d&->&_)|(->&_)]; cbn; intuition discriminate.
Qed.
Lemma heartbeat_current c start ls tr s p n ok x q :
  exec c start ls tr s -> Forall bytes (arrived tr) -> tr = p ++ (n, send_event ok Bg x) :: q -> service x = 0x0207 ->
  exists a n0 cd b, p = a ++ (n0, EvConnected cd) :: b /\ no_connected b /\ ~ In EvCleared (evs b) /\
    x = state_datagram (cd_chan cd) (cd_ep cd).
Proof.
  intros H Hb E Hx. destruct (exec_split _ _ _ _ _ _ _ _ _ H E) as (tr0&s0&l&s1&e1&e2&H0&Hs&_&Ep&_).
  assert (Hl : bg_label l = true).
  { destruct (bg_label l) eqn:Hl; [reflexivity|]. pose proof (step_bg_events _ _ _ _ _ Hs Hl) as F.
    rewrite filter_app in F. cbn in F. destruct ok; cbn in F; destruct (filter bg_event e1); discriminate. }
  destruct (step_bg_send _ _ _ _ _ _ _ _ Hs Hl) as (->&Hc). cbn in Ep. rewrite app_nil_r in Ep. subst tr0.
  rewrite E in Hb. apply arrived_prefix in Hb.
  destruct Hc as [(Hc&->)|[(r&Hc&->)|[(ch&seq&k&Hc&->)|[(cd&Hc&Hcd&->)|(r&Hc)]]]]; try discriminate Hx.
  - pose proof (seq_inv _ _ _ _ _ H0) as Q. destruct (current p) as [[c0 b]|] eqn:Ec; [|destruct Q; congruence].
    destruct (current_some _ _ _ Ec) as (Hn&a&n0&->). destruct Q as (_&Q). destruct (Q _ Hcd) as (-> & E2 & _).
    exists a, n0, c0, b. split; [reflexivity|]. split; [exact Hn|]. split.
    + eapply connected_not_cleared; eauto. congruence.
    + rewrite E2. apply statep_eq. rewrite <- E2. pose proof (proj2 (granted_inv _ _ _ _ _ H0) _ Hcd) as G.
      destruct (granted_grants _ _ _ _ _ _ _ H0 Hb G) as (d&_&Hg). eapply grants_wf, Hg.
  - exfalso. pose proof (bg_hist _ _ _ _ _ H0) as Hh. rewrite Hc in Hh. destruct Hh as (d&h'&Hh&Hd). apply rev_cons_inv in Hh.
    assert (Bd : bytes d).
    { eapply bgrecv_bytes; [exact H0|exact Hb|]. rewrite Hh. apply in_mid. }
    pose proof (dispatch_spec _ Bd) as D. rewrite Hd in D. exact D.
Qed.

(** ** Connection attempts *)
Lemma attempts_inv c start ls tr s p n ok q :
  exec c start ls tr s -> c_mode c = MClient -> tr = p ++ (n, send_event ok Bg connp) :: q -> no_connected q ->
  match s_bg s with
  | BConnWait _ | BStore _ => n <= s_now s
  | BConnSleep dl => n + 10000 <= dl
  | BConnSend => n + 10000 <= s_now s
  | _ => False
  end.
Proof.
  intros H Hm. revert p n ok q. pattern tr, s. revert tr s H. apply exec_inv; [intros [|] ? ? ? E; discriminate E|].
  intros tr s l s' es H IH Hs p n ok q E Hn. apply app_split in E.
  destruct E as [(q'&E&->)|(p'&->&E)].
  - apply no_connected_app in Hn. destruct Hn as [Hn Hn']. specialize (IH _ _ _ _ E Hn).
    assert (Hle : n <= s_now s).
    { pose proof (stamp_inv _ _ _ _ _ H) as F. rewrite Forall_forall in F. apply (F (n, send_event ok Bg connp)). rewrite E. apply in_mid. }
    destruct (bg_label l) eqn:Hb.
    + clear E. destruct l; try discriminate Hb; inv_step Hs; sys;
        repeat match goal with G : s_bg s = _ |- _ => rewrite G in *; clear G end; try contradiction; try congruence;
        unfold ms_retry; try lia; try (discriminate Hn').
    + assert (s_bg s' = s_bg s /\ s_now s <= s_now s') as (->&L).
      { destruct (call_label l) as [u|] eqn:Hl.
        - destruct (call_frame _ _ _ _ _ _ Hs Hl) as (->&_&_&->&_). split; [reflexivity|lia].
        - destruct (env_frame _ _ _ _ _ Hs Hb Hl) as (_&_&->&_&_&_&_&L&_). auto. }
      destruct (s_bg s); auto; lia.
  - apply stamp_split in E. destruct E as (e1&e&e2&->&->&Ee&->). injection Ee as -> <-.
    assert (Hl : bg_label l = true).
    { destruct (bg_label l) eqn:Hl; [reflexivity|]. pose proof (step_bg_events _ _ _ _ _ Hs Hl) as F.
      rewrite filter_app in F. cbn in F. destruct ok; cbn in F; destruct (filter bg_event e1); discriminate. }
    destruct (step_bg_send _ _ _ _ _ _ _ _ Hs Hl) as (->&Hc).
    assert (Hc' : s_bg s = BConnSend).
    { destruct Hc as [(Hc&_)|[(r&Hc&Ex)|[(ch&seq&k&Hc&Ex)|[(cd&Hc&_&Ex)|(r&Hc)]]]]; [exact Hc| | | |];
        try (apply (f_equal service) in Ex; discriminate Ex).
      destruct l; try discriminate Hl; cbn [step app] in Hs; unfold bg_step, bg_recv_err, bg_timeout, bg_tick in Hs; rewrite Hc in Hs; try discriminate Hs.
      - injection Hs as _ Hs _. exfalso. destruct ok0, ok; try discriminate Hs;
        apply (f_equal (fun e => match e with EvSend _ d | EvSendFail _ d => service d | _ => 0 end)) in Hs; discriminate Hs.
      - destruct (s_hb s <=? s_now s); [|discriminate Hs]. destruct ok; discriminate Hs. }
    destruct l; try discriminate Hl; cbn [step app] in Hs; unfold bg_step, bg_recv_err, bg_timeout, bg_tick in Hs; rewrite Hc' in Hs; try discriminate Hs.
    injection Hs as <- _ _. cbn. destruct ok0; unfold ms_retry; lia.
Qed.
Lemma attempts_spaced c start ls tr s p n1 ok1 m n2 ok2 q :
  exec c start ls tr s -> c_mode c = MClient ->
  tr = p ++ (n1, send_event ok1 Bg connection_datagram) :: m ++ (n2, send_event ok2 Bg connection_datagram) :: q ->
  no_connected m -> n1 + 10000 <= n2.
Proof.
  rewrite <- connp_eq. intros H Hm E Hn.
  rewrite app_comm_cons, app_assoc in E.
  destruct (exec_split _ _ _ _ _ _ _ _ _ H E) as (tr0&s0&l&s1&e1&e2&H0&Hs&->&Ep&_).
  assert (Hl : bg_label l = true).
  { destruct (bg_label l) eqn:Hl; [reflexivity|]. pose proof (step_bg_events _ _ _ _ _ Hs Hl) as F.
    rewrite filter_app in F. cbn in F. destruct ok2; cbn in F; destruct (filter bg_event e1); discriminate. }
  destruct (step_bg_send _ _ _ _ _ _ _ _ Hs Hl) as (->&Hc). cbn [stamp map] in Ep. rewrite app_nil_r in Ep.
  pose proof (attempts_inv _ _ _ _ _ _ _ _ _ H0 Hm (eq_sym Ep) Hn) as A.
  destruct Hc as [(Hc&_)|[(r&Hc&Ex)|[(ch&seq&k&Hc&Ex)|[(cd&Hc&_&Ex)|(r&Hc)]]]]; rewrite Hc in A; try contradiction; exact A.
Qed.
