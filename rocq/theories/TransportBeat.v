(** The heart beat that is due is also sent. *)
From Verif Require Import Base Addresses Tunneling Emi Core Transport Wire Spec TraceSpec TraceSpec2 LiveSpec PromptSpec
  TransportBase TransportInv TransportBg TransportBgThm TransportBgThm2 TransportBgThm3 TransportMore2 TransportRecover TransportRuns
  TransportPrompt TransportPrompt2 PromptRuns TransportAck TransportFresh.
From Coq Require Import Lia.
Open Scope N_scope.

Lemma stamp_app n a b : stamp n (a ++ b) = stamp n a ++ stamp n b. Proof. apply map_app. Qed.
Lemma attended_split c start ls tr s : attended c start ls tr s -> forall p n e q, tr = p ++ (n, e) :: q ->
  exists tr0 s0 l s1 e1 e2, attended c start ls tr0 s0 /\ step c s0 l = Some (s1, e1 ++ e :: e2) /\
    n = s_now s0 /\ p = tr0 ++ stamp (s_now s0) e1.
Proof.
  induction 1 as [|tr s l s' es HA IH Hs HT]; intros p n e q E; [destruct p; discriminate E|].
  apply app_split in E. destruct E as [(q'&E&_)|(p'&->&E)]; [exact (IH _ _ _ _ E)|].
  unfold stamp in E. apply map_eq_app in E. destruct E as (e1&e2'&->&E1&E2). destruct e2' as [|x e2]; [discriminate E2|].
  cbn in E2. injection E2 as <- <- _. exists tr, s, l, s', e1, e2. subst p'. auto.
Qed.
Lemma first_tick (q : trace) : (exists qa k qb, q = qa ++ (k, EvTick) :: qb /\ never EvTick qa) \/ never EvTick q.
Proof.
  induction q as [|[k e] q IH]; [right; intros []|].
  assert (D : e = EvTick \/ e <> EvTick) by (destruct e; auto; right; discriminate).
  destruct D as [->|D]; [left; exists [], k, q; split; [reflexivity|intros []]|].
  destruct IH as [(qa&j&qb&->&N)|N].
  - left. exists ((k, e) :: qa), j, qb. split; [reflexivity|]. intros [X|X]; [exact (D X)|exact (N X)].
  - right. intros [X|X]; [exact (D X)|exact (N X)].
Qed.
Lemma last_tick c start ls tr s a y :
  exec c start ls tr s -> bg_events tr = a ++ [y] -> y = EvTick \/ (exists m, y = EvLost m) -> s_bg s = BBeat.
Proof.
  intros H E Y. pose proof (bg_hist _ _ _ _ _ H) as Hh. rewrite E, rev_app_distr in Hh. cbn [rev app] in Hh.
  destruct Y as [->|(m&->)];
  destruct (s_bg s) eqn:Es; cbn [bg_ok] in Hh; unfold at_check, at_retry, at_recv, at_enq in Hh; hist_cases Hh;
    try discriminate; try congruence; auto;
    try (match goal with G : _ :: _ = rev (map EvNotify ?l) ++ _ |- _ =>
           destruct l as [|? l _] using rev_ind; [discriminate G|rewrite map_app, rev_app_distr in G; discriminate G] end).
Qed.
Lemma next_after_beat c start ls tr s a y g b :
  exec c start ls tr s -> bg_events tr = a ++ y :: g :: b -> y = EvTick \/ (exists m, y = EvLost m) ->
  (y = EvTick /\ exists m, g = EvLost m) \/ exists ok x, g = send_event ok Bg x /\ service x = 0x0207.
Proof.
  intros H E Y. change (a ++ y :: g :: b) with (a ++ [y] ++ g :: b) in E. rewrite app_assoc in E.
  destruct (bg_split _ _ _ _ _ _ _ _ H E) as (tr0&s0&l&s1&e1&e2&H0&Hs&Hl&Ea&_&_).
  destruct e1 as [|x e1 _] using rev_ind.
  - right. rewrite app_nil_r in Ea. pose proof (last_tick _ _ _ _ _ _ _ H0 (eq_sym Ea) Y) as Hp.
    destruct l; try discriminate Hl; cbn [step app] in Hs; unfold bg_step, bg_recv_err, bg_timeout, bg_tick in Hs; rewrite Hp in Hs;
      try discriminate Hs. destruct (s_conn s0) as [cd|]; [|discriminate Hs]. injection Hs as _ <- _.
    do 2 eexists. split; reflexivity.
  - left. rewrite app_assoc in Ea. apply app_inj_tail in Ea. destruct Ea as (_&<-). rewrite <- app_assoc in Hs. cbn [app] in Hs.
    remember (e1 ++ y :: g :: e2) as es eqn:Ee.
    clear H H0 E. destruct l; try discriminate Hl; inv_step Hs;
      try (match type of Ee with context [stop_events ?b] => destruct b eqn:? end);
      destruct e1 as [|? [|? [|]]]; try discriminate Ee; cbn in Ee;
      try (injection Ee; intros; subst; destruct Y as [Y|(?&Y)]; try discriminate Y; eauto; fail).
    all: try (injection Ee; intros; subst; destruct Y as [Y|(?&Y)]; match type of Y with send_event ?o _ _ = _ => destruct o; discriminate Y end).
Qed.
Lemma beat_sent c start ls tr s p n e q :
  attended c start ls tr s -> ~ task_stopped tr -> tr = p ++ (n, e) :: q -> connected_now (p ++ [(n, e)]) = true -> never EvCleared q ->
  n + 60000 < s_now s -> exists k ok x, n <= k <= n + 60000 /\ In (k, send_event ok Bg x) q /\ service x = 0x0207.
Proof.
  intros HA NS E C NC L. pose proof (prompt_exec _ _ _ _ _ (attended_prompt _ _ _ _ _ HA)) as H.
  destruct (first_tick q) as [(qa&k&qb&Eq&NT)|NT].
  2:{ exfalso. assert (s_now s <= n + 60000); [|lia]. eapply beat_in_time; eassumption. }
  assert (E2 : tr = (p ++ (n, e) :: qa) ++ (k, EvTick) :: qb) by (rewrite E, Eq, <- app_assoc; reflexivity).
  destruct (attended_split _ _ _ _ _ HA _ _ _ _ E2) as (tr0&s0&l&s1&e1&e2&A0&Hs&Ek&Ep).
  destruct (step_tick _ _ _ _ _ _ Hs) as (->&_&_). cbn [stamp map] in Ep. rewrite app_nil_r in Ep. subst tr0.
  assert (Lk : k <= n + 60000).
  { rewrite Ek. eapply (beat_in_time c start ls (p ++ (n, e) :: qa) s0 p n e qa); try eassumption; try reflexivity.
    - intro X. apply NS. rewrite E2. destruct X as [X|X]; [left|right]; rewrite evs_app; apply in_or_app; left; exact X.
    - rewrite Eq in NC. apply never_app in NC. apply NC. }
  pose proof (prompt_exec _ _ _ _ _ (attended_prompt _ _ _ _ _ A0)) as H0.
  pose proof (start_now _ _ _ _ _ H0) as Hst. rewrite <- Ek in Hst.
  pose proof (stamp_inv _ _ _ _ _ H0) as S0. rewrite <- Ek in S0.
  assert (Ln : n <= k). { rewrite Forall_forall in S0. apply (S0 (n, e)). apply in_or_app. right. left. reflexivity. }
  destruct (moment _ _ _ _ _ _ HA Hst ltac:(lia)) as (x&b&sm&Ex&Fx&Fb&Hm&Rm&_).
  assert (Hx : exists qc, x = (p ++ (n, e) :: qa) ++ (k, EvTick) :: qc /\ qb = qc ++ b).
  { rewrite E2 in Ex. symmetry in Ex. apply app_split in Ex. destruct Ex as [(q'&Ex&->)|(p'&Ep'&Eb)]; [exists q'; auto|].
    exfalso. rewrite Eb in Fb. rewrite Forall_forall in Fb. assert (k < k); [|lia]. apply (Fb (k, EvTick)). apply in_or_app. right. left. reflexivity. }
  destruct Hx as (qc&->&->).
  assert (B : bg_events ((p ++ (n, e) :: qa) ++ (k, EvTick) :: qc) = bg_events (p ++ (n, e) :: qa) ++ EvTick :: bg_events qc)
    by (rewrite bg_events_app; reflexivity).
  assert (St : forall g, In g (bg_events qc) -> exists j, In (j, g) qc).
  { intros g Hg. unfold bg_events in Hg. apply filter_In in Hg. destruct Hg as [Hg _]. apply in_evs in Hg. exact Hg. }
  assert (Done : forall ok x, In (send_event ok Bg x) (bg_events qc) -> service x = 0x0207 ->
    exists k ok x, n <= k <= n + 60000 /\ In (k, send_event ok Bg x) q /\ service x = 0x0207).
  { intros ok x Hx Hv. destruct (St _ Hx) as (j&Hj). exists j, ok, x. split; [|split; [|exact Hv]].
    - rewrite Forall_forall in Fx. specialize (Fx (j, send_event ok Bg x)). cbn in Fx. split; [|assert (j <= k); [|lia]; apply Fx; apply in_or_app; right; right; exact Hj].
      apply in_split in Hj. destruct Hj as (u&v&->).
      assert (Srt : Forall (fun x => fst x <= j) ((p ++ (n, e) :: qa) ++ (k, EvTick) :: u)).
      { eapply sorted_at with (e := send_event ok Bg x) (q := v). rewrite <- app_assoc. exact Hm. }
      rewrite Forall_forall in Srt. apply (Srt (n, e)). apply in_or_app. left. apply in_or_app. right. left. reflexivity.
    - rewrite Eq. apply in_or_app. right. right. apply in_or_app. left. exact Hj. }
  assert (Go : s_bg sm = BBeat -> False).
  { intro X. specialize (Rm (LBg true) I). cbn [step] in Rm. unfold bg_step in Rm. rewrite X in Rm. destruct (s_conn sm); discriminate Rm. }
  destruct (bg_events qc) as [|g gs] eqn:Eg.
  { exfalso. apply Go. eapply last_tick; [exact Hm|exact B|auto]. }
  destruct (next_after_beat _ _ _ _ _ _ _ _ _ Hm B (or_introl eq_refl)) as [(_&m&->)|(ok&y&->&Hy)].
  2:{ apply (Done ok y); [left; reflexivity|exact Hy]. }
  change (EvTick :: EvLost m :: gs) with ([EvTick] ++ EvLost m :: gs) in B. rewrite app_assoc in B.
  destruct gs as [|g gs].
  { exfalso. apply Go. eapply last_tick; [exact Hm|exact B|eauto]. }
  destruct (next_after_beat _ _ _ _ _ _ _ _ _ Hm B (or_intror (ex_intro _ m eq_refl))) as [(X&_)|(ok&y&->&Hy)]; [discriminate X|].
  apply (Done ok y); [right; left; reflexivity|exact Hy].
Qed.
