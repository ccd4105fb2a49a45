(** When a tunnelling request is acknowledged. *)
From Verif Require Import Base Addresses Tunneling Emi Core Transport Wire Spec TraceSpec TraceSpec2 LiveSpec PromptSpec ReactSpec AckSpec BaseProofs
  TransportBase TransportInv TransportBg TransportBgThm TransportBgThm2 TransportThm2 TransportReads TransportRecover TransportRuns TransportPrompt TransportPrompt2
  TransportReact PromptRuns.
From Coq Require Import Lia ZifyBool ZifyNat ZifyN.
Open Scope N_scope.

(** ** The last moment of an instant *)
Lemma moment c start ls tr s n :
  attended c start ls tr s -> start <= n -> n < s_now s ->
  exists a b s1, tr = a ++ b /\ Forall (fun x => fst x <= n) a /\ Forall (fun x => n < fst x) b /\
    exec c start ls a s1 /\ at_rest c s1 /\ has_room a s1.
Proof.
  induction 1 as [|tr s l s' es HA IH Hs HT]; intros Hn Hl; [cbn in Hl; lia|].
  pose proof (prompt_exec _ _ _ _ _ (attended_prompt _ _ _ _ _ HA)) as H.
  destruct (N.lt_ge_cases n (s_now s)) as [L|L].
  - destruct (IH Hn L) as (a&b&s1&->&Fa&Fb&R). exists a, (b ++ stamp (s_now s) es), s1. rewrite <- app_assoc.
    split; [reflexivity|]. split; [exact Fa|]. split; [|exact R]. apply Forall_app. split; [exact Fb|].
    apply Forall_forall. intros x Hx. unfold stamp in Hx. apply in_map_iff in Hx. destruct Hx as (e&<-&_). exact L.
  - assert (D : (exists dt, l = LTime dt) \/ forall dt, l <> LTime dt) by (destruct l; eauto; right; discriminate).
    destruct D as [(dt&->)|D]; [|rewrite (other_now _ _ _ _ _ Hs D) in Hl; lia].
    destruct (HT dt eq_refl) as [P Q]. cbn in Hs. injection Hs as <- <-. sysb_in Hl.
    exists tr, [], (set_now s (s_now s + (n - s_now s))). cbn [stamp map]. rewrite !app_nil_r. split; [reflexivity|].
    split; [eapply Forall_impl; [|exact (stamp_inv _ _ _ _ _ H)]; cbn; intros; lia|]. split; [constructor|].
    split; [|split; [apply P; lia|exact Q]].
    pose proof (exec_step c start ls tr s (LTime (n - s_now s)) _ [] H eq_refl) as X. cbn [stamp map] in X. rewrite app_nil_r in X. exact X.
Qed.
Lemma instant_split (n : N) (a : trace) : forall p b r,
  a ++ b = p ++ r -> Forall (fun x => fst x <= n) a -> Forall (fun x => n < fst x) b ->
  Forall (fun x => fst x <= n) p -> Forall (fun x => n < fst x) r -> a = p.
Proof.
  induction a as [|x a IH]; intros p b r E Fa Fb Fp Fr.
  - destruct p as [|y p]; [reflexivity|]. exfalso. cbn in E. subst b. inversion Fb; inversion Fp; subst. lia.
  - destruct p as [|y p].
    + exfalso. cbn in E. subst r. inversion Fa; inversion Fr; subst. lia.
    + cbn in E. injection E as <- E. inversion Fa; inversion Fp; subst. f_equal. eapply IH; eassumption.
Qed.

(** ** Where a datagram that was taken went *)
Lemma consumed_split tr x d y :
  consumed tr = x ++ d :: y ->
  exists p n e q, tr = p ++ (n, e) :: q /\ (e = EvConnRecv d \/ e = EvBgRecv d \/ exists t, e = EvClRecv t d).
Proof.
  revert x. induction tr as [|[n e] tr IH]; intros x E; [destruct x; discriminate E|].
  assert (K : consumed tr = x ++ d :: y -> exists p n0 e0 q, (n, e) :: tr = p ++ (n0, e0) :: q /\ (e0 = EvConnRecv d \/ e0 = EvBgRecv d \/ exists t, e0 = EvClRecv t d)).
  { intro F. destruct (IH _ F) as (p&n0&e0&q&->&G). exists ((n, e) :: p), n0, e0, q. auto. }
  assert (K2 : forall g, g :: consumed tr = x ++ d :: y -> (e = EvConnRecv g \/ e = EvBgRecv g \/ exists t, e = EvClRecv t g) ->
    exists p n0 e0 q, (n, e) :: tr = p ++ (n0, e0) :: q /\ (e0 = EvConnRecv d \/ e0 = EvBgRecv d \/ exists t, e0 = EvClRecv t d)).
  { intros g F G. destruct x as [|g' x]; cbn in F; injection F as -> F.
    - exists [], n, e, tr. auto.
    - destruct (IH _ F) as (p&n0&e0&q&->&G'). exists ((n, e) :: p), n0, e0, q. auto. }
  destruct e; try exact (K E); apply (K2 d0); eauto.
Qed.
Lemma arrive_first c s l s1 e1 d e2 : step c s l = Some (s1, e1 ++ EvArrive d :: e2) -> e1 = [] /\ e2 = [].
Proof.
  intro Hs. remember (e1 ++ EvArrive d :: e2) as es eqn:E.
  assert (X : forall x y : event, x <> EvArrive d -> y <> EvArrive d -> [x; y] = e1 ++ EvArrive d :: e2 -> False).
  { intros x y Hx Hy F. destruct e1 as [|? [|? [|]]]; try discriminate F; cbn in F; injection F; intros; congruence. }
  assert (Y : forall x : event, x <> EvArrive d -> [x] = e1 ++ EvArrive d :: e2 -> False).
  { intros x Hx F. destruct e1 as [|? [|]]; try discriminate F; cbn in F; injection F; intros; congruence. }
  destruct l; inv_step Hs; try (destruct e1; discriminate E);
    try (match type of E with context [stop_events ?b] => destruct b end; cbn [stop_events] in E);
    try (exfalso; eapply Y; [|exact E]; try discriminate; match goal with |- send_event ?b _ _ <> _ => destruct b; discriminate end);
    try (exfalso; eapply X; [| |exact E]; try discriminate; match goal with |- send_event ?b _ _ <> _ => destruct b; discriminate end).
  destruct e1 as [|? [|]]; try discriminate E. cbn in E. injection E as _ <-. auto.
Qed.

(** ** Acknowledged in the same instant *)
Lemma conn_recv_unconnected c start ls p n d q s : exec c start ls (p ++ (n, EvConnRecv d) :: q) s -> connected_now p = false.
Proof.
  intro H. destruct (exec_split _ _ _ _ _ _ _ _ _ H eq_refl) as (tr0&s0&l&s1&e1&e2&H0&Hs&->&->&_).
  assert (X : e1 = [] /\ connecting (s_bg s0) = true).
  { remember (e1 ++ EvConnRecv d :: e2) as es eqn:E.
    assert (X2 : forall x y : event, x <> EvConnRecv d -> y <> EvConnRecv d -> [x; y] = e1 ++ EvConnRecv d :: e2 -> False).
    { intros x y Hx Hy F. destruct e1 as [|? [|? [|]]]; try discriminate F; cbn in F; injection F; intros; congruence. }
    assert (Y : forall x : event, x <> EvConnRecv d -> [x] = e1 ++ EvConnRecv d :: e2 -> False).
    { intros x Hx F. destruct e1 as [|? [|]]; try discriminate F; cbn in F; injection F; intros; congruence. }
    clear H. destruct l; inv_step Hs; try (destruct e1; discriminate E);
      try (match type of E with context [stop_events ?b] => destruct b end; cbn [stop_events] in E);
      try (exfalso; eapply Y; [|exact E]; try discriminate; match goal with |- send_event ?b _ _ <> _ => destruct b; discriminate end);
      try (exfalso; eapply X2; [| |exact E]; try discriminate; match goal with |- send_event ?b _ _ <> _ => destruct b; discriminate end).
    all: destruct e1 as [|? [|]]; try discriminate E; split; reflexivity. }
  destruct X as [-> X]. cbn [stamp map]. rewrite app_nil_r, (connected_inv _ _ _ _ _ H0).
  apply (conn_inv _ _ _ _ _ H0) in X. rewrite X. reflexivity.
Qed.
Lemma acked_in_time c start ls tr s p n d q rest r a :
  attended c start ls tr s -> Forall bytes (arrived tr) ->
  tr = p ++ (n, EvArrive d) :: q ++ rest -> Forall (fun x => fst x = n) q -> Forall (fun x => n < fst x) rest -> n < s_now s ->
  connected_now p = true -> never EvCleared q -> never EvTick q -> (forall t, never (EvClRecv t d) q) ->
  ~ task_stopped (p ++ (n, EvArrive d) :: q) ->
  (length (queued (p ++ (n, EvArrive d) :: q)) < length (taken (p ++ (n, EvArrive d) :: q)) + 100)%nat ->
  looks_like (recv_buffer d) r -> ack_of r = Some a ->
  exists ok, In (n, send_event ok Bg a) q.
Proof.
  intros HA Hb E Fq Fr Hn C NC NT NR NS Q L Ea.
  pose proof (prompt_exec _ _ _ _ _ (attended_prompt _ _ _ _ _ HA)) as H.
  destruct (exec_split _ _ _ _ _ _ _ _ _ H E) as (tr0&s0&l&s1&e1&e2&H0&Hs&En&Ep&H1&_).
  destruct (arrive_first _ _ _ _ _ _ _ Hs) as [-> ->]. cbn [stamp map] in Ep. rewrite app_nil_r in Ep. subst tr0.
  pose proof (start_now _ _ _ _ _ H0) as Hst. rewrite <- En in Hst.
  destruct (moment _ _ _ _ _ _ HA Hst Hn) as (x&b&sm&Ex&Fx&Fb&Hm&Rm&Room).
  set (T := p ++ (n, EvArrive d) :: q) in *.
  assert (ET : x = T).
  { eapply (instant_split n x T b rest); auto.
    - rewrite <- Ex, E. unfold T. rewrite <- app_assoc. reflexivity.
    - unfold T. apply Forall_app. split; [rewrite En; exact (stamp_inv _ _ _ _ _ H0)|]. constructor; [cbn; lia|].
      eapply Forall_impl; [|exact Fq]. cbn. intros; lia. }
  subst x. clear Ex.
  assert (CT : connected_now T = true).
  { unfold T. apply connected_stays; [|exact NC]. rewrite connected_app. cbn. exact C. }
  pose proof (rest_nothing_waits _ _ _ _ _ Hm Rm Room NS CT Q) as W.
  assert (Hbt : Forall bytes (arrived T)).
  { rewrite E in Hb. change (p ++ (n, EvArrive d) :: q ++ rest) with (p ++ ((n, EvArrive d) :: q) ++ rest) in Hb. rewrite app_assoc, arrived_app in Hb.
    apply Forall_app in Hb. apply Hb. }
  pose proof (inbox_inv _ _ _ _ _ H0) as I0.
  unfold T in W. change ((n, EvArrive d) :: q) with ([(n, EvArrive d)] ++ q) in W. rewrite !arrived_app, !consumed_app, I0, <- app_assoc in W.
  apply app_inv_head in W. symmetry in W. change (consumed q = s_inbox s0 ++ d :: arrived q) in W.
  destruct (consumed_split _ _ _ _ W) as (q1&n'&e&q2&Eq&[->|[->|(t&->)]]).
  - exfalso. assert (X : connected_now (p ++ (n, EvArrive d) :: q1) = false).
    { eapply conn_recv_unconnected. rewrite <- app_assoc. cbn [app]. rewrite <- Eq. exact Hm. }
    rewrite connected_stays in X; [discriminate X|rewrite connected_app; cbn; exact C|]. rewrite Eq in NC. apply never_app in NC. apply NC.
  - assert (Bg2 : bg_events T = bg_events (p ++ (n, EvArrive d) :: q1) ++ EvBgRecv d :: bg_events q2).
    { unfold T. rewrite Eq. change (p ++ (n, EvArrive d) :: q1 ++ (n', EvBgRecv d) :: q2) with (p ++ ((n, EvArrive d) :: q1) ++ [(n', EvBgRecv d)] ++ q2).
      rewrite app_assoc, !bg_events_app, <- !app_assoc. reflexivity. }
    assert (St : forall g, In g (bg_events q2) -> In (n, g) q).
    { intros g Hg. unfold bg_events in Hg. apply filter_In in Hg. destruct Hg as [Hg _]. unfold evs in Hg. apply in_map_iff in Hg.
      destruct Hg as ((k&g')&G&Hg). cbn in G. subst g'. assert (Iq : In (k, g) q) by (rewrite Eq; apply in_or_app; right; right; exact Hg).
      rewrite Forall_forall in Fq. specialize (Fq _ Iq). cbn in Fq. subst k. exact Iq. }
    destruct (bg_events q2) as [|g gs] eqn:Eg.
    + exfalso. pose proof (acks_at_once _ _ _ _ _ _ _ _ true Hm Hbt Bg2 L) as K. specialize (Rm (LBg true) I).
      destruct r; try discriminate Ea; destruct K as (s'&es&K); congruence.
    + pose proof (reacts _ _ _ _ _ _ _ _ _ _ Hm Hbt Bg2 L) as K.
      assert (Ng : g <> EvTick).
      { intros ->. apply NT. apply in_map_iff. exists (n, EvTick). split; [reflexivity|]. apply St. left. reflexivity. }
      destruct r; try discriminate Ea; injection Ea as <-; destruct K as [(ok&K)|K]; try contradiction; exists ok; rewrite <- K; apply St; left; reflexivity.
  - exfalso. apply (NR t). rewrite Eq, evs_app. apply in_or_app. right. left. reflexivity.
Qed.

(** ** While the queue is full *)
Lemma blocked_step c s l s' es m :
  step c s l = Some (s', es) -> s_bg s = BEnq m -> length (s_rxq s) = 100%nat -> s_rx_alive s = true ->
  taken (stamp 0 es) = [] -> ~ In EvTick es -> filter bg_event es = [] /\ s_bg s' = BEnq m /\ length (s_rxq s') = 100%nat.
Proof.
  intros Hs B F Al NT NK. destruct (bg_label l) eqn:Hb.
  - exfalso. destruct l; try discriminate Hb; cbn [step] in Hs; unfold bg_step, bg_recv_err, bg_timeout, bg_tick in Hs; rewrite B in Hs;
      try discriminate Hs.
    + rewrite Al, F in Hs. discriminate Hs.
    + destruct (s_hb s <=? s_now s); [|discriminate Hs]. injection Hs as _ <-. apply NK. left. reflexivity.
  - split; [exact (step_bg_events _ _ _ _ _ Hs Hb)|]. destruct (step_queue _ _ _ _ _ Hs) as [Eq _].
    pose proof (step_bg_events _ _ _ _ _ Hs Hb) as NB.
    assert (Qn : queued (stamp (s_now s) es) = []).
    { clear -NB. induction es as [|e es IH]; [reflexivity|]. cbn in NB |- *. destruct e; cbn in NB |- *; try discriminate NB; try (exact (IH NB)).
      all: match goal with w : who |- _ => destruct w; cbn in NB; try discriminate NB; exact (IH NB) end. }
    assert (Tn : taken (stamp (s_now s) es) = []).
    { clear -NT. induction es as [|e es IH]; [reflexivity|]. cbn in NT |- *. destruct e; cbn in NT |- *; try discriminate NT; exact (IH NT). }
    split.
    + destruct (call_label l) as [t|] eqn:Hc; [rewrite <- B; apply (call_frame _ _ _ _ _ _ Hs Hc)|rewrite <- B; apply (env_frame _ _ _ _ _ Hs Hb Hc)].
    + rewrite Qn, Tn, app_nil_r in Eq. cbn in Eq. congruence.
Qed.
Lemma blocked c sched m : forall s s' tr',
  run c s sched = Some (s', tr') -> s_bg s = BEnq m -> length (s_rxq s) = 100%nat -> s_rx_alive s' = true ->
  taken tr' = [] -> never EvTick tr' -> bg_events tr' = [].
Proof.
  induction sched as [|l sched IH]; intros s s' tr' R B F Al T K; cbn in R; [injection R as <- <-; reflexivity|].
  destruct (step c s l) as [[s1 es]|] eqn:Hs; [|discriminate R]. destruct (run c s1 sched) as [[s2 t2]|] eqn:R2; [|discriminate R].
  injection R as <- <-. rewrite taken_app in T. apply app_eq_nil in T. destruct T as [T1 T2]. apply never_app in K. destruct K as [K1 K2].
  pose proof (alive_back_run _ _ _ _ _ R2 Al) as Al1. pose proof (alive_back _ _ _ _ _ Hs Al1) as Al0.
  destruct (blocked_step _ _ _ _ _ _ Hs B F Al0) as (X&B1&F1).
  - clear -T1. induction es as [|e es IH]; [reflexivity|]. cbn in T1 |- *. destruct e; cbn in T1 |- *; try discriminate T1; exact (IH T1).
  - intro X. apply K1. rewrite evs_stamp. exact X.
  - rewrite bg_events_app, bg_events_stamp, X. cbn. eapply IH; eassumption.
Qed.
Lemma full_blocks c start ls tr s a d t m sched s' tr' :
  exec c start ls tr s -> Forall bytes (arrived tr) ->
  bg_events tr = a ++ [EvBgRecv d; EvSend Bg (ack_datagram (tr_chan t) (tr_seq t))] ->
  looks_like (recv_buffer d) (RTunReq t) -> run_on (cemi_from_packet (c_prof c)) (tr_cemi t) = Ok m ->
  length (queued tr) = (length (taken tr) + 100)%nat ->
  run c s sched = Some (s', tr') -> s_rx_alive s' = true -> taken tr' = [] -> never EvTick tr' ->
  bg_events tr' = [].
Proof.
  intros H Hb E L Hm Q R Al T K. pose proof (alive_back_run _ _ _ _ _ R Al) as Al0.
  destruct (acked_state _ _ _ _ _ _ _ _ _ H Hb E L Hm) as [B|(X&_)]; [|congruence].
  destruct (queue_inv _ _ _ _ _ H) as [Eq _]. rewrite Eq, app_length in Q.
  eapply blocked; try eassumption. lia.
Qed.
Lemma full_rests c s dt m :
  (forall u, s_clients s u = CIdle) -> s_bg s = BEnq m -> s_rx_alive s = true -> length (s_rxq s) = 100%nat -> s_now s + dt <= s_hb s ->
  lets_pass c s dt.
Proof.
  intros O B Al F Hh d Hd l Hl. destruct l; try destruct Hl; cbn [step].
  - unfold bg_step. sysb. rewrite B, Al, F. reflexivity.
  - unfold bg_timeout. sysb. rewrite B. reflexivity.
  - unfold bg_tick. sysb. rewrite B. destruct (N.leb_spec (s_hb s) (s_now s + d)); [exfalso; lia|reflexivity].
  - sysb. rewrite Al. unfold cl_step. sysb. rewrite (O t). reflexivity.
  - sysb. rewrite Al. unfold cl_timeout. sysb. rewrite (O t). reflexivity.
Qed.

(** ** A user who makes no calls *)
Lemma idle_run c sched : forall s s' tr,
  run c s sched = Some (s', tr) -> (forall u, s_clients s u = CIdle) -> forallb (fun l => match l with LInvoke _ _ => false | _ => true end) sched = true ->
  forall u, s_clients s' u = CIdle.
Proof.
  induction sched as [|l sched IH]; intros s s' tr R O F; cbn in R; [injection R as <- <-; exact O|].
  destruct (step c s l) as [[s1 es]|] eqn:Hs; [|discriminate R]. destruct (run c s1 sched) as [[s2 t2]|] eqn:R2; [|discriminate R].
  injection R as <- <-. cbn in F. apply andb_prop in F. destruct F as [F1 F2].
  eapply IH; [exact R2| |exact F2]. intro u. eapply idle_kept; [exact Hs|apply O|]. intros o ->. discriminate F1.
Qed.
(** 101 telegrams arrive; all are acknowledged, the queue has room for 100. *)
Definition chatter (i : N) : list N := tunnelled 7 (i mod 256) (group_ind 0x0902 [9]).
Definition flood : list label :=
  prompt_connect ++ flat_map (fun i => deliver (chatter (N.of_nat i))) (seq 0 100) ++ [LArrive (chatter 100); LBg true; LBg true].
Definition flooded : bool :=
  match run client (init_sys 0 no_listeners) flood with
  | Some (s, tr) =>
      match s_bg s with BEnq _ => true | _ => false end && s_rx_alive s && Nat.eqb (length (s_rxq s)) 100 &&
      (s_now s =? 0) && (s_hb s =? 60000) && connected_now tr && roomy tr s &&
      forallb (fun x => match snd x with EvBgEnd | EvBgPanic => false | _ => true end) tr &&
      forallb (forallb (fun b => b <? 256)) (arrived tr)
  | None => false
  end.
Lemma flooded_ok : flooded = true.
Proof. vm_compute. reflexivity. Qed.
Lemma flood_state :
  exists s tr m, run client (init_sys 0 no_listeners) flood = Some (s, tr) /\ s_bg s = BEnq m /\ s_rx_alive s = true /\ length (s_rxq s) = 100%nat /\
    s_now s = 0 /\ s_hb s = 60000 /\ connected_now tr = true /\ roomy tr s = true /\ ~ task_stopped tr /\ Forall bytes (arrived tr) /\
    (forall u, s_clients s u = CIdle).
Proof.
  pose proof flooded_ok as F. unfold flooded in F. destruct (run client (init_sys 0 no_listeners) flood) as [[s tr]|] eqn:R; [|discriminate F].
  destruct (s_bg s) as [| | | | | | | | |m| | | | |] eqn:B; try discriminate F.
  repeat (apply andb_prop in F; let G := fresh "G" in destruct F as [F G]).
  exists s, tr, m. split; [reflexivity|]. split; [exact B|]. split; [assumption|].
  split; [apply Nat.eqb_eq; assumption|]. split; [apply N.eqb_eq; assumption|]. split; [apply N.eqb_eq; assumption|].
  split; [assumption|]. split; [assumption|]. split.
  - rewrite forallb_forall in G0. intros [X|X]; unfold evs in X; apply in_map_iff in X; destruct X as ((k&e)&Y&Z); cbn in Y; subst e;
      specialize (G0 _ Z); discriminate G0.
  - split; [apply octets_dec; assumption|]. eapply idle_run; [exact R|reflexivity|reflexivity].
Qed.
Lemma late : exists tr s p,
  attended client 0 no_listeners tr s /\ Forall bytes (arrived tr) /\ tr = p ++ [(0, EvArrive (chatter 101))] /\ s_now s = 59999 /\
  connected_now p = true /\ ~ task_stopped tr.
Proof.
  destruct flood_state as (s&tr&m&R&B&Al&F&Hn&Hh&C&Rm&NS&Hb&O).
  assert (HA : attended client 0 no_listeners tr s).
  { eapply (run_attended _ _ _ [] flood); [exact R|vm_compute; reflexivity|vm_compute; reflexivity]. }
  assert (R' : roomy (tr ++ [(0, EvArrive (chatter 101))]) (set_inbox s (s_inbox s ++ [chatter 101])) = true).
  { unfold roomy in *. replace (registered (tr ++ [(0, EvArrive (chatter 101))])) with (registered tr); [exact Rm|].
    unfold registered. rewrite flat_map_app. symmetry. apply app_nil_r. }
  exists (tr ++ [(0, EvArrive (chatter 101))]), (set_now (set_inbox s (s_inbox s ++ [chatter 101])) 59999), tr.
  split; [|split; [|split; [reflexivity|split; [reflexivity|split; [exact C|]]]]].
  - assert (H1 : attended client 0 no_listeners (tr ++ [(0, EvArrive (chatter 101))]) (set_inbox s (s_inbox s ++ [chatter 101]))).
    { replace [(0, EvArrive (chatter 101))] with (stamp (s_now s) [EvArrive (chatter 101)]) by (rewrite Hn; reflexivity).
      eapply attended_step with (l := LArrive (chatter 101)); [exact HA|reflexivity|discriminate]. }
    assert (H2 : step client (set_inbox s (s_inbox s ++ [chatter 101])) (LTime 59999) =
                 Some (set_now (set_inbox s (s_inbox s ++ [chatter 101])) 59999, [])).
    { cbn [step]. sysb. rewrite Hn. reflexivity. }
    pose proof (attended_step _ _ _ _ _ _ _ _ H1 H2) as H3. cbn [stamp map] in H3. rewrite app_nil_r in H3. apply H3.
    intros dt [= <-]. split; [|exact (roomy_room _ _ R')]. apply (full_rests _ _ _ m); sysb; auto. rewrite Hn, Hh. lia.
  - rewrite arrived_app. apply Forall_app. split; [exact Hb|]. octets.
  - intros [X|X]; rewrite evs_app in X; apply in_app_iff in X; (destruct X as [X|X]; [apply NS; unfold task_stopped; auto|]);
      cbn in X; destruct X as [X|[]]; discriminate X.
Qed.
Lemma not_within_a_second :
  ~ (forall c start ls tr s p n d q t, attended c start ls tr s -> Forall bytes (arrived tr) ->
       tr = p ++ (n, EvArrive d) :: q -> n + 1000 < s_now s -> connected_now p = true -> never EvCleared q -> never EvTick q ->
       (forall u, never (EvClRecv u d) q) -> ~ task_stopped tr -> looks_like (recv_buffer d) (RTunReq t) ->
       exists ok k, k <= n + 1000 /\ In (k, send_event ok Bg (ack_datagram (tr_chan t) (tr_seq t))) q).
Proof.
  intro F. destruct late as (tr&s&p&HA&Hb&E&Hn&C&NS).
  destruct (F client 0 no_listeners tr s p 0 (chatter 101) [] {| tr_chan := 7; tr_seq := 101; tr_cemi := group_ind 0x0902 [9] |}) as (ok&k&_&[]); auto.
  all: try (intros X; exact X); try (intros u X; exact X).
  - rewrite Hn. reflexivity.
  - apply (tunnelled_looks 7 101 (group_ind 0x0902 [9])). cbn. lia.
Qed.
