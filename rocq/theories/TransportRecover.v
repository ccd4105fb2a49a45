(** Recovery: whatever happened, a task that has not stopped can be connected again. *)
From Verif Require Import Base Addresses Apdu Tunneling Emi Core Transport Wire Spec TraceSpec TraceSpec2 BaseProofs
  TransportBase TransportInv TransportConn TransportCalls TransportReturn TransportThm2 TransportBg TransportNotify.
From Coq Require Import Lia ZifyBool ZifyNat ZifyN.
Open Scope N_scope.

(** ** Connected or not *)
Lemma connected_app a b : connected_now (a ++ b) =
  fold_left (fun b x => match snd x with EvConnected _ => true | EvCleared => false | _ => b end) b (connected_now a).
Proof. apply fold_left_app. Qed.
Definition plain (e : event) : bool := match e with EvConnected _ | EvCleared => false | _ => true end.
Lemma connected_plain a b : forallb plain (evs b) = true -> connected_now (a ++ b) = connected_now a.
Proof.
  rewrite connected_app. generalize (connected_now a). induction b as [|[n e] b IH]; intros v H; [reflexivity|].
  cbn in H. apply andb_prop in H. destruct H as [H1 H2]. cbn [fold_left snd]. rewrite IH by exact H2. destruct e; try reflexivity; discriminate H1.
Qed.
Definition is_some {A} (o : option A) : bool := match o with Some _ => true | None => false end.
Lemma stop_plain b : forallb plain (stop_events b) = true. Proof. destruct b; reflexivity. Qed.
Lemma connected_inv c start ls tr s : exec c start ls tr s -> connected_now tr = is_some (s_conn s).
Proof.
  intro H. pattern tr, s. revert tr s H. apply exec_inv; [reflexivity|].
  intros tr s l s' es H IH Hs.
  assert (P : forallb plain es = true -> is_some (s_conn s') = is_some (s_conn s) ->
              connected_now (tr ++ stamp (s_now s) es) = is_some (s_conn s')).
  { intros P E. rewrite connected_plain by (rewrite evs_stamp; exact P). congruence. }
  destruct (bg_label l) eqn:Hb.
  - destruct l; try discriminate Hb; inv_step Hs; sys;
      try (apply P; [try reflexivity; cbn [forallb plain]; try apply stop_plain; destruct (_ : bool); reflexivity | sys; reflexivity]).
    all: try (rewrite connected_app; reflexivity).
    all: try (apply P; [cbn; rewrite ?stop_plain; reflexivity|sys; try reflexivity; congruence]).
  - destruct (call_label l) as [u|] eqn:Hc.
    + apply P.
      * destruct (call_frame _ _ _ _ _ _ Hs Hc) as (_&_&_&_&_&_&_&E). eapply forallb_imp, E. intro e.
        destruct e as [| | | |[] ?|[] ?| | | | | | | | | | | | | |]; cbn; congruence.
      * destruct (call_conn _ _ _ _ _ _ Hs Hc) as [(->&_)|(cd&->&->&_)]; reflexivity.
    + destruct (env_frame _ _ _ _ _ Hs Hb Hc) as (E&_). apply P; [|rewrite E; reflexivity]. clear E. destruct l; try discriminate Hb; try discriminate Hc; inv_step Hs; reflexivity.
Qed.
Lemma isconn_result c start ls tr s p n t r q :
  exec c start ls tr s -> tr = p ++ (n, EvRet t OIsConnected r) :: q -> r = RBool (connected_now p).
Proof.
  intros H E. destruct (ret_hist _ _ _ _ _ _ _ _ _ _ _ H E) as (h&cur&tr0&s0&e1&E1&Hc&Hh&Hr&H0&Ep&En).
  assert (X : ret_shape c s0 t OIsConnected r e1) by exact Hr.
  inversion Hr; subst; cbn [hist] in Hh;
    match goal with G : s_clients s0 t = _ |- _ => rewrite G in Hh; cbn [hist] in Hh end;
    try (destruct Hh as (Hh&_); discriminate Hh); try (destruct Hh as [(Hh&_)|(Hh&_)]; discriminate Hh);
    try contradiction; try discriminate.
  all: try (cbn [stamp map]; rewrite app_nil_r, (connected_inv _ _ _ _ _ H0); destruct (s_conn s0); reflexivity).
  all: try (destruct Hh as ([Hh|Hh]&_); discriminate Hh).
Qed.

(** ** Reaching the receive loop *)
Definition reaches (c : cfg) (g : list N) (s : sys) : Prop :=
  exists sched s' tr', forallb (helpful g) sched = true /\ run c s sched = Some (s', tr') /\ s_bg s' = BRecv.
Lemma reaches_here c g s : s_bg s = BRecv -> reaches c g s.
Proof. intro H. exists [], s, []. auto. Qed.
Lemma reaches_step c g s l s' es : step c s l = Some (s', es) -> helpful g l = true -> reaches c g s' -> reaches c g s.
Proof.
  intros Hs Hl (sched&s2&tr&F&R&B). exists (l :: sched), s2, (stamp (s_now s) es ++ tr). cbn. rewrite Hl, Hs, R. auto.
Qed.
Lemma reaches_notify c g todo : forall s active, s_bg s = BNotify todo active -> reaches c g s.
Proof.
  induction todo as [|x todo IH]; intros s active Hb.
  - eapply reaches_step with (l := LBg true); [cbn [step]; unfold bg_step; rewrite Hb; reflexivity|reflexivity|].
    apply reaches_here. reflexivity.
  - eapply reaches_step with (l := LListenerDrop x); [reflexivity|reflexivity|].
    eapply reaches_step with (l := LBg true); [|reflexivity|].
    + cbn [step]. unfold bg_step. sysb. rewrite Hb. sysb. rewrite upd_same. cbn [li_alive]. reflexivity.
    + eapply IH. sysb. reflexivity.
Qed.
Lemma reaches_store c g s r : s_bg s = BStore r -> reaches c g s.
Proof.
  intro Hb. eapply reaches_step with (l := LBg true); [cbn [step]; unfold bg_step; rewrite Hb; reflexivity|reflexivity|].
  destruct (c_mode c).
  - apply reaches_here. reflexivity.
  - eapply reaches_notify. reflexivity.
Qed.
Lemma reaches_accepted c g s r : s_bg s = match c_mode c with MClient => BStore r | MMonitor => BMonEnable r end -> reaches c g s.
Proof.
  intro Hb. destruct (c_mode c) eqn:Hm; [eapply reaches_store, Hb|].
  eapply reaches_step with (l := LBg true); [cbn [step]; unfold bg_step; rewrite Hb; reflexivity|reflexivity|].
  eapply reaches_store. reflexivity.
Qed.
Lemma reaches_sleep_send c g s dl :
  (forall s', s_bg s' = BConnSend -> s_inbox s' = s_inbox s -> reaches c g s') -> s_bg s = BConnSleep dl -> reaches c g s.
Proof.
  intros K Hb. eapply reaches_step with (l := LTime dl); [reflexivity|reflexivity|].
  eapply reaches_step with (l := LBg true); [|reflexivity|].
  - cbn [step]. unfold bg_step. sysb. rewrite Hb. replace (dl <=? s_now s + dl) with true by (symmetry; apply N.leb_le; lia). reflexivity.
  - apply K; reflexivity.
Qed.
Lemma reaches_send c g ch ep : bytes g -> grants g ch ep -> forall k s, length (s_inbox s) = k -> s_bg s = BConnSend -> reaches c g s.
Proof.
  intros Bg Hg. destruct (grants_accept _ _ _ Bg Hg) as (r0&Er0&_).
  induction k as [|k IH]; intros s L Hb.
  - destruct (s_inbox s) eqn:Ei; [|discriminate L].
    eapply reaches_step with (l := LBg true); [cbn [step]; unfold bg_step; rewrite Hb; reflexivity|reflexivity|].
    eapply reaches_step with (l := LArrive g); [reflexivity|cbn; destruct (list_eq_dec N.eq_dec g g); congruence|].
    eapply reaches_step with (l := LBg true); [|reflexivity|].
    + cbn [step]. unfold bg_step. sysb. rewrite Ei. cbn [app]. rewrite Er0. reflexivity.
    + eapply reaches_accepted. sysb. reflexivity.
  - destruct (s_inbox s) as [|d rest] eqn:Ei; [discriminate L|]. injection L as L.
    eapply reaches_step with (l := LBg true); [cbn [step]; unfold bg_step; rewrite Hb; reflexivity|reflexivity|].
    eapply reaches_step with (l := LBg true); [|reflexivity|].
    + cbn [step]. unfold bg_step. sysb. rewrite Ei. reflexivity.
    + destruct (accept_connection d) as [r|].
      * eapply reaches_accepted. sysb. reflexivity.
      * eapply reaches_sleep_send; [|sysb; reflexivity]. intros s' B' I'. apply IH; [|exact B']. rewrite I'. sysb. exact L.
Qed.
Lemma reaches_wait c g ch ep s dl : bytes g -> grants g ch ep -> s_bg s = BConnWait dl -> reaches c g s.
Proof.
  intros Bg Hg Hb. destruct (grants_accept _ _ _ Bg Hg) as (r0&Er0&_).
  destruct (s_inbox s) as [|d rest] eqn:Ei.
  - eapply reaches_step with (l := LArrive g); [reflexivity|cbn; destruct (list_eq_dec N.eq_dec g g); congruence|].
    eapply reaches_step with (l := LBg true); [|reflexivity|].
    + cbn [step]. unfold bg_step. sysb. rewrite Hb, Ei. cbn [app]. rewrite Er0. reflexivity.
    + eapply reaches_accepted. sysb. reflexivity.
  - eapply reaches_step with (l := LBg true); [|reflexivity|].
    + cbn [step]. unfold bg_step. sysb. rewrite Hb, Ei. reflexivity.
    + destruct (accept_connection d) as [r|].
      * eapply reaches_accepted. sysb. reflexivity.
      * eapply reaches_sleep_send; [|sysb; reflexivity]. intros s' B' I'. eapply reaches_send; eauto.
Qed.
Lemma reaches_beat c g ch ep s : bytes g -> grants g ch ep -> s_bg s = BBeat -> reaches c g s.
Proof.
  intros Bg Hg Hb. destruct (s_conn s) as [cd|] eqn:Ec.
  - eapply reaches_step with (l := LBg true); [cbn [step]; unfold bg_step; rewrite Hb, Ec; reflexivity|reflexivity|].
    apply reaches_here. reflexivity.
  - eapply reaches_step with (l := LBg true); [cbn [step]; unfold bg_step; rewrite Hb, Ec; reflexivity|reflexivity|].
    eapply reaches_step with (l := LBg true); [cbn [step]; unfold bg_step; sysb; reflexivity|reflexivity|].
    eapply reaches_step with (l := LBg true); [cbn [step]; unfold bg_step; sysb; reflexivity|reflexivity|].
    eapply reaches_send; eauto.
Qed.
Lemma reaches_tick c g ch ep s : bytes g -> grants g ch ep ->
  match s_bg s with BAck _ _ _ | BEnq _ | BDiscSend _ => True | _ => False end -> reaches c g s.
Proof.
  intros Bg Hg Hb. eapply reaches_step with (l := LTime (s_hb s)); [reflexivity|reflexivity|].
  assert (L : (s_hb s <=? s_now s + s_hb s) = true) by (apply N.leb_le; lia).
  destruct (s_bg s) eqn:E; try contradiction;
    (eapply reaches_step with (l := LTick); [cbn [step]; unfold bg_tick; sysb; rewrite E, L; reflexivity|reflexivity|]);
    eapply reaches_beat; eauto.
Qed.
Lemma recovers c g ch ep s : bytes g -> grants g ch ep -> bg_gone s = false -> reaches c g s.
Proof.
  intros Bg Hg Hn. unfold bg_gone in Hn. destruct (s_bg s) eqn:Hb; try discriminate Hn.
  - (* BCheck *) destruct (s_conn s) eqn:Ec.
    + eapply reaches_step with (l := LBg true); [cbn [step]; unfold bg_step; rewrite Hb, Ec; reflexivity|reflexivity|]. apply reaches_here. reflexivity.
    + eapply reaches_step with (l := LBg true); [cbn [step]; unfold bg_step; rewrite Hb, Ec; reflexivity|reflexivity|]. eapply reaches_send; eauto.
  - eapply reaches_send; eauto.
  - eapply reaches_wait; eauto.
  - eapply reaches_sleep_send; [|exact Hb]. intros s' B' I'. eapply reaches_send; eauto.
  - eapply reaches_step with (l := LBg true); [cbn [step]; unfold bg_step; rewrite Hb; reflexivity|reflexivity|]. eapply reaches_store. reflexivity.
  - eapply reaches_store, Hb.
  - eapply reaches_notify, Hb.
  - apply reaches_here, Hb.
  - eapply reaches_tick; eauto. rewrite Hb. exact I.
  - eapply reaches_tick; eauto. rewrite Hb. exact I.
  - eapply reaches_tick; eauto. rewrite Hb. exact I.
  - eapply reaches_beat; eauto.
  - eapply reaches_step with (l := LBg true); [cbn [step]; unfold bg_step; rewrite Hb; reflexivity|reflexivity|].
    eapply reaches_step with (l := LBg true); [cbn [step]; unfold bg_step; sysb; reflexivity|reflexivity|]. eapply reaches_send; eauto.
Qed.
Lemma recovery c start ls tr s g ch ep :
  exec c start ls tr s -> ~ task_stopped tr -> bytes g -> grants g ch ep ->
  exists sched s' tr', forallb (helpful g) sched = true /\ run c s sched = Some (s', tr') /\ s_bg s' = BRecv /\
    connected_now (tr ++ tr') = true.
Proof.
  intros H Hn Bg Hg. assert (G : bg_gone s = false).
  { destruct (bg_gone s) eqn:E; [|reflexivity]. exfalso. apply Hn. eapply bg_gone_events; eauto. }
  destruct (recovers c g ch ep s Bg Hg G) as (sched&s'&tr'&F&R&B). exists sched, s', tr'. repeat split; auto.
  pose proof (exec_app _ _ _ _ _ _ _ _ H R) as H'. rewrite (connected_inv _ _ _ _ _ H').
  destruct (s_conn s') eqn:E; [reflexivity|]. apply (conn_inv _ _ _ _ _ H') in E. rewrite B in E. discriminate E.
Qed.
