(** The monitor's connection listeners. *)
From Verif Require Import Base Addresses Apdu Tunneling Emi Core Transport Wire Spec TraceSpec
  TransportBase TransportInv TransportThm3 TransportBg.
From Coq Require Import Lia ZifyBool ZifyNat ZifyN.
Open Scope N_scope.

(** ** Lists with the dead removed *)
Lemma kept_refl al xs : kept al xs xs.
Proof. induction xs; constructor; auto. Qed.
Lemma kept_trans al xs ys zs : kept al xs ys -> kept al ys zs -> kept al xs zs.
Proof.
  intro H. revert zs. induction H; intros zs K; auto.
  - inversion K; subst; [apply kept_keep|apply kept_drop]; auto.
  - apply kept_drop; auto.
Qed.
Lemma kept_app al a b c d : kept al a b -> kept al c d -> kept al (a ++ c) (b ++ d).
Proof. intros H K. induction H; cbn; auto; constructor; auto. Qed.
Lemma kept_mono (al al' : nat -> bool) xs ys :
  (forall x, al' x = true -> al x = true) -> kept al xs ys -> kept al' xs ys.
Proof.
  intros H K. induction K as [|x xs ys K IH|x xs ys D K IH]; constructor; auto.
  destruct (al' x) eqn:E; [|reflexivity]. rewrite (H _ E) in D. discriminate.
Qed.
(** Alive registrations are all kept. *)
Lemma kept_all al xs ys : kept al xs ys -> (forall x, In x xs -> al x = true) -> ys = xs.
Proof.
  intro K. induction K as [|x xs ys K IH|x xs ys D K IH]; intro H; auto.
  - f_equal. apply IH. intros y Hy. apply H. right. exact Hy.
  - rewrite (H x) in D; [discriminate|left; reflexivity].
Qed.

Definition alive (s : sys) (l : nat) : bool := li_alive (s_listeners s l).
Lemma alive_step c s l s' es : step c s l = Some (s', es) -> forall x, alive s' x = true -> alive s x = true.
Proof.
  intros Hs x. unfold alive. destruct (call_label l) as [t|] eqn:Hc.
  { destruct (call_frame _ _ _ _ _ _ Hs Hc) as (_&_&_&_&_&->&_). auto. }
  destruct l; try discriminate Hc; inv_step Hs; sys; auto; unfold upd;
    match goal with |- context [Nat.eqb x ?y] => destruct (Nat.eqb_spec x y) as [->|] end; auto; cbn; congruence.
Qed.
Lemma alive_run c s sched s' tr : run c s sched = Some (s', tr) -> forall x, alive s' x = true -> alive s x = true.
Proof.
  revert s tr. induction sched as [|l sched IH]; intros s tr R x Hx; cbn in R.
  - injection R as <- _. exact Hx.
  - destruct (step c s l) as [[s1 es]|] eqn:E; [|discriminate].
    destruct (run c s1 sched) as [[s2 tr2]|] eqn:E2; [|discriminate]. injection R as <- <-.
    eapply alive_step; [exact E|]. eapply IH; eassumption.
Qed.

(** ** What is registered *)
Lemma registered_app a b : registered (a ++ b) = registered a ++ registered b.
Proof. apply flat_map_app. Qed.
Lemma registered_bg n es : forallb bg_event es = true -> registered (stamp n es) = [].
Proof.
  induction es as [|e es IH]; [reflexivity|]. cbn [forallb]. intro H. apply andb_prop in H. destruct H as [H1 H2].
  change (registered (stamp n (e :: es))) with
    (match e with EvRet _ (OAddListener l) RUnit => [l] | _ => [] end ++ registered (stamp n es)).
  rewrite (IH H2), app_nil_r. destruct e; try reflexivity. discriminate H1.
Qed.
Lemma step_registered c s l s' es t :
  step c s l = Some (s', es) -> call_label l = Some t -> s_onconn s' = s_onconn s ++ registered (stamp (s_now s) es).
Proof.
  intros Hs Hl. destruct l; try discriminate Hl; injection Hl as ->; inv_step Hs; sys; cbn;
    try match goal with |- context [match ?o with ORead _ => [] | _ => _ end] => destruct o end; rewrite ?app_nil_r; reflexivity.
Qed.

(** While notifying, the listeners done with are either alive and in [active]
    or dead. *)
Definition roll (s : sys) (tr : trace) : Prop :=
  kept (alive s) (registered tr) (s_onconn s) /\
  match s_bg s with
  | BNotify todo active => exists done, s_onconn s = done ++ todo /\ kept (alive s) done active
  | _ => True
  end.
Lemma locked_registered c s l s' es t todo active :
  step c s l = Some (s', es) -> call_label l = Some t -> s_bg s = BNotify todo active -> registered (stamp (s_now s) es) = [].
Proof.
  intros Hs Hl Hb. destruct l; try discriminate Hl; injection Hl as ->; inv_step Hs; cbn;
    try match goal with |- context [match ?o with ORead _ => [] | _ => _ end] => destruct o end; try reflexivity.
  all: unfold cd_locked in *; rewrite Hb in *; discriminate.
Qed.
Lemma roll_inv c start ls tr s : exec c start ls tr s -> roll s tr.
Proof.
  intro H. pattern tr, s. revert tr s H. apply exec_inv.
  - split; [constructor|exact I].
  - intros tr s l s' es H (I1&I2) Hs.
    pose proof (alive_step _ _ _ _ _ Hs) as Ha. unfold roll. rewrite registered_app.
    destruct (bg_label l) eqn:Hl.
    + destruct (bg_frame _ _ _ _ _ Hs Hl) as (_&_&_&_&F). rewrite (registered_bg _ _ F), app_nil_r.
      assert (K1 : s_onconn s' = s_onconn s \/ exists active, s_bg s = BNotify [] active /\ s_onconn s' = active /\ s_bg s' = BRecv).
      { destruct l; try discriminate Hl; inv_step Hs; sys; auto. right. eexists. eauto. }
      destruct K1 as [K1|(active&K1&K2&K3)].
      * rewrite K1. split; [eapply kept_mono; eassumption|].
        destruct l as [| |ok| | | | | | | | | | | |]; try discriminate Hl.
        2-4: inv_step Hs; sys; exact I.
        cbn [step] in Hs. revert Hs K1 Ha I2. unfold bg_step. destruct (s_bg s) eqn:Hb; intros Hs.
        all: try (break Hs; injection Hs as <- <-; sys; intros; try (exact I); try match goal with |- match (if ?b then _ else _) with _ => _ end => destruct b end;
                  try exact I; fail); try discriminate Hs.
        -- injection Hs as <- <-. sys. intros. destruct (c_mode c); [exact I|]. exists []. split; [reflexivity|constructor].
        -- destruct todo as [|x todo].
           ++ injection Hs as <- <-. sys. intros. exact I.
           ++ destruct (li_alive (s_listeners s x)) eqn:E.
              ** destruct (Nat.ltb (li_count (s_listeners s x)) (li_cap (s_listeners s x))); [|discriminate].
                 injection Hs as <- <-. sys. intros _ Ha (done&E1&E2). exists (done ++ [x]). rewrite <- app_assoc. split; [exact E1|].
                 apply kept_app; [eapply kept_mono; eassumption|apply kept_refl].
              ** injection Hs as <- <-. sys. intros _ Ha (done&E1&E2). exists (done ++ [x]). rewrite <- app_assoc. split; [exact E1|].
                 rewrite <- (app_nil_r active). apply kept_app; [eapply kept_mono; eassumption|].
                 apply kept_drop; [|constructor]. unfold alive. sys. exact E.
        -- destruct (s_inbox s) as [|d rest]; [discriminate|]. injection Hs as <- <-. sys. intros.
           destruct (dispatch d) eqn:Ed; try exact I. pose proof (dispatch_not_notify d) as X. rewrite Ed in X. discriminate X.
        -- injection Hs as <- <-. sys. intros. destruct ok; [|exact I].
           destruct (after_ack (c_prof c) k) eqn:Ed; try exact I. pose proof (after_ack_not_notify (c_prof c) k) as X. rewrite Ed in X. discriminate X.
      * rewrite K3. split; [|exact I]. rewrite K1 in I2. destruct I2 as (done&E1&E2). rewrite app_nil_r in E1. rewrite K2.
        eapply kept_mono; [exact Ha|]. eapply kept_trans; [exact I1|]. rewrite E1. exact E2.
    + destruct (call_label l) as [t|] eqn:Hc.
      * destruct (call_frame _ _ _ _ _ _ Hs Hc) as (_&_&_&B&_&E&_). rewrite (step_registered _ _ _ _ _ _ Hs Hc), B.
        assert (A : forall xs ys, kept (alive s) xs ys -> kept (alive s') xs ys) by (intros; eapply kept_mono; eassumption).
        split; [apply kept_app; [auto|apply kept_refl]|].
        destruct (s_bg s) eqn:Hb; try exact I. rewrite (locked_registered _ _ _ _ _ _ _ _ Hs Hc Hb), app_nil_r.
        destruct I2 as (done&E1&E2). exists done. auto.
      * destruct (env_frame _ _ _ _ _ Hs Hl Hc) as (_&_&->&_&_&_&->&_&D).
        assert (R : registered (stamp (s_now s) es) = []) by (destruct D as [(d&->&_)|(->&_)]; reflexivity).
        rewrite R, app_nil_r. split; [eapply kept_mono; eassumption|].
        destruct (s_bg s); try exact I. destruct I2 as (done&E1&E2). exists done. split; [exact E1|eapply kept_mono; eassumption].
Qed.

(** ** Notification after a connection *)
(** [regs] are the registrations at the time of the connection, [b] the
    background events since. *)
Definition told (s : sys) (regs : list nat) (b : list event) : Prop :=
  exists ns rest todo, b = map EvNotify ns ++ rest /\ kept (alive s) regs (ns ++ todo) /\
    (rest <> [] -> todo = []) /\
    (forall r1 x r2, rest = r1 ++ EvNotify x :: r2 -> exists cd, In (EvConnected cd) r1) /\
    match s_bg s with
    | BNotify t _ => (rest = [] /\ t = todo) \/ exists cd, In (EvConnected cd) rest
    | _ => todo = []
    end.
Lemma told_frame s s' regs b :
  (forall x, alive s' x = true -> alive s x = true) -> s_bg s' = s_bg s -> told s regs b -> told s' regs b.
Proof.
  intros Ha Hb (ns&rest&todo&H1&H2&H3&H4&H5). exists ns, rest, todo. rewrite Hb. repeat split; auto.
  eapply kept_mono; eassumption.
Qed.
Lemma told_bg c s l s' es regs b :
  step c s l = Some (s', es) -> bg_label l = true -> told s regs b -> told s' regs (b ++ es).
Proof.
  intros Hs Hl (ns&rest&todo&->&H2&H3&H4&H5). pose proof (alive_step _ _ _ _ _ Hs) as Ha.
  destruct (s_bg s) as [| | | | | |tn active| | | | | | | |] eqn:Hb.
  7:{ destruct l as [| |ok| | | | | | | | | | | |]; try discriminate Hl; cbn [step] in Hs;
        unfold bg_step, bg_recv_err, bg_timeout, bg_tick in Hs; rewrite Hb in Hs; try discriminate Hs.
      destruct tn as [|x tn]; [|destruct (li_alive (s_listeners s x)) eqn:E; [destruct (Nat.ltb _ _); [|discriminate Hs]|]];
        injection Hs as <- <-; rewrite ?app_nil_r.
      - exists ns, rest, todo. split; [reflexivity|]. split; [exact H2|]. split; [exact H3|]. split; [exact H4|].
        sys. destruct H5 as [(_&<-)|(cd&Hi)]; [reflexivity|]. apply H3. intros ->. exact Hi.
      - destruct H5 as [(->&<-)|(cd&Hi)].
        + exists (ns ++ [x]), [], tn. rewrite map_app, !app_nil_r, <- app_assoc. split; [reflexivity|].
          split; [eapply kept_mono; eassumption|]. split; [congruence|]. split; [intros [|] ? ? X; discriminate X|].
          sys. left. auto.
        + exists ns, (rest ++ [EvNotify x]), todo. rewrite <- app_assoc. split; [reflexivity|].
          split; [eapply kept_mono; eassumption|]. split; [intros _; apply H3; intros ->; exact Hi|]. split.
          * intros r1 y r2 X. apply app_split in X. destruct X as [(q'&X&->)|(p'&->&X)]; [eapply H4; exact X|].
            exists cd. apply in_or_app. left. exact Hi.
          * sys. right. exists cd. apply in_or_app. left. exact Hi.
      - destruct H5 as [(->&<-)|(cd&Hi)].
        + exists ns, [], tn. rewrite !app_nil_r. split; [reflexivity|].
          split. { eapply kept_trans; [eapply kept_mono; eassumption|]. apply kept_app; [apply kept_refl|].
            apply kept_drop; [|apply kept_refl]. unfold alive. sys. exact E. }
          split; [congruence|]. split; [intros [|] ? ? X; discriminate X|]. sys. left. auto.
        + exists ns, rest, todo. repeat split; auto. sys. right. eauto. }
  all: subst todo; exists ns, (rest ++ es), []; rewrite <- app_assoc; split; [reflexivity|];
    (split; [eapply kept_mono; eassumption|]); (split; [auto|]).
  all: assert (NN : forall x, ~ In (EvNotify x) es) by
    (intros x Hi; destruct l; try discriminate Hl; inv_step Hs; cbn in Hi;
      repeat match goal with G : _ \/ _ |- _ => destruct G as [G|G]; try discriminate G end; try contradiction;
      try match goal with G : In _ (stop_events ?b) |- _ => destruct b; cbn in G; intuition discriminate end; congruence).
  all: assert (N1 : forall r1 x r2, rest ++ es = r1 ++ EvNotify x :: r2 -> exists cd, In (EvConnected cd) r1) by
    (intros r1 y r2 X; apply app_split in X; destruct X as [(q'&X&->)|(p'&->&X)]; [eapply H4; exact X|];
     exfalso; eapply NN; rewrite X; apply in_or_app; right; left; reflexivity).
  all: split; [exact N1|].
  all: assert (N2 : match s_bg s' with BNotify _ _ => exists cd, In (EvConnected cd) es | _ => True end) by
    (destruct l; try discriminate Hl; inv_step Hs; sys; try exact I; try congruence;
     repeat match goal with |- match (if ?b then _ else _) with _ => _ end => destruct b; try exact I end;
     try (match goal with |- context [dispatch ?d] => pose proof (dispatch_not_notify d) as X; destruct (dispatch d); try exact I; discriminate X end);
     try (match goal with |- context [after_ack ?d ?k] => pose proof (after_ack_not_notify d k) as X; destruct (after_ack d k); try exact I; discriminate X end);
     try (match goal with |- context [match c_mode ?x with _ => _ end] => destruct (c_mode x); try exact I end);
     try (match goal with |- context [match accept_connection ?d with _ => _ end] => destruct (accept_connection d); try exact I end);
     try (match goal with |- context [match s_conn ?x with _ => _ end] => destruct (s_conn x); try exact I end);
     cbn; eauto).
  all: destruct (s_bg s'); try reflexivity; destruct N2 as (cd&Hi); right; exists cd; apply in_or_app; right; exact Hi.
Qed.
Lemma told_run c s sched s' tr regs b :
  run c s sched = Some (s', tr) -> told s regs b -> told s' regs (b ++ bg_events tr).
Proof.
  revert s tr b. induction sched as [|l sched IH]; intros s tr b R T; cbn in R.
  - injection R as <- <-. cbn. rewrite app_nil_r. exact T.
  - destruct (step c s l) as [[s1 es]|] eqn:E; [|discriminate].
    destruct (run c s1 sched) as [[s2 tr2]|] eqn:E2; [|discriminate]. injection R as <- <-.
    rewrite bg_events_app, bg_events_stamp, app_assoc. eapply IH; [exact E2|].
    destruct (bg_label l) eqn:Hl.
    + rewrite (step_bg_events_all _ _ _ _ _ E Hl). eapply told_bg; eassumption.
    + rewrite (step_bg_events _ _ _ _ _ E Hl), app_nil_r.
      eapply told_frame; [eapply alive_step; exact E| |exact T].
      destruct (call_label l) as [u|] eqn:Hc.
      * apply (call_frame _ _ _ _ _ _ E Hc).
      * destruct (env_frame _ _ _ _ _ E Hl Hc) as (_&_&->&_). reflexivity.
Qed.
Lemma step_connected c s l s' e1 cd e2 :
  step c s l = Some (s', e1 ++ EvConnected cd :: e2) ->
  e1 = [] /\ e2 = [] /\ s_bg s' = match c_mode c with MClient => BRecv | MMonitor => BNotify (s_onconn s) [] end.
Proof.
  intro Hs. remember (e1 ++ EvConnected cd :: e2) as es eqn:Ees.
  assert (Hin : In (EvConnected cd) es) by (rewrite Ees; apply in_or_app; right; left; reflexivity).
  destruct (bg_label l) eqn:Hl.
  2:{ pose proof (step_bg_events _ _ _ _ _ Hs Hl) as F. exfalso.
      assert (In (EvConnected cd) (filter bg_event es)) by (apply filter_In; auto). rewrite F in *. contradiction. }
  destruct l; try discriminate Hl; inv_step Hs; cbn in Hin; try contradiction;
    repeat match goal with G : _ \/ _ |- _ => destruct G as [G|G]; try discriminate G end; try contradiction;
    try (match goal with G : In _ (stop_events ?b) |- _ => destruct b; cbn in G; intuition discriminate end).
  all: destruct e1 as [|x [|]]; cbn in Ees; try discriminate Ees; injection Ees; intros; subst; sys; repeat match goal with G : c_mode _ = _ |- _ => rewrite G end; auto.
Qed.
Lemma notified c start ls tr s p n cd q :
  exec c start ls tr s -> c_mode c = MMonitor -> tr = p ++ (n, EvConnected cd) :: q ->
  told s (registered p) (bg_events q).
Proof.
  intros H Hm E. destruct (exec_split _ _ _ _ _ _ _ _ _ H E) as (tr0&s0&l&s1&e1&e2&H0&Hs&->&->&H1&q'&->&sched&R).
  destruct (step_connected _ _ _ _ _ _ _ Hs) as (->&->&Hb). rewrite Hm in Hb. cbn [stamp map] in *. rewrite app_nil_r. cbn [app].
  apply (told_run _ _ _ _ _ _ [] R). exists [], [], (s_onconn s0). cbn. split; [reflexivity|].
  destruct (roll_inv _ _ _ _ _ H0) as (K&_). split; [eapply kept_mono; [eapply alive_step; exact Hs|exact K]|].
  split; [congruence|]. split; [intros [|] ? ? X; discriminate X|]. rewrite Hb. left. auto.
Qed.
(** The notification ends as soon as the listeners have room. *)
Definition roomy (s : sys) (k : nat) (l : nat) : Prop :=
  alive s l = true -> (li_count (s_listeners s l) + k <= li_cap (s_listeners s l))%nat.
Lemma notify_completes c s todo active :
  s_bg s = BNotify todo active -> Forall (roomy s (length todo)) todo ->
  exists s' tr, run c s (repeat (LBg true) (S (length todo))) = Some (s', tr) /\ s_bg s' = BRecv /\
    bg_events tr = map EvNotify (filter (alive s) todo) /\ s_onconn s' = active ++ filter (alive s) todo.
Proof.
  revert s active. induction todo as [|x todo IH]; intros s active Hb Hr.
  - eexists _, _. split; [cbn; unfold bg_step; rewrite Hb; reflexivity|]. sys. cbn [filter]. repeat split. symmetry. apply app_nil_r.
  - inversion Hr as [|? ? R1 R2]; subst. change (repeat (LBg true) (S (length (x :: todo)))) with (LBg true :: repeat (LBg true) (S (length todo))).
    cbn [filter]. destruct (alive s x) eqn:E.
    + set (s1 := set_bg (set_listener s x {| li_cap := li_cap (s_listeners s x); li_count := S (li_count (s_listeners s x)); li_alive := true |})
                       (BNotify todo (active ++ [x]))).
      assert (Al : forall y, alive s1 y = alive s y).
      { intro y. unfold alive, s1. sys. unfold upd. destruct (Nat.eqb_spec y x) as [->|]; [|reflexivity]. cbn. symmetry. exact E. }
      destruct (IH s1 (active ++ [x]) eq_refl) as (s'&tr&R&B&T&O).
      { rewrite Forall_forall in *. intros y Hy Ay. rewrite Al in Ay. specialize (R2 y Hy Ay). cbn [length] in R2.
        unfold s1. sys. unfold upd. destruct (Nat.eqb_spec y x) as [->|]; cbn; lia. }
      assert (S1 : step c s (LBg true) = Some (s1, [EvNotify x])).
      { cbn [step]. unfold bg_step. rewrite Hb. unfold alive in E. rewrite E. specialize (R1 E). cbn [length] in R1.
        destruct (Nat.ltb_spec (li_count (s_listeners s x)) (li_cap (s_listeners s x))); [reflexivity|lia]. }
      exists s', (stamp (s_now s) [EvNotify x] ++ tr). split; [|split; [exact B|split]].
      * set (sch := repeat _ _) in *. cbn [run]. rewrite S1, R. reflexivity.
      * rewrite bg_events_app, T. cbn. f_equal. f_equal. apply filter_ext. exact Al.
      * rewrite O, <- app_assoc. cbn [app]. do 2 f_equal. apply filter_ext. exact Al.
    + set (s1 := set_bg s (BNotify todo active)).
      destruct (IH s1 active eq_refl) as (s'&tr&R&B&T&O).
      { rewrite Forall_forall in *. intros y Hy Ay. specialize (R2 y Hy Ay). cbn [length] in R2. unfold s1. sys. lia. }
      assert (S1 : step c s (LBg true) = Some (s1, [])).
      { cbn [step]. unfold bg_step. rewrite Hb. unfold alive in E. rewrite E. reflexivity. }
      exists s', tr. split; [|split; [exact B|split; [exact T|exact O]]].
      set (sch := repeat _ _) in *. cbn [run]. rewrite S1, R. reflexivity.
Qed.

(** ** A listener that is not drained *)
Definition stuck_on (s : sys) (x : nat) : Prop :=
  (exists todo active, s_bg s = BNotify (x :: todo) active) /\ alive s x = true /\
  (li_cap (s_listeners s x) <= li_count (s_listeners s x))%nat.
Lemma stuck_step c s l s' es x :
  step c s l = Some (s', es) -> leaves_alone x l = true -> stuck_on s x ->
  stuck_on s' x /\ s_bg s' = s_bg s /\ filter bg_event es = [] /\ forallb (fun e => negb (needs_connection e)) es = true.
Proof.
  intros Hs Ha ((todo&active&Hb)&H2&H3). destruct (bg_label l) eqn:Hl.
  - exfalso. destruct l; try discriminate Hl; cbn [step] in Hs; unfold bg_step, bg_recv_err, bg_timeout, bg_tick in Hs; rewrite Hb in Hs; try discriminate Hs.
    unfold alive in H2. rewrite H2 in Hs. destruct (Nat.ltb_spec (li_count (s_listeners s x)) (li_cap (s_listeners s x))); [lia|discriminate Hs].
  - rewrite (step_bg_events _ _ _ _ _ Hs Hl). destruct (call_label l) as [t|] eqn:Hc.
    + destruct (call_frame _ _ _ _ _ _ Hs Hc) as (_&_&_&B&_&L&_&F). unfold stuck_on, alive. rewrite B, L.
      split; [eauto|]. split; [reflexivity|]. split; [reflexivity|].
      destruct l; try discriminate Hc; injection Hc as ->; inv_step Hs; cbn;
        try match goal with |- context [match ?o with ORead _ => _ | _ => _ end] => destruct o end; try reflexivity;
        unfold cd_locked, bg_gone in *; rewrite Hb in *; discriminate.
    + destruct (env_frame _ _ _ _ _ Hs Hl Hc) as (_&_&B&_&_&_&_&_&D). rewrite B.
      assert (forallb (fun e => negb (needs_connection e)) es = true) as -> by (destruct D as [(d&->&_)|(->&_)]; reflexivity).
      split; [|auto]. split; [rewrite B; eauto|]. unfold alive in *.
      destruct l; try discriminate Hl; try discriminate Hc; inv_step Hs; sys; auto; unfold upd;
        match goal with |- context [Nat.eqb x ?y] => destruct (Nat.eqb_spec x y) as [->|] end; auto;
        cbn [leaves_alone] in Ha; rewrite Nat.eqb_refl in Ha; discriminate Ha.
Qed.
Lemma stuck_run c s sched s' tr x :
  run c s sched = Some (s', tr) -> forallb (leaves_alone x) sched = true -> stuck_on s x ->
  stuck_on s' x /\ s_bg s' = s_bg s /\ bg_events tr = [] /\ forallb (fun e => negb (needs_connection e)) (evs tr) = true.
Proof.
  revert s tr. induction sched as [|l sched IH]; intros s tr R U St; cbn in R, U.
  - injection R as <- <-. auto.
  - apply andb_prop in U. destruct U as [U Us].
    destruct (step c s l) as [[s1 es]|] eqn:E; [|discriminate].
    destruct (run c s1 sched) as [[s2 tr2]|] eqn:E2; [|discriminate]. injection R as <- <-.
    destruct (stuck_step _ _ _ _ _ _ E U St) as (S1&B1&F1&N1). destruct (IH _ _ E2 Us S1) as (S2&B2&F2&N2).
    rewrite bg_events_app, bg_events_stamp, F1, F2, evs_app, evs_stamp, forallb_app, N1, N2, B2, B1. auto.
Qed.
