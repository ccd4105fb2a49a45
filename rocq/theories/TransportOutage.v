(** In prompt executions an outage ends in the instant of the gateway's answer. *)
From Verif Require Import Base Addresses Apdu Tunneling Emi Core Transport Wire Spec TraceSpec TraceSpec2 LiveSpec PromptSpec AnswerSpec
  TransportBase TransportInv TransportConn TransportReads TransportRecover TransportFair TransportPrompt TransportPrompt2 TransportAnswer.
From Coq Require Import Lia ZifyBool ZifyNat ZifyN.
Open Scope N_scope.

Lemma steady_prompt c start ls tr s : steady c start ls tr s -> prompt c start ls tr s.
Proof. induction 1; econstructor; eassumption. Qed.
Lemma call_inbox c s l s' es t : step c s l = Some (s', es) -> call_label l = Some t ->
  s_inbox s' = s_inbox s \/ exists d q, s_inbox s = d :: q /\ In (EvClRecv t d) es.
Proof.
  intros Hs Hc. destruct l; try discriminate Hc; injection Hc as ->; inv_step Hs; sys; auto;
    right; eexists _, _; (split; [first [reflexivity|eassumption]|left; reflexivity]).
Qed.
(** Without connection since [k], waiting for the gateway; [ib] has arrived. *)
Definition begs (k : N) (s : sys) : Prop :=
  ((s_bg s = BCheck \/ s_bg s = BConnSend) /\ s_now s = k /\ s_conn s = None) \/ s_bg s = BConnWait (k + 30000).
Definition waits_still (k : N) (s : sys) : Prop := k + 30000 <= s_now s \/ begs k s /\ s_inbox s = [].
Lemma begs_step c s l s' es k :
  step c s l = Some (s', es) -> l <> LBgRecvErr -> task_sends (stamp (s_now s) es) -> s_now s < k + 30000 -> s_inbox s = [] ->
  (forall d, ~ In (EvArrive d) es) -> (forall dt, l = LTime dt -> lets_pass c s dt) -> begs k s -> waits_still k s'.
Proof.
  intros Hs NE TS Hn Hi NA HT B. unfold waits_still, begs in *.
  destruct (call_label l) as [t|] eqn:Hc.
  { right. destruct (call_frame _ _ _ _ _ _ Hs Hc) as (->&_&_&->&_). split.
    - destruct B as [(B1&B2&B3)|B]; [|auto]. left. split; [exact B1|]. split; [exact B2|].
      destruct l; try discriminate Hc; injection Hc as ->; inv_step Hs; sys; congruence.
    - destruct (call_inbox _ _ _ _ _ _ Hs Hc) as [->|(d&q&E&_)]; [exact Hi|congruence]. }
  destruct (bg_label l) eqn:Hb.
  { right. destruct B as [([B|B]&B2&B3)|B]; destruct l; try discriminate Hb; cbn in Hs; unfold bg_step, bg_recv_err, bg_timeout, bg_tick in Hs; rewrite B in Hs;
      try rewrite Hi in Hs; try discriminate Hs; try (destruct NE; reflexivity).
    - rewrite B3 in Hs. injection Hs as <- <-. sysb. auto 6.
    - destruct ok.
      + injection Hs as <- <-. sysb. rewrite B2. auto.
      + exfalso. injection Hs as <- <-. eapply TS. left. reflexivity.
    - destruct (N.leb_spec (k + 30000) (s_now s)); [lia|discriminate Hs]. }
  destruct l; try discriminate Hc; try discriminate Hb; inv_step Hs; sysb; auto.
  2:{ exfalso. eapply NA. left. reflexivity. }
  destruct (N.le_gt_cases (k + 30000) (s_now s + dt)) as [X|X]; [auto|right]. split; [|exact Hi].
  destruct B as [(B1&B2&B3)|B]; [|auto]. left. split; [exact B1|]. split; [|exact B3].
  destruct (N.eq_dec dt 0) as [->|Z]; [lia|]. exfalso. specialize (HT _ eq_refl 0 ltac:(lia) (LBg true) I). cbn in HT.
  unfold bg_step in HT. sysb_in HT. destruct B1 as [E|E]; rewrite E in HT; discriminate HT.
Qed.
Lemma task_sends_app a b : task_sends (a ++ b) -> task_sends a /\ task_sends b.
Proof. intro H. split; intros d I; apply (H d); unfold evs; rewrite map_app; apply in_or_app; auto. Qed.
Lemma evs_arrived d tr : In (EvArrive d) (evs tr) -> arrived tr <> [].
Proof.
  induction tr as [|[m e] tr IH]; intro I; [destruct I|]. destruct I as [I|I].
  - cbn in I. subst e. discriminate.
  - specialize (IH I). intro E. apply IH. unfold arrived in *. cbn [flat_map] in E. apply app_eq_nil in E. apply E.
Qed.
Lemma cleared_by c s l s' es : step c s l = Some (s', es) -> In EvCleared es ->
  es = [EvCleared] /\ s_bg s' = BCheck /\ s_conn s' = None /\ s_now s' = s_now s.
Proof.
  intros Hs I. destruct l; inv_step Hs; sys; cbn in I; repeat (destruct I as [I|I]; try discriminate I); try (destruct I; fail); auto.
  all: exfalso; clear -I; unfold stop_events in I; repeat match type of I with context [match ?x with _ => _ end] => destruct x end; cbn in I; intuition discriminate.
Qed.
Lemma app_cases A (a b p q : list A) : a ++ b = p ++ q ->
  (exists q', a = p ++ q' /\ q = q' ++ b) \/ (exists p', p' <> [] /\ p = a ++ p' /\ b = p' ++ q).
Proof.
  revert p. induction a as [|x a IH]; intros p E.
  - destruct p as [|y p]; [left; exists []; auto|right]. exists (y :: p). repeat split; [discriminate|exact E].
  - destruct p as [|y p]; [left; exists (x :: a); auto|]. injection E as -> E. destruct (IH _ E) as [(q'&->&->)|(p'&N&->&->)].
    + left. exists q'. auto.
    + right. exists p'. auto.
Qed.
Lemma still_waits c start ls tr s p k q :
  steady c start ls tr s -> tr = p ++ q -> lost_at start k p -> arrived p = consumed p -> arrived q = [] -> task_sends q ->
  waits_still k s.
Proof.
  intros HS E L A. revert q E. induction HS as [|tr s l s' es HS IH Hs HT NE]; intros q E NA TS.
  { right. destruct L as [[-> ->]|(p'&->)]; [|destruct p'; discriminate E]. split; [|reflexivity]. left. cbn. auto. }
  pose proof (prompt_exec _ _ _ _ _ (steady_prompt _ _ _ _ _ HS)) as H.
  apply app_cases in E. destruct E as [(q'&->&->)|(p'&N&->&E)].
  - rewrite arrived_app in NA. apply app_eq_nil in NA. destruct NA as [NA1 NA2]. apply task_sends_app in TS. destruct TS as [TS1 TS2].
    pose proof (now_frame _ _ _ _ _ Hs) as Ht.
    destruct (IH _ eq_refl NA1 TS1) as [G|[G1 G2]]; [left; lia|].
    destruct (N.le_gt_cases (k + 30000) (s_now s)) as [X|X]; [left; lia|].
    eapply begs_step; try eassumption. intros d I. eapply evs_arrived; [|exact NA2]. unfold evs, stamp. rewrite map_map. cbn. rewrite map_id. exact I.
  - destruct L as [[L _]|(p0&L)]; [destruct tr; [|discriminate L]; destruct p'; [destruct N; reflexivity|discriminate L]|].
    destruct (exists_last N) as (p1&x&->). rewrite app_assoc in L. apply app_inj_tail in L. destruct L as [_ ->].
    rewrite <- app_assoc in E. pose proof E as E'. apply stamp_split in E. destruct E as (e1&e&e2&->&->&E&->). injection E as -> <-.
    destruct (cleared_by _ _ _ _ _ Hs ltac:(apply in_or_app; right; left; reflexivity)) as (E&B1&B2&B3).
    destruct e1 as [|x e1]; [|destruct e1; discriminate E]. injection E as E. subst e2. cbn [stamp map app] in *.
    right. split; [left; auto|]. pose proof (inbox_inv _ _ _ _ _ (exec_step _ _ _ _ _ _ _ _ H Hs)) as Ib.
    cbn [stamp map app] in Ib. rewrite A in Ib. rewrite <- (app_nil_r (consumed _)) in Ib at 1. apply app_inv_head in Ib. auto.
Qed.
(** The answer is on its way to the stored connection. *)
Definition answer_way (n k : N) (d : list N) (ch : N) (ep : hpai) (s : sys) : Prop :=
  s_now s = n /\ n < k + 30000 /\
  ((begs k s /\ exists ib, s_inbox s = d :: ib) \/
   (exists r, (s_bg s = BMonEnable r \/ s_bg s = BStore r) /\ cr_chan r = ch /\ cr_endpoint r = ep)).
Lemma answer_step c s l s' es n k d ch ep :
  step c s l = Some (s', es) -> l <> LBgRecvErr -> task_sends (stamp (s_now s) es) -> (forall dt, l = LTime dt -> lets_pass c s dt) ->
  (forall t, ~ In (EvClRecv t d) es) -> bytes d -> grants d ch ep -> answer_way n k d ch ep s ->
  answer_way n k d ch ep s' \/ exists cd, In (EvConnected cd) es /\ cd_chan cd = ch /\ cd_ep cd = ep.
Proof.
  intros Hs NE TS HT NT Hb Hg (En&Hk&W). unfold answer_way, begs in *.
  destruct (call_label l) as [t|] eqn:Hc.
  { left. destruct (call_frame _ _ _ _ _ _ Hs Hc) as (->&_&_&->&_). split; [exact En|]. split; [exact Hk|].
    destruct W as [(B&ib&Ei)|W]; [left|right; exact W]. split.
    - destruct B as [(B1&B2&B3)|B]; [|auto]. left. split; [exact B1|]. split; [exact B2|].
      destruct l; try discriminate Hc; injection Hc as ->; inv_step Hs; sys; congruence.
    - destruct (call_inbox _ _ _ _ _ _ Hs Hc) as [->|(d'&q'&E&I)]; [eauto|]. rewrite Ei in E. injection E as <- <-. destruct (NT _ I). }
  destruct (bg_label l) eqn:Hbl.
  { destruct W as [([([B|B]&B2&B3)|B]&ib&Ei)|(r&[B|B]&Er1&Er2)]; destruct l; try discriminate Hbl; cbn in Hs; unfold bg_step, bg_recv_err, bg_timeout, bg_tick in Hs; rewrite B in Hs;
      try rewrite Ei in Hs; try discriminate Hs; try (destruct NE; reflexivity).
    - rewrite B3 in Hs. injection Hs as <- <-. sysb. left. repeat split; auto. left. split; [auto|eauto].
    - destruct ok.
      + injection Hs as <- <-. sysb. left. repeat split; auto. left. rewrite B2. split; [auto|eauto].
      + exfalso. injection Hs as <- <-. eapply TS. left. reflexivity.
    - destruct (grants_accept _ _ _ Hb Hg) as (r&E&Er1&Er2). rewrite E in Hs. injection Hs as <- <-. sysb.
      left. repeat split; auto. right. exists r. destruct (c_mode c); auto.
    - destruct (N.leb_spec (k + 30000) (s_now s)); [clear -H Hk En; lia|discriminate Hs].
    - destruct ok.
      + injection Hs as <- <-. sysb. left. repeat split; auto. right. eauto.
      + exfalso. injection Hs as <- <-. eapply TS. left. reflexivity.
    - injection Hs as <- <-. right. eexists. split; [left; reflexivity|]. cbn. auto. }
  left. destruct l; try discriminate Hc; try discriminate Hbl; inv_step Hs; sysb.
  - destruct (N.eq_dec dt 0) as [->|Z].
    + rewrite N.add_0_r. split; [exact En|]. split; [exact Hk|]. exact W.
    + exfalso. specialize (HT _ eq_refl 0 ltac:(lia) (LBg true) I). cbn in HT. unfold bg_step in HT. sysb_in HT.
      destruct W as [([([B|B]&B2&B3)|B]&ib&Ei)|(r&[B|B]&Er1&Er2)]; rewrite B in HT; try rewrite Ei in HT; discriminate HT.
  - split; [exact En|]. split; [exact Hk|]. destruct W as [(B&ib&Ei)|W]; [left|right; exact W]. split; [exact B|]. rewrite Ei. cbn. eauto.
  - split; [exact En|]. split; [exact Hk|]. exact W.
  - split; [exact En|]. split; [exact Hk|]. exact W.
  - split; [exact En|]. split; [exact Hk|]. exact W.
Qed.
Theorem outage_ends c start ls tr s p k q1 n d q2 ch ep :
  steady c start ls tr s -> tr = p ++ q1 ++ (n, EvArrive d) :: q2 -> n < s_now s ->
  lost_at start k p -> arrived p = consumed p -> arrived q1 = [] -> n < k + 30000 ->
  bytes d -> grants d ch ep -> task_sends (q1 ++ q2) -> (forall t, not_at n (EvClRecv t d) q2) ->
  exists cd, In (n, EvConnected cd) q2 /\ cd_chan cd = ch /\ cd_ep cd = ep.
Proof.
  intros HS E Hn L A NA Hk Hb Hg TS NT.
  assert (G : answer_way n k d ch ep s \/ exists cd, In (n, EvConnected cd) q2 /\ cd_chan cd = ch /\ cd_ep cd = ep).
  2:{ destruct G as [[G _]|G]; [lia|exact G]. }
  clear Hn. rewrite app_assoc in E. apply task_sends_app in TS. destruct TS as [TS1 TS2].
  revert q2 E TS2 NT. induction HS as [|tr s l s' es HS IH Hs HT NE]; intros q2 E TS2 NT; [destruct (p ++ q1); discriminate E|].
  apply app_split in E. destruct E as [(q'&->&->)|(p'&E0&E)].
  - apply task_sends_app in TS2. destruct TS2 as [TS2 TS3].
    destruct (IH q' eq_refl TS2) as [W|(cd&R1&R2)]; [intros t I; apply (NT t); apply in_or_app; auto| |right; exists cd; split; [apply in_or_app; auto|exact R2]].
    pose proof W as (En&_).
    assert (NT' : forall t, ~ In (EvClRecv t d) es).
    { intros t I. apply (NT t). apply in_or_app. right. rewrite En. apply (in_map (fun x => (n, x))), I. }
    destruct (answer_step _ _ _ _ _ _ _ _ _ _ Hs NE TS3 HT NT' Hb Hg W) as [W'|(cd&R1&R2)].
    + auto.
    + right. exists cd. split; [|exact R2]. apply in_or_app. right. rewrite En. apply (in_map (fun x => (n, x))), R1.
  - apply stamp_split in E. destruct E as (e1&e'&e2&->&->&E&->). injection E as -> <-.
    destruct (arrives_by _ _ _ _ _ d Hs ltac:(apply in_or_app; right; left; reflexivity)) as (->&E&->).
    destruct e1 as [|x e1]; [|destruct e1; discriminate E]. injection E as E. subst e2. cbn [stamp map] in *. rewrite app_nil_r in *.
    left. destruct (still_waits _ _ _ _ _ p k q1 HS (eq_sym E0) L A NA TS1) as [G|[G1 G2]]; [lia|].
    split; [reflexivity|]. split; [exact Hk|]. left. split; [exact G1|]. sysb. rewrite G2. cbn. eauto.
Qed.
(** ** Silence *)
Lemma task_tries_app a b : task_tries (a ++ b) = task_tries a ++ task_tries b.
Proof. apply filter_app. Qed.
Definition on_cadence (n : N) (s : sys) : Prop := s_conn s = None /\
  (((s_bg s = BCheck \/ s_bg s = BConnSend) /\ s_now s = n) \/
   (exists dl, s_bg s = BConnWait dl /\ n = dl + 10000 /\ s_now s <= dl) \/ (s_bg s = BConnSleep n /\ s_now s <= n)).
Lemma call_no_tries c s l s' es t : step c s l = Some (s', es) -> call_label l = Some t -> task_tries (stamp (s_now s) es) = [].
Proof.
  intros Hs Hc. destruct (call_frame _ _ _ _ _ _ Hs Hc) as (_&_&_&_&_&_&_&F). revert F. clear. intros F. induction es as [|e es IH]; [reflexivity|].
  cbn in F. apply andb_prop in F. destruct F as [F1 F2]. unfold task_tries in *. cbn [stamp map filter snd].
  destruct e as [?|? ?|? ?| | | | | | | | | | | | | | | | | ]; try apply IH, F2; try discriminate F1.
  all: match goal with w : _ |- _ => destruct w; [discriminate F1|apply IH, F2] end.
Qed.
Lemma cadence_step c s l s' es k n tries :
  step c s l = Some (s', es) -> l <> LBgRecvErr -> s_inbox s = [] ->
  (forall d, ~ In (EvArrive d) es) -> (forall dt, l = LTime dt -> lets_pass c s dt) -> cadence k tries n -> on_cadence n s ->
  s_inbox s' = [] /\ exists n', cadence k (tries ++ task_tries (stamp (s_now s) es)) n' /\ on_cadence n' s'.
Proof.
  intros Hs NE Hi NA HT C [B0 B]. unfold on_cadence.
  destruct (call_label l) as [t|] eqn:Hc.
  { rewrite (call_no_tries _ _ _ _ _ _ Hs Hc), app_nil_r. destruct (call_frame _ _ _ _ _ _ Hs Hc) as (->&_&_&->&_). split.
    - destruct (call_inbox _ _ _ _ _ _ Hs Hc) as [->|(d&q&E&_)]; [exact Hi|congruence].
    - exists n. split; [exact C|]. split; [|exact B].
      destruct l; try discriminate Hc; injection Hc as ->; inv_step Hs; sys; congruence. }
  destruct (bg_label l) eqn:Hb.
  { destruct B as [([B|B]&B2)|[(dl&B&B2&B3)|(B&B2)]]; destruct l; try discriminate Hb; cbn in Hs; unfold bg_step, bg_recv_err, bg_timeout, bg_tick in Hs; rewrite B in Hs;
      try rewrite Hi in Hs; try discriminate Hs; try (destruct NE; reflexivity).
    - rewrite B0 in Hs. injection Hs as <- <-. sysb. split; [exact Hi|]. exists n. cbn. rewrite app_nil_r. split; [exact C|auto 6].
    - destruct ok; injection Hs as <- <-; sysb; (split; [exact Hi|]); eexists; rewrite B2.
      + split; [apply cadence_sent; exact C|]. split; [exact B0|]. right. left. eexists. split; [reflexivity|]. unfold ms_connect. lia.
      + split; [apply cadence_failed; exact C|]. split; [exact B0|]. right. right. split; [reflexivity|]. lia.
    - destruct (N.leb_spec dl (s_now s)); [|discriminate Hs]. injection Hs as <- <-; sysb. split; [exact Hi|]. exists n. cbn. rewrite app_nil_r. split; [exact C|].
      split; [exact B0|]. right. right. replace (s_now s + ms_retry) with n by (unfold ms_retry; lia). split; [reflexivity|]. lia.
    - destruct (N.leb_spec n (s_now s)); [|discriminate Hs]. injection Hs as <- <-; sysb. split; [exact Hi|]. exists n. cbn. rewrite app_nil_r. split; [exact C|].
      split; [exact B0|]. left. split; [auto|]. lia. }
  assert (X : task_tries (stamp (s_now s) es) = []) by (destruct l; try discriminate Hc; try discriminate Hb; inv_step Hs; reflexivity).
  rewrite X, app_nil_r. clear X.
  destruct l; try discriminate Hc; try discriminate Hb; inv_step Hs; sysb.
  2:{ exfalso. eapply NA. left. reflexivity. }
  2-4: split; [exact Hi|]; exists n; auto.
  split; [exact Hi|]. exists n. split; [exact C|]. split; [exact B0|].
  destruct (N.eq_dec dt 0) as [->|Z]; [rewrite N.add_0_r; exact B|]. specialize (HT _ eq_refl).
  destruct B as [(B1&B2)|[(dl&B&B2&B3)|(B&B2)]].
  - exfalso. specialize (HT 0 ltac:(lia) (LBg true) I). cbn in HT. unfold bg_step in HT. sysb_in HT. destruct B1 as [E|E]; rewrite E in HT; discriminate HT.
  - right. left. exists dl. split; [exact B|]. split; [exact B2|]. destruct (N.le_gt_cases (s_now s + dt) dl) as [G|G]; [exact G|exfalso].
    specialize (HT (dl - s_now s) ltac:(lia) LBgTimeout I). cbn in HT. unfold bg_timeout in HT. sysb_in HT. rewrite B in HT.
    destruct (N.leb_spec dl (s_now s + (dl - s_now s))); [discriminate HT|lia].
  - right. right. split; [exact B|]. destruct (N.le_gt_cases (s_now s + dt) n) as [G|G]; [exact G|exfalso].
    specialize (HT (n - s_now s) ltac:(lia) (LBg true) I). cbn in HT. unfold bg_step in HT. sysb_in HT. rewrite B in HT.
    destruct (N.leb_spec n (s_now s + (n - s_now s))); [discriminate HT|lia].
Qed.
Theorem silence c start ls tr s p k q :
  steady c start ls tr s -> tr = p ++ q -> lost_at start k p -> arrived p = consumed p -> arrived q = [] ->
  exists n, cadence k (task_tries q) n /\ s_now s <= n.
Proof.
  intros HS E L A NA.
  assert (G : s_inbox s = [] /\ exists n, cadence k (task_tries q) n /\ on_cadence n s).
  2:{ destruct G as (_&n&C&_&[(_&G)|[(dl&_&G1&G2)|(_&G)]]); exists n; (split; [exact C|]); lia. }
  revert q E NA. induction HS as [|tr s l s' es HS IH Hs HT NE]; intros q E NA.
  { destruct L as [[-> ->]|(p'&->)]; [|destruct p'; discriminate E]. cbn in E. subst q. split; [reflexivity|]. exists start.
    split; [constructor|]. split; [reflexivity|]. left. cbn. auto. }
  pose proof (prompt_exec _ _ _ _ _ (steady_prompt _ _ _ _ _ HS)) as H.
  apply app_cases in E. destruct E as [(q'&->&->)|(p'&N&->&E)].
  - rewrite arrived_app in NA. apply app_eq_nil in NA. destruct NA as [NA1 NA2].
    destruct (IH _ eq_refl NA1) as (Hi&n&C&B). rewrite task_tries_app. eapply cadence_step; try eassumption.
    intros d I. eapply evs_arrived; [|exact NA2]. unfold evs, stamp. rewrite map_map. cbn. rewrite map_id. exact I.
  - destruct L as [[L _]|(p0&L)]; [destruct tr; [|discriminate L]; destruct p'; [destruct N; reflexivity|discriminate L]|].
    destruct (exists_last N) as (p1&x&->). rewrite app_assoc in L. apply app_inj_tail in L. destruct L as [_ ->].
    rewrite <- app_assoc in E. pose proof E as E'. apply stamp_split in E. destruct E as (e1&e&e2&->&->&E&->). injection E as -> <-.
    destruct (cleared_by _ _ _ _ _ Hs ltac:(apply in_or_app; right; left; reflexivity)) as (E&B1&B2&B3).
    destruct e1 as [|x e1]; [|destruct e1; discriminate E]. injection E as E. subst e2. cbn [stamp map app] in *.
    pose proof (inbox_inv _ _ _ _ _ (exec_step _ _ _ _ _ _ _ _ H Hs)) as Ib.
    cbn [stamp map app] in Ib. rewrite A in Ib. rewrite <- (app_nil_r (consumed _)) in Ib at 1. apply app_inv_head in Ib.
    split; [auto|]. eexists. split; [constructor|]. split; [exact B2|]. auto.
Qed.
