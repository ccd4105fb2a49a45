(** Invariants of the reachable states: mutex, queue, connection. *)
From Verif Require Import Base Addresses Apdu Tunneling Emi Core Transport Wire Spec TraceSpec TransportBase.
From Coq Require Import Lia ZifyBool ZifyNat ZifyN.
Open Scope N_scope.

(** ** The transport mutex *)
(** A call at this point holds the mutex. *)
Definition holds (pc : client_pc) : bool :=
  match pc with CIdle | CLock _ | CWaitQ ONextMsg _ => false | _ => true end.

Lemma lock_inv c start ls tr s :
  exec c start ls tr s -> forall t, holds (s_clients s t) = true <-> s_tlock s = Some t.
Proof.
  intro H. pattern tr, s. revert tr s H. apply exec_inv.
  - intro t. cbn. split; discriminate.
  - intros tr s l s' es H IH Hs u.
    destruct (bg_label l) eqn:Hb.
    { destruct (bg_frame _ _ _ _ _ Hs Hb) as (_&_&->&->&_). apply IH. }
    destruct (call_label l) as [t|] eqn:Hc.
    2:{ destruct (env_frame _ _ _ _ _ Hs Hb Hc) as (_&_&_&_&->&->&_). apply IH. }
    pose proof (IH u) as Iu. pose proof (IH t) as It. clear IH H Hb.
    destruct l; try discriminate Hc; injection Hc as ->; inv_step Hs; sys; unfold upd;
      destruct (Nat.eqb_spec u t); subst;
      repeat match goal with E : s_clients s ?x = _ |- _ => rewrite E in *; clear E end;
      cbn in Iu, It |- *;
      try (destruct (s_tlock s) as [w|]; [destruct (Nat.eqb_spec w t); subst|]);
      rewrite ?Nat.eqb_refl;
      try (intuition congruence).
Qed.

Lemma lock_unique c start ls tr s t u :
  exec c start ls tr s -> holds (s_clients s t) = true -> holds (s_clients s u) = true -> t = u.
Proof.
  intros H Ht Hu. apply (lock_inv _ _ _ _ _ H) in Ht. apply (lock_inv _ _ _ _ _ H) in Hu. congruence.
Qed.

(** ** Time stamps *)
Lemma stamp_inv c start ls tr s :
  exec c start ls tr s -> Forall (fun x => fst x <= s_now s) tr.
Proof.
  intro H. pattern tr, s. revert tr s H. apply exec_inv; [constructor|].
  intros tr s l s' es H IH Hs.
  assert (s_now s <= s_now s') as L.
  { destruct (bg_label l) eqn:Hb; [destruct (bg_frame _ _ _ _ _ Hs Hb) as (->&_); lia|].
    destruct (call_label l) as [t|] eqn:Hc.
    - destruct (call_frame _ _ _ _ _ _ Hs Hc) as (->&_). lia.
    - apply (env_frame _ _ _ _ _ Hs Hb Hc). }
  apply Forall_app. split.
  - eapply Forall_impl, IH. cbn. intros; lia.
  - unfold stamp. rewrite Forall_map. apply Forall_forall. intros; cbn; lia.
Qed.

(** ** Queue and socket *)
Lemma queued_app a b : queued (a ++ b) = queued a ++ queued b. Proof. apply flat_map_app. Qed.
Lemma taken_app a b : taken (a ++ b) = taken a ++ taken b. Proof. apply flat_map_app. Qed.
Lemma arrived_app a b : arrived (a ++ b) = arrived a ++ arrived b. Proof. apply flat_map_app. Qed.
Lemma consumed_app a b : consumed (a ++ b) = consumed a ++ consumed b. Proof. apply flat_map_app. Qed.
Lemma issued_app a b : issued (a ++ b) = issued a ++ issued b. Proof. apply flat_map_app. Qed.

Lemma stop_no_queued n b : queued (stamp n (stop_events b)) = []. Proof. destruct b; reflexivity. Qed.
Lemma stop_no_taken n b : taken (stamp n (stop_events b)) = []. Proof. destruct b; reflexivity. Qed.
Lemma stop_no_arrived n b : arrived (stamp n (stop_events b)) = []. Proof. destruct b; reflexivity. Qed.
Lemma stop_no_consumed n b : consumed (stamp n (stop_events b)) = []. Proof. destruct b; reflexivity. Qed.
Lemma stop_no_issued n b : issued (stamp n (stop_events b)) = []. Proof. destruct b; reflexivity. Qed.

Lemma step_queue c s l s' es :
  step c s l = Some (s', es) ->
  s_rxq s ++ queued (stamp (s_now s) es) = taken (stamp (s_now s) es) ++ s_rxq s' /\
  (length (s_rxq s) <= channel_cap -> length (s_rxq s') <= channel_cap)%nat.
Proof.
  intro Hs. destruct l; inv_step Hs; sys; cbn [stamp map app queued taken flat_map snd];
    rewrite ?app_nil_r; try (split; [reflexivity|lia]).
  all: try (match goal with |- context [stop_events ?b] => destruct b end;
            cbn [stop_events map flat_map app snd]; rewrite ?app_nil_r; (split; [reflexivity|auto]); fail).
  all: try match goal with E : s_rxq _ = _ |- _ => rewrite ?E end; cbn [app length] in *;
    try (split; [reflexivity|lia]).
  all: try (split; [reflexivity|]; rewrite app_length; cbn; lia).
Qed.
Lemma queue_inv c start ls tr s :
  exec c start ls tr s -> queued tr = taken tr ++ s_rxq s /\ (length (s_rxq s) <= channel_cap)%nat.
Proof.
  intro H. pattern tr, s. revert tr s H. apply exec_inv.
  - split; [reflexivity|]. cbn. unfold channel_cap. lia.
  - intros tr s l s' es H [IH1 IH2] Hs. destruct (step_queue _ _ _ _ _ Hs) as [E L].
    rewrite queued_app, taken_app, IH1, <- !app_assoc, E. auto.
Qed.

Lemma step_inbox c s l s' es :
  step c s l = Some (s', es) ->
  s_inbox s ++ arrived (stamp (s_now s) es) = consumed (stamp (s_now s) es) ++ s_inbox s'.
Proof.
  intro Hs. destruct l; inv_step Hs; sys; cbn [stamp map app arrived consumed flat_map snd];
    rewrite ?app_nil_r; try reflexivity.
  all: try match goal with E : s_inbox _ = _ :: _ |- _ => rewrite E end; cbn [app]; try reflexivity.
  all: try (match goal with |- context [stop_events ?b] => destruct b end; cbn; rewrite ?app_nil_r; reflexivity).
Qed.
Lemma inbox_inv c start ls tr s :
  exec c start ls tr s -> arrived tr = consumed tr ++ s_inbox s.
Proof.
  intro H. pattern tr, s. revert tr s H. apply exec_inv; [reflexivity|].
  intros tr s l s' es H IH Hs. rewrite arrived_app, consumed_app, IH, <- !app_assoc, (step_inbox _ _ _ _ _ Hs).
  reflexivity.
Qed.

(** ** Connected exactly when past the connection phase *)
Definition connecting (b : bg_pc) : bool :=
  match b with BCheck | BConnSend | BConnWait _ | BConnSleep _ | BMonEnable _ | BStore _ => true | _ => false end.
Lemma dispatch_not_connecting d : connecting (dispatch d) = false.
Proof.
  unfold dispatch. destruct d; [reflexivity|]. destruct (parse_response _) as [[]| |]; try reflexivity.
  destruct (_ =? _); reflexivity.
Qed.
Lemma after_ack_not_connecting p k : connecting (after_ack p k) = false.
Proof. unfold after_ack. destruct k; [destruct (run_on _ _)|]; reflexivity. Qed.
Lemma call_conn c s l s' es t :
  step c s l = Some (s', es) -> call_label l = Some t ->
  (s_conn s' = s_conn s /\ issued (stamp (s_now s) es) = []) \/
  exists cd, s_conn s = Some cd /\
    s_conn s' = Some {| cd_chan := cd_chan cd; cd_ep := cd_ep cd; cd_seq := (cd_seq cd + 1) mod 256 |} /\
    es = [EvSeq t (cd_seq cd)].
Proof.
  intros Hs Hl. destruct l; try discriminate Hl; injection Hl as ->; inv_step Hs; sys; cbn; eauto 6.
Qed.
Lemma conn_inv c start ls tr s :
  exec c start ls tr s -> (s_conn s = None <-> connecting (s_bg s) = true).
Proof.
  intro H. pattern tr, s. revert tr s H. apply exec_inv; [cbn; tauto|].
  intros tr s l s' es H IH Hs.
  destruct (bg_label l) eqn:Hb.
  - destruct l; try discriminate Hb; inv_step Hs; sys;
      repeat match goal with E : s_bg s = _ |- _ => rewrite E in *; clear E end; cbn in *;
      rewrite ?dispatch_not_connecting, ?after_ack_not_connecting; try (intuition congruence).
  - destruct (call_label l) as [t|] eqn:Hc.
    + destruct (call_frame _ _ _ _ _ _ Hs Hc) as (_&_&_&->&_).
      destruct (call_conn _ _ _ _ _ _ Hs Hc) as [(->&_)|(cd&E1&E2&_)]; [exact IH|].
      rewrite E2, E1 in *. intuition congruence.
    + destruct (env_frame _ _ _ _ _ Hs Hb Hc) as (->&_&->&_). exact IH.
Qed.
