(** The background task in prompt executions. *)
From Verif Require Import Base Addresses Apdu Tunneling Emi Core Transport Wire Spec TraceSpec TraceSpec2 LiveSpec PromptSpec TransportBase TransportInv TransportCalls TransportReturn TransportThm TransportThm2 TransportThm3 TransportBg TransportBgThm TransportReads TransportRecover TransportNotify TransportPrompt.
From Coq Require Import Lia ZifyBool ZifyNat ZifyN.
Open Scope N_scope.

(** ** Where the task rests *)
Lemma attended_prompt c start ls tr s : attended c start ls tr s -> prompt c start ls tr s.
Proof. induction 1 as [|tr s l s' es _ IH Hs HT]; [constructor|]. econstructor; [exact IH|exact Hs|]. intros dt E. apply (HT dt E). Qed.
Lemma client_unregistered c start ls tr s : exec c start ls tr s -> c_mode c = MClient -> registered tr = [].
Proof.
  intros H Hm. pattern tr, s. revert tr s H. apply exec_inv; [reflexivity|]. intros tr s l s' es H IH Hs.
  rewrite registered_app, IH. cbn [app].
  destruct (call_label l) as [t|] eqn:Hc.
  - assert (NA : forall x, s_clients s t <> CAddL x).
    { intros x E. pose proof (op_mode_inv _ _ _ _ _ H t (OAddListener x)) as M. rewrite E in M. specialize (M eq_refl). rewrite Hm in M. discriminate M. }
    pose proof (op_mode_inv _ _ _ _ _ H t) as M. rewrite Hm in M.
    destruct l; try discriminate Hc; injection Hc as ->; inv_step Hs; try reflexivity; try (exfalso; eapply NA; eassumption);
      repeat match goal with E : s_clients s t = _ |- _ => rewrite E in M; clear E end; cbn [pc_op] in M;
      try match goal with o : op |- _ => specialize (M o eq_refl); destruct o; try discriminate M; reflexivity end.
    discriminate (M _ eq_refl).
  - destruct (bg_label l) eqn:Hb; destruct l; try discriminate Hb; try discriminate Hc; inv_step Hs; try reflexivity;
      match goal with |- context [stop_events ?b] => destruct b end; reflexivity.
Qed.
Lemma client_attended c start ls tr s : prompt c start ls tr s -> c_mode c = MClient -> attended c start ls tr s.
Proof.
  intros HP Hm. induction HP as [|tr s l s' es HP IH Hs HT]; [constructor|]. econstructor; [exact IH|exact Hs|].
  intros dt E. split; [exact (HT dt E)|]. intros x I. rewrite (client_unregistered _ _ _ _ _ (prompt_exec _ _ _ _ _ HP) Hm) in I. destruct I.
Qed.
Lemma kept_sub al xs ys y : kept al xs ys -> In y ys -> In y xs.
Proof. intro K. induction K as [|x xs ys K IH|x xs ys D K IH]; cbn; intuition. Qed.

Definition pauses (b : bg_pc) : bool :=
  match b with BRecv | BEnq _ | BConnWait _ | BConnSleep _ | BEnded | BPanicked => true | _ => false end.
Lemma rest_pauses c start ls tr s m :
  exec c start ls tr s -> has_room tr s -> at_rest c (set_now s m) -> pauses (s_bg s) = true.
Proof.
  intros H NR R. specialize (R (LBg true) I). cbn in R. unfold bg_step in R. sysb_in R.
  destruct (roll_inv _ _ _ _ _ H) as (K&W).
  destruct (s_bg s) as [| | | | | |todo act| | | | | | | |] eqn:E; try reflexivity; try discriminate R.
  - destruct W as (done&Eo&_). destruct todo as [|x todo]; [discriminate R|].
    assert (Ix : In x (registered tr)) by (eapply kept_sub; [exact K|]; rewrite Eo; apply in_or_app; right; left; reflexivity).
    specialize (NR x Ix). destruct (li_alive (s_listeners s x)); [|discriminate R]. specialize (NR eq_refl).
    apply Nat.ltb_lt in NR. rewrite NR in R. discriminate R.
  - destruct (s_conn s); discriminate R.
Qed.

(** ** Heart beats *)
Lemma hb_inv c start ls tr s : exec c start ls tr s -> s_hb s <= s_now s + 60000.
Proof.
  revert tr s. apply exec_inv; [cbn; lia|]. intros tr s l s' es H IH Hs.
  destruct (call_label l) as [t|] eqn:Hc.
  { destruct (call_frame _ _ _ _ _ _ Hs Hc) as (->&_&_&_&->&_). exact IH. }
  destruct (bg_label l) eqn:Hb.
  - destruct l; try discriminate Hb; inv_step Hs; sys; try exact IH; unfold next_tick, ms_heart_beat;
      destruct (_ <? _); lia.
  - destruct (env_frame _ _ _ _ _ Hs Hb Hc) as (_&_&_&->&_&_&_&X&_). lia.
Qed.
Lemma connected_stays a n e b : connected_now (a ++ [(n, e)]) = true -> never EvCleared b -> connected_now (a ++ (n, e) :: b) = true.
Proof.
  intros C NC. change ((n, e) :: b) with ([(n, e)] ++ b). rewrite app_assoc, connected_app, C. clear C.
  assert (G : forall v, v = true -> fold_left (fun b x => match snd x with EvConnected _ => true | EvCleared => false | _ => b end) b v = true).
  { induction b as [|[k x] b IH]; intros v V; [exact V|]. cbn [fold_left snd].
    assert (NC' : never EvCleared b) by (intro X; apply NC; right; exact X).
    apply (IH NC'). destruct x; try exact V; try reflexivity. destruct NC. left. reflexivity. }
  apply G. reflexivity.
Qed.
Lemma unconnected_stays a n e b : connected_now (a ++ [(n, e)]) = false -> (forall cd, never (EvConnected cd) b) -> connected_now (a ++ (n, e) :: b) = false.
Proof.
  intros C NC. change ((n, e) :: b) with ([(n, e)] ++ b). rewrite app_assoc, connected_app, C. clear C.
  assert (G : forall v, v = false -> fold_left (fun b x => match snd x with EvConnected _ => true | EvCleared => false | _ => b end) b v = false).
  { induction b as [|[k x] b IH]; intros v V; [exact V|]. cbn [fold_left snd].
    assert (NC' : forall cd, never (EvConnected cd) b) by (intros cd X; apply (NC cd); right; exact X).
    apply (IH NC'). destruct x; try exact V; try reflexivity. destruct (NC c). left. reflexivity. }
  apply G. reflexivity.
Qed.

Lemma stopped_prefix a b : ~ task_stopped (a ++ b) -> ~ task_stopped a.
Proof. intros H [X|X]; apply H; [left|right]; rewrite evs_app; apply in_or_app; left; exact X. Qed.
Lemma never_app e a b : never e (a ++ b) -> never e a /\ never e b.
Proof. intro H. split; intro X; apply H; rewrite evs_app; apply in_or_app; auto. Qed.

Lemma event_now c s l s' es : step c s l = Some (s', es) -> es <> [] -> s_now s' = s_now s.
Proof.
  intros Hs E. destruct (call_label l) as [t|] eqn:Hc; [apply (call_frame _ _ _ _ _ _ Hs Hc)|].
  destruct (bg_label l) eqn:Hb; [apply (bg_frame _ _ _ _ _ Hs Hb)|].
  destruct l; try discriminate Hb; try discriminate Hc; inv_step Hs; try reflexivity; congruence.
Qed.
Lemma other_now c s l s' es : step c s l = Some (s', es) -> (forall dt, l <> LTime dt) -> s_now s' = s_now s.
Proof.
  intros Hs E. destruct (call_label l) as [t|] eqn:Hc; [apply (call_frame _ _ _ _ _ _ Hs Hc)|].
  destruct (bg_label l) eqn:Hb; [apply (bg_frame _ _ _ _ _ Hs Hb)|].
  destruct l; try discriminate Hb; try discriminate Hc; try (inv_step Hs; reflexivity). destruct (E dt). reflexivity.
Qed.
Lemma hb_changes c s l s' es : step c s l = Some (s', es) -> s_hb s' = s_hb s \/ In EvTick es.
Proof.
  intro Hs. destruct (call_label l) as [t|] eqn:Hc; [left; apply (call_frame _ _ _ _ _ _ Hs Hc)|].
  destruct (bg_label l) eqn:Hb; [|left; apply (env_frame _ _ _ _ _ Hs Hb Hc)].
  destruct l; try discriminate Hb; inv_step Hs; sys; auto; right; left; reflexivity.
Qed.

Lemma beat_bound c start ls tr s :
  attended c start ls tr s -> ~ task_stopped tr ->
  forall p n e q, tr = p ++ (n, e) :: q -> connected_now (p ++ [(n, e)]) = true -> never EvCleared q -> never EvTick q ->
  s_hb s <= n + 60000 /\ s_now s <= n + 60000.
Proof.
  induction 1 as [|tr s l s' es HP IH Hs HT]; intros NS p n e q E C NC NT; [destruct p; discriminate E|].
  pose proof (prompt_exec _ _ _ _ _ (attended_prompt _ _ _ _ _ HP)) as H.
  apply app_split in E. destruct E as [(q'&->&->)|(p'&->&E)].
  - apply never_app in NC, NT. destruct NC as [NC _], NT as [NT NT'].
    destruct (IH (stopped_prefix _ _ NS) _ _ _ _ eq_refl C NC NT) as [I1 I2].
    assert (Hh : s_hb s' = s_hb s).
    { destruct (hb_changes _ _ _ _ _ Hs) as [X|X]; [exact X|]. destruct NT'. rewrite evs_stamp. exact X. }
    split; [lia|].
    assert (D : (exists dt, l = LTime dt) \/ forall dt, l <> LTime dt) by (destruct l; eauto; right; discriminate).
    destruct D as [(dt&->)|D]; [|rewrite (other_now _ _ _ _ _ Hs D); exact I2].
    injection Hs as <- <-. sysb. destruct (N.eq_dec dt 0) as [->|Z]; [lia|].
    destruct (HT _ eq_refl) as [HL HR]. pose proof (lets_last _ _ _ HL Z) as R.
    pose proof (rest_pauses _ _ _ _ _ _ H HR R) as P.
    pose proof (connected_stays _ _ _ _ C NC) as CN. rewrite (connected_inv _ _ _ _ _ H) in CN.
    assert (T : forall b, s_bg s = b -> match b with BRecv | BEnq _ => True | _ => False end -> s_now s + dt <= n + 60000).
    { intros b Eb Hb. specialize (R LTick I). cbn in R. unfold bg_tick in R. sysb_in R. rewrite Eb in R.
      destruct b; try destruct Hb; destruct (N.leb_spec (s_hb s) (s_now s + (dt - 1))); try discriminate R; lia. }
    assert (G : bg_gone s = true -> False).
    { intro X. apply (stopped_prefix _ _ NS). exact (bg_gone_events _ _ _ _ _ H X). }
    assert (K : connecting (s_bg s) = true -> False).
    { intro X. apply (conn_inv _ _ _ _ _ H) in X. rewrite X in CN. discriminate CN. }
    unfold bg_gone in G. destruct (s_bg s) eqn:Eb; try discriminate P; try (destruct (K eq_refl)); try (destruct (G eq_refl)); exact (T _ eq_refl I).
  - apply stamp_split in E. destruct E as (e1&e'&e2&->&->&E&->). injection E as -> ->.
    assert (En : s_now s' = s_now s) by (eapply event_now; [exact Hs|destruct e1; discriminate]).
    assert (H' : exec c start ls (tr ++ stamp (s_now s) (e1 ++ e' :: e2)) s') by (econstructor; eassumption).
    pose proof (hb_inv _ _ _ _ _ H'). lia.
Qed.
Lemma beat_in_time c start ls tr s p n e q :
  attended c start ls tr s -> ~ task_stopped tr ->
  tr = p ++ (n, e) :: q -> connected_now (p ++ [(n, e)]) = true -> never EvCleared q -> never EvTick q ->
  s_now s <= n + 60000.
Proof. intros. eapply beat_bound; eassumption. Qed.

(** ** Connection requests *)
Definition patience (b : N) (x : N * event) : N :=
  match snd x with
  | EvSend Bg d | EvSendFail Bg d => if list_eq_dec N.eq_dec d connection_datagram then fst x + 40000 else b
  | EvCleared => fst x
  | _ => b
  end.
Definition asking (W : N) (s : sys) : Prop :=
  match s_bg s with
  | BConnWait dl => s_now s <= dl /\ dl + 10000 <= W
  | BConnSleep dl => s_now s <= dl /\ dl <= W
  | b => connecting b = true -> s_now s <= W
  end.
Lemma patience_call n es : (filter bg_event es = []) -> forall b, fold_left patience (stamp n es) b = b.
Proof.
  induction es as [|e es IH]; [reflexivity|]. cbn [filter stamp map fold_left]. intros F b.
  destruct (bg_event e) eqn:E; [discriminate F|].
  assert (A : patience b (n, e) = b).
  { unfold patience; cbn [snd fst]. destruct e as [| | | |[] ?|[] ?| | | | | | | | | | | | | |]; cbn in E |- *; try reflexivity; discriminate E. }
  rewrite A. exact (IH F b).
Qed.
Lemma asking_inv c start ls tr s : prompt c start ls tr s -> asking (fold_left patience tr start) s.
Proof.
  induction 1 as [|tr s l s' es HP IH Hs HT]; [cbn; lia|].
  pose proof (prompt_exec _ _ _ _ _ HP) as H.
  rewrite fold_left_app. set (W := fold_left patience tr start) in *. unfold asking in *.
  destruct (bg_label l) eqn:Hb.
  - destruct (bg_frame _ _ _ _ _ Hs Hb) as (->&_). pose proof (conn_inv _ _ _ _ _ H) as CI.
    destruct l; try discriminate Hb; inv_step Hs; sys;
      repeat match goal with E : s_bg s = _ |- _ => rewrite E in *; clear E end;
      try match goal with E : (_ <=? _) = true |- _ => apply N.leb_le in E end.
    all: cbn [send_event stamp map fold_left patience snd fst app connecting].
    all: try (intro; discriminate). all: unfold ms_connect, ms_retry; fold connp.
    all: try (destruct ok).
    all: repeat match goal with |- context [list_eq_dec N.eq_dec connp connection_datagram] => rewrite connp_eq end.
    all: try match goal with |- context [list_eq_dec N.eq_dec ?a ?b] => destruct (list_eq_dec N.eq_dec a b) end.
    all: try congruence.
    all: cbn [connecting] in *.
    all: try (specialize (IH eq_refl)); try (split; lia); try (intro; lia); try (intro; discriminate).
    all: try lia.
    1,2: pose proof (dispatch_not_connecting l) as X; destruct (dispatch l); try discriminate X; intro; discriminate.
    all: pose proof (after_ack_not_connecting (c_prof c) k) as X; destruct (after_ack (c_prof c) k); try discriminate X; intro; discriminate.
  - assert (F : filter bg_event es = []).
    { eapply step_bg_events; eassumption. }
    rewrite (patience_call _ _ F).
    destruct (call_label l) as [t|] eqn:Hc.
    + destruct (call_frame _ _ _ _ _ _ Hs Hc) as (->&_&_&->&_). exact IH.
    + destruct (env_frame _ _ _ _ _ Hs Hb Hc) as (_&_&->&_).
      assert (D : (exists dt, l = LTime dt) \/ forall dt, l <> LTime dt) by (destruct l; eauto; right; discriminate).
      destruct D as [(dt&->)|D]; [|rewrite (other_now _ _ _ _ _ Hs D); exact IH].
      injection Hs as <- <-. sysb. destruct (N.eq_dec dt 0) as [->|Z]; [rewrite N.add_0_r; exact IH|].
      pose proof (lets_last _ _ _ (HT _ eq_refl) Z) as R.
      destruct (s_bg s) eqn:Eb; try (intro; discriminate);
        try (exfalso; specialize (R (LBg true) I); cbn in R; unfold bg_step in R; sysb_in R; rewrite Eb in R; discriminate R).
      * specialize (R LBgTimeout I). cbn in R. unfold bg_timeout in R. sysb_in R. rewrite Eb in R.
        destruct (N.leb_spec deadline (s_now s + (dt - 1))); [discriminate R|lia].
      * specialize (R (LBg true) I). cbn in R. unfold bg_step in R. sysb_in R. rewrite Eb in R.
        destruct (N.leb_spec deadline (s_now s + (dt - 1))); [discriminate R|lia].
Qed.

Lemma patience_le n tr : forall b, b <= n + 40000 -> Forall (fun x => fst x <= n) tr -> fold_left patience tr b <= n + 40000.
Proof.
  induction tr as [|[k e] tr IH]; intros b Hb F; [exact Hb|]. cbn [fold_left].
  pose proof (Forall_inv F) as Hk. apply Forall_inv_tail in F. cbn in Hk. apply IH; [|exact F].
  unfold patience. cbn [snd fst]. destruct e as [| | | |[] d|[] d| | | | | | | | | | | | | |]; try exact Hb; try lia;
    destruct (list_eq_dec _ _ _); try exact Hb; lia.
Qed.
Lemma patience_kept tr : (forall e, asks_for_connection e -> never e tr) -> never EvCleared tr -> forall b, fold_left patience tr b = b.
Proof.
  induction tr as [|[k e] tr IH]; intros NA NC b; [reflexivity|]. cbn [fold_left].
  assert (E : patience b (k, e) = b).
  { unfold patience. cbn [snd fst]. destruct e as [| | | |[] d|[] d| | | | | | | | | | | | | |]; try reflexivity.
    - destruct (list_eq_dec _ _ _) as [->|]; [|reflexivity]. destruct (NA (EvSend Bg connection_datagram)); [left; reflexivity|left; reflexivity].
    - destruct (list_eq_dec _ _ _) as [->|]; [|reflexivity]. destruct (NA (EvSendFail Bg connection_datagram)); [right; reflexivity|left; reflexivity].
    - destruct NC. left. reflexivity. }
  rewrite E. apply IH; [intros x X I; apply (NA x X); right; exact I|intro I; apply NC; right; exact I].
Qed.
Lemma start_now c start ls tr s : exec c start ls tr s -> start <= s_now s.
Proof.
  revert tr s. apply exec_inv; [cbn; lia|]. intros tr s l s' es H IH Hs.
  assert (D : (exists dt, l = LTime dt) \/ forall dt, l <> LTime dt) by (destruct l; eauto; right; discriminate).
  destruct D as [(dt&->)|D]; [injection Hs as <- <-; sysb; lia|rewrite (other_now _ _ _ _ _ Hs D); exact IH].
Qed.
(** The connection is given up only while there is one. *)
Lemma cleared_connected c start ls tr s p n q :
  exec c start ls tr s -> tr = p ++ (n, EvCleared) :: q -> connected_now p = true.
Proof.
  intros H E. destruct (exec_split _ _ _ _ _ _ _ _ _ H E) as (tr0&s0&l&s1&e1&e2&H0&Hs&->&->&_).
  assert (X : e1 = [] /\ s_bg s0 = BClear).
  { assert (Hl : bg_label l = true).
    { destruct (bg_label l) eqn:Hb; [reflexivity|]. pose proof (step_bg_events _ _ _ _ _ Hs Hb) as F. rewrite filter_app in F.
      apply app_eq_nil in F. destruct F as [_ F]. discriminate F. }
    clear E H. destruct l; try discriminate Hl; clear Hl; open_step Hs; break Hs;
      injection Hs as Hs1 Hs2;
      try (match type of Hs2 with context [stop_events ?b] => destruct b end);
      repeat (destruct e1 as [|? e1]; cbn in Hs2; try discriminate Hs2; try (injection Hs2 as ? Hs2); try discriminate);
      auto; destruct e1; discriminate Hs2. }
  destruct X as [-> X]. rewrite app_nil_r. rewrite (connected_inv _ _ _ _ _ H0). destruct (s_conn s0) eqn:C; [reflexivity|].
  apply (conn_inv _ _ _ _ _ H0) in C. rewrite X in C. discriminate C.
Qed.
Lemma unconnected_uncleared c start ls tr s p n e q :
  exec c start ls tr s -> tr = p ++ (n, e) :: q -> connected_now (p ++ [(n, e)]) = false -> (forall cd, never (EvConnected cd) q) -> never EvCleared q.
Proof.
  intros H -> C NC I. apply in_evs in I. destruct I as (k&I). apply in_split in I. destruct I as (q1&q2&->).
  pose proof (cleared_connected _ _ _ _ _ (p ++ (n, e) :: q1) k q2 H ltac:(rewrite <- app_assoc; reflexivity)) as X.
  rewrite unconnected_stays in X; [discriminate X|exact C|]. intro cd. exact (proj1 (never_app _ _ _ (NC cd))).
Qed.
Lemma asks_in_time c start ls tr s p n e q :
  prompt c start ls tr s -> tr = p ++ (n, e) :: q ->
  connected_now (p ++ [(n, e)]) = false -> (forall cd, never (EvConnected cd) q) -> (forall x, asks_for_connection x -> never x q) ->
  s_now s <= n + 40000.
Proof.
  intros HP E C NC NA. pose proof (prompt_exec _ _ _ _ _ HP) as H.
  pose proof (asking_inv _ _ _ _ _ HP) as A.
  assert (CN : connecting (s_bg s) = true).
  { apply (conn_inv _ _ _ _ _ H). pose proof (connected_inv _ _ _ _ _ H) as X. rewrite E, (unconnected_stays _ _ _ _ C NC) in X.
    destruct (s_conn s); [discriminate X|reflexivity]. }
  assert (W : fold_left patience tr start <= n + 40000).
  { rewrite E. change ((n, e) :: q) with ([(n, e)] ++ q). rewrite app_assoc, fold_left_app.
    rewrite (patience_kept q NA (unconnected_uncleared _ _ _ _ _ _ _ _ _ H E C NC)).
    destruct (exec_split _ _ _ _ _ _ _ _ _ H E) as (tr0&s0&l&s1&e1&e2&H0&_&->&->&_).
    apply patience_le; [pose proof (start_now _ _ _ _ _ H0); lia|]. rewrite <- app_assoc. apply Forall_app. split; [exact (stamp_inv _ _ _ _ _ H0)|].
    apply Forall_app. split; [unfold stamp; rewrite Forall_map; apply Forall_forall; intros; cbn; lia|constructor; [cbn; lia|constructor]]. }
  unfold asking in A. destruct (s_bg s); try discriminate CN; try (specialize (A eq_refl)); lia.
Qed.
Lemma first_asked_at_once c start ls tr s :
  prompt c start ls tr s -> (forall cd, never (EvConnected cd) tr) -> (forall x, asks_for_connection x -> never x tr) ->
  s_now s = start.
Proof.
  intros HP NC NA. pose proof (prompt_exec _ _ _ _ _ HP) as H. pose proof (asking_inv _ _ _ _ _ HP) as A.
  assert (C0 : forall tr' : trace, (forall cd, never (EvConnected cd) tr') -> connected_now tr' = false).
  { intros tr' N. destruct tr' as [|[k x] tr']; [reflexivity|]. apply (unconnected_stays [] k x tr').
    - destruct x; try reflexivity. destruct (N c0). left. reflexivity.
    - intros cd I. apply (N cd). right. exact I. }
  assert (CN : connecting (s_bg s) = true).
  { apply (conn_inv _ _ _ _ _ H). pose proof (connected_inv _ _ _ _ _ H) as X. rewrite (C0 _ NC) in X.
    destruct (s_conn s); [discriminate X|reflexivity]. }
  assert (NCl : never EvCleared tr).
  { intro I. apply in_evs in I. destruct I as (k&I). apply in_split in I. destruct I as (q1&q2&->).
    pose proof (cleared_connected _ _ _ _ _ _ _ _ H eq_refl) as X. rewrite C0 in X; [discriminate X|].
    intro cd. exact (proj1 (never_app _ _ _ (NC cd))). }
  rewrite (patience_kept tr NA NCl) in A. pose proof (start_now _ _ _ _ _ H).
  unfold asking in A. destruct (s_bg s); try discriminate CN; try (specialize (A eq_refl)); lia.
Qed.

(** ** Datagrams *)
Lemma rest_nothing_waits c start ls tr s :
  exec c start ls tr s -> at_rest c s -> has_room tr s -> ~ task_stopped tr -> connected_now tr = true ->
  (length (queued tr) < length (taken tr) + 100)%nat -> arrived tr = consumed tr.
Proof.
  intros H R NR NS C B. rewrite (inbox_inv _ _ _ _ _ H). 
  assert (R' : at_rest c (set_now s (s_now s))) by (destruct s; exact R).
  pose proof (rest_pauses _ _ _ _ _ _ H NR R') as P.
  assert (G : bg_gone s = true -> False).
  { intro X. apply NS. exact (bg_gone_events _ _ _ _ _ H X). }
  assert (K : connecting (s_bg s) = true -> False).
  { intro X. apply (conn_inv _ _ _ _ _ H) in X. rewrite (connected_inv _ _ _ _ _ H), X in C. discriminate C. }
  destruct (queue_inv _ _ _ _ _ H) as [Q _]. rewrite Q, app_length in B.
  specialize (R (LBg true) I). cbn in R. unfold bg_step in R. unfold bg_gone in G.
  destruct (s_bg s) eqn:Eb; try discriminate P; try (destruct (K eq_refl)); try (destruct (G eq_refl)).
  - destruct (s_inbox s); [apply app_nil_r|discriminate R].
  - destruct (s_rx_alive s); [|discriminate R].
    destruct (Nat.ltb_spec (length (s_rxq s)) channel_cap) as [L|L]; [discriminate R|unfold channel_cap in L; lia].
Qed.
