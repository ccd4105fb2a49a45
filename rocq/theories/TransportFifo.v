(** Waiting for a mutex that serves in order. *)
From Verif Require Import Base Addresses Apdu Tunneling Emi Core Transport Wire Spec TraceSpec LiveSpec PromptSpec FifoSpec
  TransportBase TransportInv TransportCalls TransportReturn TransportThm TransportThm2 TransportThm3 TransportReads TransportFair TransportPrompt TransportPrompt2.
From Coq Require Import Lia ZifyBool ZifyNat ZifyN.
Open Scope N_scope.

(** ** The line *)
Definition drop (u : nat) (w : list nat) : list nat := filter (fun x => negb (Nat.eqb x u)) w.
Lemma line_app a b : line (a ++ b) = fold_left step_in_line (evs b) (line a).
Proof. unfold line. rewrite evs_app, fold_left_app. reflexivity. Qed.
Lemma line_other es : (forall u, filter (call_event u) es = []) -> forall w, fold_left step_in_line es w = w.
Proof.
  induction es as [|e es IH]; [reflexivity|]. intros H w. cbn [fold_left].
  assert (E : step_in_line w e = w).
  { destruct e; try reflexivity; match goal with |- context [step_in_line _ (?k ?u _)] => specialize (H u) | |- context [step_in_line _ (?k ?u _ _)] => specialize (H u) end;
      cbn in H; rewrite Nat.eqb_refl in H; discriminate H. }
  rewrite E. apply IH. intro u. specialize (H u). cbn in H. destruct (call_event u e); [discriminate H|exact H].
Qed.
Definition quiet (e : event) : bool := match e with EvInvoke _ _ | EvRet _ _ _ | EvPanic _ _ | EvCancel _ _ => false | _ => true end.
Lemma line_quiet es : forallb quiet es = true -> forall w, fold_left step_in_line es w = w.
Proof.
  induction es as [|e es IH]; [reflexivity|]. cbn [forallb fold_left]. intros H w. apply andb_prop in H. destruct H as [H1 H2].
  destruct e; try discriminate H1; exact (IH H2 w).
Qed.
(** What a call of reads and writes does to the mutex and to its timer. *)
Definition transfer_pc (pc : client_pc) : Prop := forall o, pc_op pc = Some o -> is_transfer o.
Definition timed (pc : client_pc) : bool := match pc with CWaitQ _ _ => true | _ => false end.
Inductive move (s s' : sys) (l : label) (es : list event) (u : nat) : Prop :=
| mv_refused o : s_clients s u = CIdle -> s_clients s' u = CIdle -> s_tlock s' = s_tlock s -> es = [EvInvoke u o; EvPanic u o] -> move s s' l es u
| mv_made o : s_clients s u = CIdle -> s_clients s' u = CLock o -> s_tlock s' = s_tlock s -> es = [EvInvoke u o] -> move s s' l es u
| mv_got ok : l = LCl u ok -> in_queue s u = true -> s_tlock s = None -> holds (s_clients s' u) = true -> timed (s_clients s' u) = false ->
    s_tlock s' = Some u -> es = [] -> move s s' l es u
| mv_left es0 e : s_clients s u <> CIdle -> s_clients s' u = CIdle -> s_tlock s' = (if holds (s_clients s u) then None else s_tlock s) ->
    es = es0 ++ [e] -> forallb quiet es0 = true -> (forall w, step_in_line w e = drop u w) -> call_end u e = true -> move s s' l es u
| mv_on : holds (s_clients s u) = true -> timed (s_clients s u) = false -> holds (s_clients s' u) = true -> timed (s_clients s' u) = false ->
    s_tlock s' = s_tlock s -> forallb quiet es = true -> move s s' l es u
| mv_sent o : holds (s_clients s u) = true -> timed (s_clients s u) = false -> s_clients s' u = CWaitQ o (s_now s + 10000) -> is_transfer o ->
    s_tlock s' = s_tlock s -> forallb quiet es = true -> move s s' l es u
| mv_again o dl m : s_clients s u = CWaitQ o dl -> s_clients s' u = CWaitQ o (s_now s + 10000) -> is_transfer o ->
    s_tlock s' = s_tlock s -> es = [EvDeq u m] -> move s s' l es u.
Lemma unlock_held s u : s_tlock s = Some u -> s_tlock (unlock s u) = None.
Proof. intro E. unfold unlock. rewrite E, Nat.eqb_refl. reflexivity. Qed.
Lemma unlock_not_held s u : s_tlock s <> Some u -> s_tlock (unlock s u) = s_tlock s.
Proof. intro N. unfold unlock. destruct (s_tlock s) as [v|] eqn:E; [|exact E]. destruct (Nat.eqb_spec v u); [congruence|exact E]. Qed.
Lemma call_moves c s l s' es u :
  step c s l = Some (s', es) -> call_label l = Some u ->
  (holds (s_clients s u) = true <-> s_tlock s = Some u) -> pc_fits (s_clients s u) = true -> transfer_pc (s_clients s u) ->
  (forall o, In (EvInvoke u o) es -> is_transfer o) -> move s s' l es u.
Proof.
  intros Hs D L F T N. unfold in_queue.
  assert (U : forall x, s_tlock x = s_tlock s -> s_tlock (unlock x u) = if holds (s_clients s u) then None else s_tlock s).
  { intros x X. destruct (holds (s_clients s u)) eqn:Hh; [apply unlock_held; rewrite X; apply L; reflexivity|].
    rewrite unlock_not_held, X; [reflexivity|]. rewrite X. intro Y. apply L in Y. discriminate Y. }
  assert (TC : forall o, pc_op (s_clients s u) = Some o -> match o with ORead _ | OWrite _ _ _ => True | _ => False end) by (intros o Ho; specialize (T o Ho); destruct o; exact T).
  destruct l; try discriminate D; injection D as ->; inv_step Hs;
    try (specialize (TC _ eq_refl); contradiction); try discriminate F.
  all: cbn [holds] in L, U.
  all: first
    [ eapply mv_made; [eassumption|sysb; apply upd_same|reflexivity|reflexivity]
    | eapply mv_refused; [eassumption|eassumption|reflexivity|reflexivity]
    | eapply mv_left with (es0 := []); [congruence|sysb; apply upd_same|sysb; match goal with G : s_clients _ _ = _ |- _ => rewrite G | _ => idtac end; apply U; reflexivity|reflexivity|reflexivity|reflexivity|cbn; apply Nat.eqb_refl]
    | eapply mv_left with (es0 := [_]); [congruence|sysb; apply upd_same|sysb; match goal with G : s_clients _ _ = _ |- _ => rewrite G | _ => idtac end; apply U; reflexivity|reflexivity|reflexivity|reflexivity|cbn; apply Nat.eqb_refl]
    | eapply mv_left with (es0 := []); [congruence|sysb; apply upd_same|sysb; rewrite unlock_held by reflexivity; match goal with G : s_clients _ _ = _ |- _ => rewrite G end; cbn; congruence|reflexivity|reflexivity|reflexivity|cbn; apply Nat.eqb_refl]
    | eapply mv_sent; [match goal with G : s_clients _ _ = _ |- _ => rewrite G end; reflexivity|match goal with G : s_clients _ _ = _ |- _ => rewrite G end; reflexivity|sysb; apply upd_same|exact I|reflexivity|reflexivity]
    | eapply mv_again; [eassumption|sysb; apply upd_same|exact I|reflexivity|reflexivity]
    | eapply mv_got; [reflexivity|unfold in_queue; match goal with G : s_clients _ _ = _ |- _ => rewrite G end; reflexivity|assumption|sysb; rewrite upd_same; reflexivity|sysb; rewrite upd_same; reflexivity|reflexivity|reflexivity]
    | apply mv_on; first [match goal with G : s_clients _ _ = _ |- _ => rewrite G end; reflexivity|sysb; rewrite ?upd_same; reflexivity]
    | idtac ].
  eapply mv_left with (es0 := []); [|sysb; apply upd_same|sysb; apply U; reflexivity|reflexivity|reflexivity|reflexivity|cbn; apply Nat.eqb_refl].
  intro X. rewrite X in Heqo. discriminate Heqo.
Qed.
(** The same for any call, as far as the line is concerned. *)
Lemma call_line c s l s' es u w :
  step c s l = Some (s', es) -> call_label l = Some u ->
  (s_clients s u = CIdle /\ s_clients s' u = CIdle /\ fold_left step_in_line es w = drop u (w ++ [u])) \/
  (s_clients s u = CIdle /\ in_queue s' u = true /\ fold_left step_in_line es w = w ++ [u]) \/
  (s_clients s u <> CIdle /\ s_clients s' u = CIdle /\ fold_left step_in_line es w = drop u w) \/
  (s_clients s u <> CIdle /\ s_clients s' u <> CIdle /\ in_queue s' u = false /\ fold_left step_in_line es w = w).
Proof.
  intros Hs D. unfold in_queue. destruct l; try discriminate D; injection D as ->; inv_step Hs; sysb; rewrite ?unlock_clients; sysb; rewrite ?upd_same;
    first [right; left; split; [congruence|split; [reflexivity|reflexivity]]
          |right; right; left; split; [congruence|split; [reflexivity|reflexivity]]
          |right; right; right; split; [congruence|split; [congruence|split; [reflexivity|reflexivity]]]
          |left; split; [congruence|split; [congruence|reflexivity]]|idtac].
  right. right. left. split; [|split; reflexivity]. intro X. rewrite X in Heqo. discriminate Heqo.
Qed.
Lemma drop_in u w x : In x (drop u w) <-> In x w /\ x <> u.
Proof. unfold drop. rewrite filter_In. destruct (Nat.eqb_spec x u); cbn; intuition congruence. Qed.
Lemma drop_nodup u w : NoDup w -> NoDup (drop u w).
Proof. apply NoDup_filter. Qed.
Lemma drop_not_in u w : ~ In u w -> drop u w = w.
Proof.
  intro N. unfold drop. apply filter_all. apply forallb_forall. intros x I. destruct (Nat.eqb_spec x u) as [->|]; [contradiction|reflexivity].
Qed.
Lemma drop_last u w : ~ In u w -> drop u (w ++ [u]) = w.
Proof.
  intro N. unfold drop. rewrite filter_app. cbn. rewrite Nat.eqb_refl. cbn. rewrite app_nil_r. exact (drop_not_in _ _ N).
Qed.
Lemma nodup_last (w : list nat) u : NoDup w -> ~ In u w -> NoDup (w ++ [u]).
Proof.
  intros N I. pose proof (Add_app u w []) as A. rewrite app_nil_r in A. apply (NoDup_Add A). split; assumption.
Qed.
Lemma line_step c s l s' es w :
  step c s l = Some (s', es) -> call_label l = None -> fold_left step_in_line es w = w /\ s_clients s' = s_clients s.
Proof.
  intros Hs Hc. split.
  - apply line_other. intro u. eapply step_call_events; [exact Hs|rewrite Hc; discriminate].
  - destruct (bg_label l) eqn:Hb; [apply (bg_frame _ _ _ _ _ Hs Hb)|apply (env_frame _ _ _ _ _ Hs Hb Hc)].
Qed.
Lemma line_inv c start ls tr s : exec c start ls tr s -> NoDup (line tr) /\ forall t, In t (line tr) <-> s_clients s t <> CIdle.
Proof.
  revert tr s. apply exec_inv; [split; [constructor|cbn; intuition]|].
  intros tr s l s' es H [I1 I2] Hs. rewrite line_app, evs_stamp.
  destruct (call_label l) as [u|] eqn:Hc.
  - destruct (call_frame _ _ _ _ _ _ Hs Hc) as (_&_&_&_&_&_&Eo&_).
    assert (O : forall P : nat -> Prop, (P u <-> s_clients s' u <> CIdle) -> (forall t, t <> u -> (P t <-> In t (line tr))) -> forall t, P t <-> s_clients s' t <> CIdle).
    { intros P P1 P2 t. destruct (Nat.eq_dec t u) as [->|N]; [exact P1|]. rewrite (P2 t N), I2, (Eo t N). reflexivity. }
    destruct (call_line _ _ _ _ _ _ (line tr) Hs Hc) as [(A&B&->)|[(A&B&->)|[(A&B&->)|(A&B&_&->)]]].
    + assert (Nu : ~ In u (line tr)) by (rewrite I2; intuition). rewrite drop_last by exact Nu. split; [exact I1|].
      apply O; [|reflexivity]. rewrite I2. rewrite A, B. reflexivity.
    + assert (Nu : ~ In u (line tr)) by (rewrite I2; intuition). split; [apply nodup_last; assumption|].
      apply O; [|intros t N; rewrite in_app_iff; cbn; intuition congruence].
      split; [|intros _; apply in_or_app; right; left; reflexivity]. intros _ X. unfold in_queue in B. rewrite X in B. discriminate B.
    + split; [apply drop_nodup, I1|]. apply O; [rewrite drop_in, B; intuition|]. intros t N. rewrite drop_in. intuition.
    + split; [exact I1|]. apply O; [rewrite I2; intuition|reflexivity].
  - destruct (line_step _ _ _ _ _ (line tr) Hs Hc) as [-> ->]. auto.
Qed.

(** ** Who is ahead *)
Fixpoint before (t : nat) (w : list nat) : list nat :=
  match w with
  | [] => []
  | u :: r => if Nat.eqb u t then [] else u :: before t r
  end.
Definition ahead (t : nat) (w : list nat) (s : sys) : nat := length (filter (in_queue s) (before t w)).
Lemma before_last t w v : In t w -> before t (w ++ v) = before t w.
Proof.
  induction w as [|u w IH]; [intros []|]. cbn. intro I. destruct (Nat.eqb_spec u t); [reflexivity|]. rewrite IH by intuition. reflexivity.
Qed.
Lemma before_drop t u w : u <> t -> before t (drop u w) = drop u (before t w).
Proof.
  intro N. unfold drop in *. induction w as [|x w IH]; [reflexivity|]. cbn. destruct (Nat.eqb_spec x u) as [->|M]; cbn.
  - destruct (Nat.eqb_spec u t); [contradiction|]. cbn. rewrite Nat.eqb_refl. exact IH.
  - destruct (Nat.eqb_spec x t); [reflexivity|]. cbn. destruct (Nat.eqb_spec x u); [contradiction|]. cbn. rewrite IH. reflexivity.
Qed.
Lemma before_new t w : ~ In t w -> before t (w ++ [t]) = w.
Proof.
  induction w as [|u w IH]; cbn; [rewrite Nat.eqb_refl; reflexivity|]. intro I. destruct (Nat.eqb_spec u t); [intuition|]. rewrite IH; intuition.
Qed.
Lemma find_before f t w u : find f w = Some u -> In t w -> f t = true -> u <> t -> In u (before t w).
Proof.
  induction w as [|x w IH]; [discriminate|]. cbn. intros Fd I Ft N. destruct (f x) eqn:E.
  - injection Fd as ->. destruct (Nat.eqb_spec u t); [contradiction|]. left. reflexivity.
  - destruct (Nat.eqb_spec x t) as [->|]; [congruence|]. right. apply IH; intuition.
Qed.
Lemma count_le (f g : nat -> bool) w : (forall x, In x w -> g x = true -> f x = true) -> (length (filter g w) <= length (filter f w))%nat.
Proof.
  induction w as [|x w IH]; [intros; cbn; lia|]. intro H. specialize (IH ltac:(intros y I; apply H; right; exact I)). cbn.
  specialize (H x (or_introl eq_refl)). destruct (g x), (f x); cbn; try lia; try discriminate (H eq_refl).
Qed.
Lemma count_lt (f g : nat -> bool) w u : (forall x, In x w -> g x = true -> f x = true) -> In u w -> f u = true -> g u = false ->
  (length (filter g w) + 1 <= length (filter f w))%nat.
Proof.
  induction w as [|x w IH]; [intros _ []|]. intros H I Fu Gu. pose proof (count_le f g w ltac:(intros y J; apply H; right; exact J)) as L.
  assert (H' : forall y, In y w -> g y = true -> f y = true) by (intros y J; apply H; right; exact J).
  specialize (H x (or_introl eq_refl)). cbn. destruct I as [->|I]; [rewrite Fu, Gu; cbn; lia|].
  specialize (IH H' I Fu Gu). destruct (g x), (f x); cbn; try lia; try discriminate (H eq_refl).
Qed.
Lemma filter_drop f u w : (length (filter f (drop u w)) <= length (filter f w))%nat.
Proof.
  unfold drop. induction w as [|x w IH]; [reflexivity|]. cbn. destruct (Nat.eqb_spec x u); cbn; destruct (f x); cbn; lia.
Qed.

(** ** How long a call waits *)
Lemma orderly_prompt c start ls tr s : orderly c start ls tr s -> prompt c start ls tr s.
Proof. induction 1; [constructor|econstructor; eassumption]. Qed.
Lemma only_prefix a b : only_transfers (a ++ b) -> only_transfers a.
Proof. intros H t o I. apply (H t o). rewrite evs_app. apply in_or_app. left. exact I. Qed.
Lemma pcs_transfer c start ls tr s u : exec c start ls tr s -> only_transfers tr -> transfer_pc (s_clients s u).
Proof.
  intros H O o P. destruct (hist_in_call _ _ _ _ _ _ _ H P) as (body&h&n&Ec&_). apply (O u o). apply in_evs. exists n.
  apply (proj1 (filter_In (fun x => call_event u (snd x)) (n, EvInvoke u o) tr)). fold (call_events u tr). rewrite Ec. apply in_or_app. right. left. reflexivity.
Qed.
Lemma deadline_near c start ls tr s : exec c start ls tr s -> forall u o dl, s_clients s u = CWaitQ o dl -> dl <= s_now s + 10000.
Proof.
  revert tr s. apply (exec_inv c start ls (fun _ s => forall u o dl, s_clients s u = CWaitQ o dl -> dl <= s_now s + 10000)); [discriminate|].
  intros tr s l s' es H IH Hs u o dl P. destruct (call_label l) as [v|] eqn:Hc.
  - destruct (call_frame _ _ _ _ _ _ Hs Hc) as (En&_&_&_&_&_&Eo&_). rewrite En. destruct (Nat.eq_dec u v) as [->|N]; [|rewrite Eo in P by exact N; exact (IH _ _ _ P)].
    specialize (IH v). destruct l; try discriminate Hc; injection Hc as ->; inv_step Hs; sysb_in P; rewrite ?unlock_clients in P; sysb_in P; rewrite ?upd_same in P;
      try discriminate P; try congruence; injection P as <- <-; unfold ms_api; lia.
  - destruct (line_step _ _ _ _ _ [] Hs Hc) as [_ E]. rewrite E in P. specialize (IH _ _ _ P).
    destruct (bg_label l) eqn:Hb; [destruct (bg_frame _ _ _ _ _ Hs Hb) as (->&_); exact IH|].
    destruct (env_frame _ _ _ _ _ Hs Hb Hc) as (_&_&_&_&_&_&_&X&_). lia.
Qed.
Definition budget (B : N) (t : nat) (w : list nat) (s : sys) : Prop :=
  match s_clients s t with
  | CIdle => False
  | CLock _ =>
      match s_tlock s with
      | None => s_now s + 10000 * (N.of_nat (ahead t w s) + 1) <= B
      | Some u =>
          match s_clients s u with
          | CWaitQ _ dl => dl + 10000 * (N.of_nat (ahead t w s) + 1) <= B
          | _ => s_now s + 10000 * (N.of_nat (ahead t w s) + 2) <= B
          end
      end
  | CWaitQ _ dl => dl <= B
  | _ => s_now s + 10000 <= B
  end.
Lemma budget_more B B' t w s : budget B t w s -> B <= B' -> budget B' t w s.
Proof. unfold budget. intros H L. destruct (s_clients s t); try lia. destruct (s_tlock s) as [u|]; [destruct (s_clients s u)|]; lia. Qed.
(** The part about the mutex. *)
Definition ration (B a : N) (s : sys) : Prop :=
  match s_tlock s with
  | None => s_now s + 10000 * (a + 1) <= B
  | Some u => match s_clients s u with CWaitQ _ dl => dl + 10000 * (a + 1) <= B | _ => s_now s + 10000 * (a + 2) <= B end
  end.
Lemma ration_less B a a' s : ration B a s -> a' <= a -> ration B a' s.
Proof. unfold ration. intros H L. destruct (s_tlock s) as [u|]; [destruct (s_clients s u)|]; lia. Qed.
Lemma budget_lock B t w s : in_queue s t = true -> (budget B t w s <-> ration B (N.of_nat (ahead t w s)) s).
Proof. unfold budget, ration, in_queue. destruct (s_clients s t); try discriminate. reflexivity. Qed.
Lemma goes_on c start ls tr s t dt :
  exec c start ls tr s -> c_mode c = MClient -> s_rx_alive s = true -> waits (s_clients s t) = false ->
  (in_queue s t = true -> s_tlock s = None) -> lets_pass c s dt -> dt = 0.
Proof.
  intros H Hm Ha W O L. destruct (N.eq_dec dt 0) as [->|D]; [reflexivity|exfalso].
  pose proof (lets_last _ _ _ L D (LCl t true) I) as R. cbn in R. rewrite Ha in R. unfold cl_step in R. sysb_in R.
  assert (NL : forall m, cd_locked (set_now s m) = false).
  { intro m. exact (client_not_locked _ _ _ _ _ H Hm). }
  unfold in_queue in O.
  destruct (s_clients s t) as [|o|o pkt|o pkt seq|o|o ch|o bs|o dl|o| |] eqn:Ep; try discriminate W; rewrite ?NL in R.
  - rewrite (O eq_refl) in R. unfold after_lock in R. destruct o; unfold goto, crash in R; try discriminate R; destruct (op_cemi _ _); discriminate R.
  - destruct (s_conn s); discriminate R.
  - destruct (s_conn s); [destruct (tunneling_request_packet _ _)|]; discriminate R.
  - destruct (s_conn s); discriminate R.
  - destruct (s_conn s); discriminate R.
  - destruct (hist_inv _ _ _ _ _ H t) as (h&cur&_&_&Hh). rewrite Ep in Hh. cbn [hist] in Hh.
    destruct Hh as [(Hh&_)|(Hh&_)]; destruct o; discriminate.
  - discriminate R.
  - discriminate R.
Qed.
(** Only the clock moves. *)
Lemma time_budget c start ls tr s t dt B w :
  prompt c start ls tr s -> c_mode c = MClient -> s_rx_alive s = true -> only_transfers tr -> lets_pass c s dt ->
  budget B t w s -> budget B t w (set_now s (s_now s + dt)).
Proof.
  intros HP Hm Ha O L Hb. pose proof (prompt_exec _ _ _ _ _ HP) as H.
  assert (Z : dt = 0 -> budget B t w (set_now s (s_now s + dt))).
  { intros ->. rewrite N.add_0_r. destruct s; exact Hb. }
  pose proof (pc_fits_inv _ _ _ _ _ H) as Ft. pose proof (fun u => pcs_transfer _ _ _ _ _ u H O) as Tt.
  assert (NS : forall u o, s_clients s u <> CWaitSock o).
  { intros u o E. specialize (Ft u). specialize (Tt u o). rewrite E in Ft, Tt. specialize (Tt eq_refl). destruct o; try discriminate Ft; exact Tt. }
  destruct (waits (s_clients s t)) eqn:W.
  - unfold budget in *. sysb. destruct (s_clients s t) eqn:E; try discriminate W; try contradiction; try exact Hb. destruct (NS _ _ E).
  - destruct (in_queue s t) eqn:Q.
    + destruct (s_tlock s) as [u|] eqn:T; [|apply Z; eapply goes_on; eauto].
      assert (Hu : holds (s_clients s u) = true) by (apply (lock_inv _ _ _ _ _ H), T).
      destruct (waits (s_clients s u)) eqn:Wu.
      * rewrite budget_lock in Hb by exact Q. rewrite budget_lock by exact Q.
        unfold ration in *. sysb. rewrite T in *. destruct (s_clients s u) eqn:E; try discriminate Wu; try discriminate Hu; [exact Hb|]. destruct (NS _ _ E).
      * apply Z. eapply goes_on with (t := u); eauto. intro Qu. unfold in_queue in Qu. destruct (s_clients s u); try discriminate Qu. discriminate Hu.
    + apply Z. eapply goes_on with (t := t); eauto. rewrite Q. discriminate.
Qed.
Lemma budget_on B t w s : holds (s_clients s t) = true -> timed (s_clients s t) = false -> (budget B t w s <-> s_now s + 10000 <= B).
Proof. unfold budget. destruct (s_clients s t); try discriminate; reflexivity. Qed.
Lemma budget_timed B t w s o dl : s_clients s t = CWaitQ o dl -> (budget B t w s <-> dl <= B).
Proof. unfold budget. intros ->. reflexivity. Qed.
Lemma ration_free B a s : s_tlock s = None -> (ration B a s <-> s_now s + 10000 * (a + 1) <= B).
Proof. unfold ration. intros ->. reflexivity. Qed.
Lemma ration_on B a s u : s_tlock s = Some u -> timed (s_clients s u) = false -> (ration B a s <-> s_now s + 10000 * (a + 2) <= B).
Proof. unfold ration. intros ->. destruct (s_clients s u); try discriminate; reflexivity. Qed.
Lemma ration_timed B a s u o dl : s_tlock s = Some u -> s_clients s u = CWaitQ o dl -> (ration B a s <-> dl + 10000 * (a + 1) <= B).
Proof. unfold ration. intros -> ->. reflexivity. Qed.
Lemma ration_more B k a s : ration B a s -> ration (B + k) a s.
Proof. unfold ration. destruct (s_tlock s) as [v|]; [destruct (s_clients s v)|]; lia. Qed.
(** The mutex is given back. *)
Lemma ration_back B a s s' u :
  s_tlock s = Some u -> s_tlock s' = None -> s_now s' = s_now s -> (forall o dl, s_clients s u = CWaitQ o dl -> s_now s <= dl) -> ration B a s -> ration B a s'.
Proof.
  intros T T' En W R. rewrite ration_free by exact T'. rewrite En. destruct (timed (s_clients s u)) eqn:E.
  - destruct (s_clients s u) eqn:P; try discriminate E. specialize (W _ _ eq_refl). rewrite (ration_timed _ _ _ _ _ _ T P) in R. lia.
  - rewrite (ration_on _ _ _ _ T E) in R. lia.
Qed.
(** The call that has waited longest gets it. *)
Lemma ration_given B a a' s s' u :
  s_tlock s = None -> s_tlock s' = Some u -> timed (s_clients s' u) = false -> s_now s' = s_now s -> (a' + 1 <= a)%nat ->
  ration B (N.of_nat a) s -> ration B (N.of_nat a') s'.
Proof. intros T T' Tm En L R. rewrite ration_free in R by exact T. rewrite (ration_on _ _ _ _ T' Tm), En. lia. Qed.
Lemma of_nat_le (a b : nat) : (a <= b)%nat -> N.of_nat a <= N.of_nat b.
Proof. lia. Qed.
Lemma taken_app a b : taken (a ++ b) = taken a ++ taken b.
Proof. unfold taken. apply flat_map_app. Qed.
Lemma ahead_other t w s s' : s_clients s' = s_clients s -> ahead t w s' = ahead t w s.
Proof. intro E. unfold ahead, in_queue. rewrite E. reflexivity. Qed.
(** A message that does not end the call that takes it. *)
Definition extra (es : list event) : N := match es with [EvDeq _ _] => 1 | _ => 0 end.
Lemma extra_taken n es : extra es <= N.of_nat (length (taken (stamp n es))).
Proof. destruct es as [|[] [|]]; cbn; lia. Qed.
Lemma extra_read c s l s' es : step c s l = Some (s', es) -> extra es <> 0 -> exists u o, pc_op (s_clients s u) = Some o /\ ~ is_write o.
Proof.
  intros Hs X. destruct (call_label l) as [u|] eqn:Hc.
  - exists u. destruct l; try discriminate Hc; injection Hc as ->; inv_step Hs; try (destruct X; reflexivity); eexists; (split; [reflexivity|exact (fun f => f)]).
  - exfalso. destruct (bg_label l) eqn:Hb.
    + destruct (bg_frame _ _ _ _ _ Hs Hb) as (_&_&_&_&F). destruct es as [|[] [|]]; try (apply X; reflexivity). discriminate F.
    + destruct (env_frame _ _ _ _ _ Hs Hb Hc) as (_&_&_&_&_&_&_&_&[(d&->&_)|(->&_)]); apply X; reflexivity.
Qed.
Lemma budget_step c start ls tr s t l s' es B :
  prompt c start ls tr s -> c_mode c = MClient -> s_rx_alive s' = true -> only_transfers (tr ++ stamp (s_now s) es) ->
  step c s l = Some (s', es) -> next_in_line tr s l -> (forall dt, l = LTime dt -> lets_pass c s dt) ->
  (forall e, In e es -> call_end t e = false) ->
  budget B t (line tr) s ->
  budget (B + 10000 * extra es) t (line (tr ++ stamp (s_now s) es)) s'.
Proof.
  intros HP Hm Ha O Hs FI HT NE Hb. pose proof (prompt_exec _ _ _ _ _ HP) as H.
  pose proof (alive_back _ _ _ _ _ Hs Ha) as Ha0. pose proof (only_prefix _ _ O) as O0.
  destruct (line_inv _ _ _ _ _ H) as [ND LI].
  rewrite line_app, evs_stamp. destruct (call_label l) as [u|] eqn:Hc.
  - pose proof (call_moves _ _ _ _ _ _ Hs Hc (lock_inv _ _ _ _ _ H u) (pc_fits_inv _ _ _ _ _ H u) (pcs_transfer _ _ _ _ _ u H O0)
      ltac:(intros o I; apply (O u o); rewrite evs_app, evs_stamp; apply in_or_app; right; exact I)) as M.
    destruct (call_frame _ _ _ _ _ _ Hs Hc) as (En&_&_&_&_&_&Eo&_).
    assert (WI : forall v o dl, s_clients s v = CWaitQ o dl -> s_now s <= dl).
    { intros v o dl E. apply (waiting_inv _ _ _ _ _ HP Ha0 v o dl E). apply (pcs_transfer _ _ _ _ _ v H O0). rewrite E. reflexivity. }
    destruct (Nat.eq_dec u t) as [->|N].
    + (* the call itself *)
      destruct M as [o P1 P2 T E|o P1 P2 T E|ok El Q T P1 P2 T' E|es0 e P1 P2 T E Eq Ed Ee|P1 P2 P3 P4 T E|o P1 P2 P3 Ho T E|o dl m P1 P2 Ho T E].
      * unfold budget in Hb. rewrite P1 in Hb. destruct Hb.
      * unfold budget in Hb. rewrite P1 in Hb. destruct Hb.
      * eapply budget_more; [|apply N.le_add_r]. rewrite budget_lock in Hb by exact Q. rewrite ration_free in Hb by exact T.
        rewrite budget_on by assumption. rewrite En. clear -Hb. lia.
      * rewrite (NE e) in Ee by (rewrite E; apply in_or_app; right; left; reflexivity). discriminate Ee.
      * eapply budget_more; [|apply N.le_add_r]. rewrite budget_on in Hb by assumption. rewrite budget_on by assumption. rewrite En. exact Hb.
      * eapply budget_more; [|apply N.le_add_r]. rewrite budget_on in Hb by assumption. rewrite (budget_timed _ _ _ _ _ _ P3). exact Hb.
      * rewrite (budget_timed _ _ _ _ _ _ P1) in Hb. rewrite (budget_timed _ _ _ _ _ _ P2). specialize (WI _ _ _ P1). rewrite E. cbn [extra]. clear -Hb WI. lia.
    + (* another call *)
      assert (Pt : s_clients s' t = s_clients s t) by (apply Eo; congruence).
      destruct (in_queue s t) eqn:Q.
      2:{ eapply budget_more; [|apply N.le_add_r]. unfold budget, in_queue in *. rewrite Pt, En. destruct (s_clients s t); try discriminate Q; exact Hb. }
      assert (Q' : in_queue s' t = true) by (unfold in_queue in *; rewrite Pt; exact Q).
      rewrite budget_lock in Hb by exact Q. rewrite budget_lock by exact Q'.
      assert (It : In t (line tr)) by (apply LI; unfold in_queue in Q; destruct (s_clients s t); discriminate).
      assert (Le : forall w, (in_queue s' u = true -> in_queue s u = true \/ ~ In u w) -> (length (filter (in_queue s') w) <= length (filter (in_queue s) w))%nat).
      { intros w Hw. apply count_le. intros x Ix Gx. destruct (Nat.eq_dec x u) as [->|Nx].
        - destruct (Hw Gx); [assumption|contradiction].
        - unfold in_queue in *. rewrite Eo in Gx by exact Nx. exact Gx. }
      assert (Hold : forall v, s_tlock s = Some v -> holds (s_clients s v) = true) by (intros v; apply (lock_inv _ _ _ _ _ H)).
      assert (Lu : holds (s_clients s u) = true -> s_tlock s = Some u) by (apply (lock_inv _ _ _ _ _ H)).
      assert (Nh : forall v, holds (s_clients s u) = false -> s_tlock s = Some v -> v <> u).
      { intros v Hf T ->. rewrite (Hold _ T) in Hf. discriminate Hf. }
      assert (Same : holds (s_clients s u) = false -> s_tlock s' = s_tlock s -> forall a, ration B a s -> ration B a s').
      { intros Hf T a R. unfold ration in *. rewrite T, En. destruct (s_tlock s) as [v|] eqn:Ev; [|exact R].
        rewrite Eo by (eapply Nh; eauto). exact R. }
      destruct M as [o P1 P2 T E|o P1 P2 T E|ok El Qu T P1 P2 T' E|es0 e P1 P2 T E Eq Ed Ee|P1 P2 P3 P4 T E|o P1 P2 P3 Ho T E|o dl m P1 P2 Ho T E].
      * apply ration_more. apply Same; [rewrite P1; reflexivity|exact T|]. eapply ration_less; [exact Hb|]. rewrite E. cbn [fold_left step_in_line].
        assert (Nu : ~ In u (line tr)) by (rewrite LI, P1; intuition). change (filter (fun u0 => negb (Nat.eqb u0 u)) (line tr ++ [u])) with (drop u (line tr ++ [u])).
        rewrite drop_last by exact Nu. unfold ahead. pose proof (Le (before t (line tr))) as X.
        assert (Y : in_queue s' u = true -> in_queue s u = true \/ ~ In u (before t (line tr))) by (unfold in_queue; rewrite P2; discriminate). specialize (X Y). clear -X. lia.
      * apply ration_more. apply Same; [rewrite P1; reflexivity|exact T|]. eapply ration_less; [exact Hb|]. rewrite E. cbn [fold_left step_in_line].
        assert (Nu : ~ In u (line tr)) by (rewrite LI, P1; intuition). unfold ahead. rewrite before_last by exact It.
        pose proof (Le (before t (line tr))) as X.
        assert (Y : in_queue s' u = true -> in_queue s u = true \/ ~ In u (before t (line tr))).
        { intros _. right. intro Z. apply Nu. clear -Z. induction (line tr) as [|x w IH]; [destruct Z|]. cbn in Z. destruct (Nat.eqb x t); [destruct Z|]. destruct Z as [->|Z]; [left; reflexivity|right; auto]. }
        specialize (X Y). clear -X. lia.
      * apply ration_more. rewrite E. cbn [fold_left].
        pose proof (FI u ok El Qu) as Fd. pose proof (find_before _ _ _ _ Fd It Q N) as Ib.
        assert (X : (ahead t (line tr) s' + 1 <= ahead t (line tr) s)%nat).
        { unfold ahead. apply count_lt with (u := u); [|exact Ib|exact Qu|unfold in_queue; destruct (s_clients s' u); try reflexivity; discriminate P1].
          intros x Ix Gx. destruct (Nat.eq_dec x u) as [->|Nx]; [exact Qu|]. unfold in_queue in *. rewrite Eo in Gx by exact Nx. exact Gx. }
        exact (ration_given _ _ _ _ _ _ T T' P2 En X Hb).
      * apply ration_more. assert (X : (ahead t (fold_left step_in_line es (line tr)) s' <= ahead t (line tr) s)%nat).
        { rewrite E, fold_left_app, (line_quiet _ Eq). cbn [fold_left]. rewrite Ed. unfold ahead. rewrite before_drop by exact N.
          eapply Nat.le_trans; [apply filter_drop|]. apply Le. unfold in_queue. rewrite P2. discriminate. }
        eapply ration_less; [|apply of_nat_le, X].
        destruct (holds (s_clients s u)) eqn:Hh; [|apply Same; auto].
        eapply ration_back; [exact (Lu eq_refl)|exact T|exact En|intros o dl; apply WI|exact Hb].
      * apply ration_more. rewrite (line_quiet _ E). assert (X : (ahead t (line tr) s' <= ahead t (line tr) s)%nat).
        { apply Le. unfold in_queue. destruct (s_clients s' u); try discriminate; discriminate P3. }
        eapply ration_less; [|apply of_nat_le, X]. rewrite (ration_on _ _ _ _ (Lu P1) P2) in Hb.
        rewrite (Lu P1) in T. rewrite (ration_on _ _ _ _ T P4), En. exact Hb.
      * apply ration_more. rewrite (line_quiet _ E). assert (X : (ahead t (line tr) s' <= ahead t (line tr) s)%nat).
        { apply Le. unfold in_queue. rewrite P3. discriminate. }
        eapply ration_less; [|apply of_nat_le, X]. rewrite (ration_on _ _ _ _ (Lu P1) P2) in Hb.
        rewrite (Lu P1) in T. rewrite (ration_timed _ _ _ _ _ _ T P3). clear -Hb. lia.
      * rewrite E. cbn [fold_left step_in_line]. assert (X : (ahead t (line tr) s' <= ahead t (line tr) s)%nat).
        { apply Le. unfold in_queue. rewrite P2. discriminate. }
        assert (Hh : holds (s_clients s u) = true) by (rewrite P1; destruct o; destruct Ho; reflexivity).
        eapply ration_less; [|apply of_nat_le, X]. rewrite (ration_timed _ _ _ _ _ _ (Lu Hh) P1) in Hb.
        rewrite (Lu Hh) in T. rewrite (ration_timed _ _ _ _ _ _ T P2). specialize (WI _ _ _ P1). cbn [extra]. clear -Hb WI. lia.
  - destruct (line_step _ _ _ _ _ (line tr) Hs Hc) as [-> Ec].
    eapply budget_more; [|apply N.le_add_r].
    assert (D : (exists dt, l = LTime dt) \/ forall dt, l <> LTime dt) by (destruct l; eauto; right; discriminate).
    destruct D as [(dt&->)|D].
    + injection Hs as <- _. eapply time_budget; eauto.
    + assert (En : s_now s' = s_now s) by (eapply other_now; eauto).
      assert (Et : s_tlock s' = s_tlock s).
      { destruct (bg_label l) eqn:Hl; [apply (bg_frame _ _ _ _ _ Hs Hl)|apply (env_frame _ _ _ _ _ Hs Hl Hc)]. }
      unfold budget in *. rewrite (ahead_other _ _ _ _ Ec), Ec, Et, En. exact Hb.
Qed.
Lemma all_true (w : list nat) : filter (fun _ => true) w = w.
Proof. induction w as [|x w IH]; cbn; congruence. Qed.
Lemma new_budget c start ls tr s t o s' :
  exec c start ls tr s -> exec c start ls (tr ++ stamp (s_now s) [EvInvoke t o]) s' -> s_clients s t = CIdle -> s_clients s' t = CLock o ->
  s_tlock s' = s_tlock s -> s_now s' = s_now s -> (forall u, u <> t -> s_clients s' u = s_clients s u) ->
  budget (s_now s + 10000 * (1 + N.of_nat (length (line tr)))) t (line tr ++ [t]) s'.
Proof.
  intros H H' P P' T En Eo. destruct (line_inv _ _ _ _ _ H) as [ND LI].
  assert (Nt : ~ In t (line tr)) by (rewrite LI, P; intuition).
  rewrite budget_lock by (unfold in_queue; rewrite P'; reflexivity).
  unfold ahead. rewrite before_new by exact Nt. set (a := length (filter (in_queue s') (line tr))).
  assert (A0 : (a <= length (line tr))%nat).
  { unfold a. pose proof (count_le (fun _ => true) (in_queue s') (line tr) ltac:(auto)) as X. rewrite all_true in X. exact X. }
  destruct (s_tlock s) as [u|] eqn:Tu.
  - assert (Hu : holds (s_clients s u) = true) by (apply (lock_inv _ _ _ _ _ H), Tu).
    assert (Nu : u <> t) by (intros ->; rewrite P in Hu; discriminate Hu).
    assert (A1 : (a + 1 <= length (line tr))%nat).
    { unfold a. pose proof (count_lt (fun _ => true) (in_queue s') (line tr) u ltac:(auto)) as X. rewrite all_true in X. apply X; auto.
      - apply LI. intro Y. rewrite Y in Hu. discriminate Hu.
      - unfold in_queue. rewrite Eo by exact Nu. destruct (s_clients s u); try reflexivity. discriminate Hu. }
    destruct (timed (s_clients s' u)) eqn:Tm.
    + destruct (s_clients s' u) eqn:Eu; try discriminate Tm. pose proof (deadline_near _ _ _ _ _ H' u _ _ Eu) as Dn.
      rewrite (ration_timed _ _ _ _ _ _ T Eu). rewrite En in Dn. clear -Dn A1. lia.
    + rewrite (ration_on _ _ _ _ T Tm), En. clear -A1. lia.
  - rewrite (ration_free _ _ _ T), En. clear -A0. lia.
Qed.
Lemma quiet_no_invoke es t o : forallb quiet es = true -> ~ In (EvInvoke t o) es.
Proof. intros F I. rewrite forallb_forall in F. specialize (F _ I). discriminate F. Qed.
Definition cost (writes : bool) (q : trace) : N := if writes then 0 else 10000 * N.of_nat (length (taken q)).
Lemma orderly_budget c start ls wr tr s :
  orderly c start ls tr s -> c_mode c = MClient -> s_rx_alive s = true -> only_transfers tr ->
  (wr = true -> forall t o, In (EvInvoke t o) (evs tr) -> is_write o) ->
  forall p n t o q, tr = p ++ (n, EvInvoke t o) :: q -> (forall x, In x q -> call_end t (snd x) = false) ->
  budget (n + 10000 * (1 + N.of_nat (length (line p))) + cost wr q) t (line tr) s.
Proof.
  induction 1 as [|tr s l s' es HO IH Hs FI HT]; intros Hm Ha O OW p n t o q E NE; [destruct p; discriminate E|].
  pose proof (orderly_prompt _ _ _ _ _ HO) as HP. pose proof (prompt_exec _ _ _ _ _ HP) as H.
  pose proof (alive_back _ _ _ _ _ Hs Ha) as Ha0. pose proof (only_prefix _ _ O) as O0. assert (OW0 : wr = true -> forall t o, In (EvInvoke t o) (evs tr) -> is_write o) by (intros Hw t' o' I; apply (OW Hw t' o'); rewrite evs_app; apply in_or_app; left; exact I). specialize (IH Hm Ha0 O0 OW0).
  apply app_split in E. destruct E as [(q'&->&->)|(p'&->&E)].
  - specialize (IH _ _ _ _ _ eq_refl ltac:(intros x I; apply NE, in_or_app; left; exact I)).
    assert (X : budget (n + 10000 * (1 + N.of_nat (length (line p))) + cost wr q' + 10000 * extra es) t
      (line ((p ++ (n, EvInvoke t o) :: q') ++ stamp (s_now s) es)) s').
    { eapply budget_step; eauto. intros e I. apply (NE (s_now s, e)). apply in_or_app. right. unfold stamp. apply in_map_iff. eauto. }
    eapply budget_more; [exact X|]. unfold cost. destruct wr.
    + assert (Y : extra es = 0).
      { destruct (N.eq_dec (extra es) 0) as [Y|Y]; [exact Y|]. destruct (extra_read _ _ _ _ _ Hs Y) as (u&o'&Po&No). destruct No. apply (OW0 eq_refl u).
        destruct (hist_in_call _ _ _ _ _ _ _ H Po) as (body&h&n'&Ec&_). apply in_evs. exists n'.
        apply (proj1 (filter_In (fun x => call_event u (snd x)) (n', EvInvoke u o') _)). fold (call_events u (p ++ (n, EvInvoke t o) :: q')). rewrite Ec. apply in_or_app. right. left. reflexivity. }
      rewrite Y. clear. lia.
    + rewrite taken_app, app_length. pose proof (extra_taken (s_now s) es) as Y. clear -Y. lia.
  - apply stamp_split in E. destruct E as (e1&e'&e2&->&->&E&->). injection E as -> <-.
    assert (Hc : call_label l = Some t).
    { destruct (call_label l) as [u|] eqn:Hc; [destruct (Nat.eq_dec u t); [congruence|]|].
      - pose proof (step_call_events _ _ _ _ _ t Hs ltac:(congruence)) as F. rewrite filter_app in F. cbn in F. rewrite Nat.eqb_refl in F. destruct (filter (call_event t) e1); discriminate F.
      - pose proof (step_call_events _ _ _ _ _ t Hs ltac:(congruence)) as F. rewrite filter_app in F. cbn in F. rewrite Nat.eqb_refl in F. destruct (filter (call_event t) e1); discriminate F. }
    pose proof (call_moves _ _ _ _ _ _ Hs Hc (lock_inv _ _ _ _ _ H t) (pc_fits_inv _ _ _ _ _ H t) (pcs_transfer _ _ _ _ _ t H O0)
      ltac:(intros o' I; apply (O t o'); rewrite evs_app, evs_stamp; apply in_or_app; right; exact I)) as M.
    destruct (call_frame _ _ _ _ _ _ Hs Hc) as (En&_&_&_&_&_&Eo&_).
    assert (In1 : In (EvInvoke t o) (e1 ++ EvInvoke t o :: e2)) by (apply in_or_app; right; left; reflexivity).
    destruct M as [o' P1 P2 T E|o' P1 P2 T E|ok El Q T P1 P2 T' E|es0 e P1 P2 T E Eq Ed Ee|P1 P2 P3 P4 T E|o' P1 P2 P3 Ho T E|o' dl m P1 P2 Ho T E].
    + exfalso. destruct e1 as [|x e1].
      * injection E as -> ->. specialize (NE (s_now s, EvPanic t o') ltac:(left; reflexivity)). cbn in NE. rewrite Nat.eqb_refl in NE. discriminate NE.
      * injection E as -> E. destruct e1 as [|y e1]; [discriminate E|]. injection E as _ E. destruct e1; discriminate E.
    + destruct e1 as [|x e1]; [|injection E as _ E; destruct e1; discriminate E]. injection E as <- ->. cbn [stamp map app].
      rewrite app_nil_r. assert (Z : cost wr [] = 0) by (destruct wr; reflexivity). rewrite Z, N.add_0_r, line_app. cbn [evs map snd fold_left step_in_line].
      eapply new_budget; eauto. econstructor; eassumption.
    + exfalso. rewrite E in In1. destruct In1.
    + exfalso. rewrite E in In1. apply in_app_iff in In1. destruct In1 as [I1|[->|[]]]; [exact (quiet_no_invoke _ _ _ Eq I1)|discriminate Ee].
    + exfalso. exact (quiet_no_invoke _ _ _ E In1).
    + exfalso. exact (quiet_no_invoke _ _ _ E In1).
    + exfalso. rewrite E in In1. destruct In1 as [X|[]]; discriminate X.
Qed.
Lemma served_soon c start ls wr tr s p n t o q :
  orderly c start ls tr s -> c_mode c = MClient -> s_rx_alive s = true -> only_transfers tr ->
  (wr = true -> forall t o, In (EvInvoke t o) (evs tr) -> is_write o) ->
  tr = p ++ (n, EvInvoke t o) :: q -> (forall x, In x q -> call_end t (snd x) = false) ->
  s_now s <= n + 10000 * (1 + N.of_nat (length (line p))) + cost wr q.
Proof.
  intros HO Hm Ha O OW E NE. pose proof (orderly_budget _ _ _ _ _ _ HO Hm Ha O OW _ _ _ _ _ E NE) as B.
  pose proof (orderly_prompt _ _ _ _ _ HO) as HP. pose proof (prompt_exec _ _ _ _ _ HP) as H. clear E.
  set (b := n + _ + _) in *. clearbody b.
  assert (WI : forall v o dl, s_clients s v = CWaitQ o dl -> s_now s <= dl).
  { intros v o' dl E. apply (waiting_inv _ _ _ _ _ HP Ha v o' dl E). apply (pcs_transfer _ _ _ _ _ v H O). rewrite E. reflexivity. }
  unfold budget in B. destruct (s_clients s t) eqn:Et; try contradiction; try (clear -B; lia).
  - destruct (s_tlock s) as [u|]; [|clear -B; lia]. destruct (s_clients s u) eqn:Eu; try (clear -B; lia). specialize (WI _ _ _ Eu). clear -B WI. lia.
  - specialize (WI _ _ _ Et). clear -B WI. lia.
Qed.

Lemma served_in_time c start ls tr s p n t o q :
  orderly c start ls tr s -> c_mode c = MClient -> s_rx_alive s = true -> only_transfers tr ->
  tr = p ++ (n, EvInvoke t o) :: q -> (forall x, In x q -> call_end t (snd x) = false) ->
  s_now s <= n + 10000 * (1 + N.of_nat (length (line p))) + 10000 * N.of_nat (length (taken q)).
Proof. intros HO Hm Ha O E NE. apply (served_soon c start ls false tr s p n t o q HO Hm Ha O ltac:(discriminate) E NE). Qed.
Lemma write_served_in_time c start ls tr s p n t o q :
  orderly c start ls tr s -> c_mode c = MClient -> s_rx_alive s = true -> (forall u w, In (EvInvoke u w) (evs tr) -> is_write w) ->
  tr = p ++ (n, EvInvoke t o) :: q -> (forall x, In x q -> call_end t (snd x) = false) ->
  s_now s <= n + 10000 * (1 + N.of_nat (length (line p))).
Proof.
  intros HO Hm Ha O E NE. assert (O' : only_transfers tr) by (intros u w I; specialize (O u w I); destruct w; try exact O; destruct O).
  pose proof (served_soon c start ls true tr s p n t o q HO Hm Ha O' ltac:(auto) E NE) as B. unfold cost in B. rewrite N.add_0_r in B. exact B.
Qed.

(** ** Every call gets its turn *)
Section Endless.
Variables (c : cfg) (start : N) (ls : nat -> listener) (tr0 : trace) (st : nat -> sys) (lb : nat -> label) (es : nat -> list event).
Hypothesis EN : endless c start ls tr0 st lb es.
Hypothesis FI : served_in_order tr0 st lb es.
Let tr (i : nat) := upto tr0 st es i.
Lemma up_exec i : exec c start ls (tr i) (st i).
Proof. induction i as [|i IH]; [apply EN|]. econstructor; [exact IH|apply EN]. Qed.
(** While [t] waits, giving the mutex away uses up a place ahead of it. *)
Lemma turn_step t i : in_queue (st i) t = true ->
  (exists ok, lb i = LCl t ok \/ lb i = LCancel t) \/
  (in_queue (st (S i)) t = true /\
   (ahead t (line (tr (S i))) (st (S i)) + (if hands_over st lb i then 1 else 0) <= ahead t (line (tr i)) (st i))%nat).
Proof.
  intro Q. pose proof (up_exec i) as H. pose proof (en_step _ _ _ _ _ _ _ EN i) as Hs.
  destruct (line_inv _ _ _ _ _ H) as [ND LI].
  assert (It : In t (line (tr i))) by (apply LI; unfold in_queue in Q; destruct (s_clients (st i) t); discriminate).
  assert (EL : line (tr (S i)) = fold_left step_in_line (es i) (line (tr i))).
  { unfold tr. cbn [upto]. rewrite line_app, evs_stamp. reflexivity. }
  rewrite EL. destruct (call_label (lb i)) as [u|] eqn:Hc.
  - destruct (call_frame _ _ _ _ _ _ Hs Hc) as (_&_&_&_&_&_&Eo&_).
    destruct (Nat.eq_dec u t) as [->|N].
    + left. unfold in_queue in Q. destruct (s_clients (st i) t) eqn:Ep; try discriminate Q.
      destruct (lb i); try discriminate Hc; injection Hc as ->; first [eexists; left; reflexivity|exists true; right; reflexivity|exfalso]; open_step Hs; rewrite Ep in Hs; repeat (try discriminate Hs; destruct (s_rx_alive (st i)); try discriminate Hs).
    + right. assert (Q' : in_queue (st (S i)) t = true) by (unfold in_queue in *; rewrite Eo by congruence; exact Q). split; [exact Q'|].
      assert (Mo : forall w, (in_queue (st (S i)) u = true -> ~ In u w) -> forall x, In x w -> in_queue (st (S i)) x = true -> in_queue (st i) x = true).
      { intros w Hw x Ix Gx. destruct (Nat.eq_dec x u) as [->|Nx]; [destruct (Hw Gx Ix)|]. unfold in_queue in *. rewrite Eo in Gx by exact Nx. exact Gx. }
      assert (HO : hands_over st lb i = true -> exists ok, lb i = LCl u ok /\ in_queue (st i) u = true).
      { unfold hands_over, in_queue. destruct (lb i); try discriminate. injection Hc as ->. eauto. }
      assert (Less : in_queue (st (S i)) u = false ->
        (length (filter (in_queue (st (S i))) (before t (line (tr i)))) + (if hands_over st lb i then 1 else 0) <= ahead t (line (tr i)) (st i))%nat).
      { intro Nq. unfold ahead. destruct (hands_over st lb i).
        - destruct (HO eq_refl) as (ok&El&Qu). apply count_lt with (u := u); auto.
          + apply Mo. congruence.
          + exact (find_before _ _ _ _ (FI i u ok El Qu) It Q N).
        - rewrite Nat.add_0_r. apply count_le, Mo. congruence. }
      unfold ahead at 1. destruct (call_line _ _ _ _ _ _ (line (tr i)) Hs Hc) as [(A&B&->)|[(A&B&->)|[(A&B&->)|(A&B&C&->)]]].
      * assert (Nu : ~ In u (line (tr i))) by (rewrite LI, A; intuition). rewrite drop_last by exact Nu. apply Less. unfold in_queue. rewrite B. reflexivity.
      * assert (Nu : ~ In u (line (tr i))) by (rewrite LI, A; intuition). rewrite before_last by exact It.
        assert (X : hands_over st lb i = false).
        { destruct (hands_over st lb i); [|reflexivity]. destruct (HO eq_refl) as (ok&_&Qu). unfold in_queue in Qu. rewrite A in Qu. discriminate Qu. }
        rewrite X, Nat.add_0_r. unfold ahead. apply count_le, Mo. intros _ Z. apply Nu.
        clear -Z. induction (line (tr i)) as [|x w IH]; [destruct Z|]. cbn in Z. destruct (Nat.eqb x t); [destruct Z|]. destruct Z as [->|Z]; [left; reflexivity|right; auto].
      * rewrite before_drop by exact N. pose proof (filter_drop (in_queue (st (S i))) u (before t (line (tr i)))) as X.
        specialize (Less ltac:(unfold in_queue; rewrite B; reflexivity)). clear -X Less. lia.
      * apply Less. exact C.
  - right. destruct (line_step _ _ _ _ _ (line (tr i)) Hs Hc) as [-> Ec]. rewrite (ahead_other _ _ _ _ Ec).
    split; [unfold in_queue in *; rewrite Ec; exact Q|].
    assert (X : hands_over st lb i = false) by (unfold hands_over; destruct (lb i); try reflexivity; discriminate Hc). rewrite X. clear. lia.
Qed.
Lemma turns t i d : in_queue (st i) t = true ->
  (exists k ok, (i <= k < i + d)%nat /\ (lb k = LCl t ok \/ lb k = LCancel t)) \/
  (in_queue (st (i + d)%nat) t = true /\
   (ahead t (line (tr (i + d)%nat)) (st (i + d)%nat) + length (filter (hands_over st lb) (seq i d)) <= ahead t (line (tr i)) (st i))%nat).
Proof.
  intro Q. induction d as [|d IH]; [right; rewrite Nat.add_0_r; cbn; split; [exact Q|clear; lia]|].
  destruct IH as [(k&ok&Hk&K)|[Q' L]]; [left; exists k, ok; split; [clear -Hk; lia|exact K]|].
  destruct (turn_step t _ Q') as [(ok&K)|[Q2 L2]].
  - left. exists (i + d)%nat, ok. split; [clear; lia|exact K].
  - right. replace (i + S d)%nat with (S (i + d)) by (clear; lia). split; [exact Q2|].
    rewrite seq_S, filter_app, app_length. cbn [filter]. destruct (hands_over st lb (i + d)); cbn [length] in *; clear -L L2; lia.
Qed.
Lemma order_is_fair : queue_for_mutex st lb.
Proof.
  intros t o i P. exists (ahead t (line (tr i)) (st i)). intros d L.
  destruct (turns t i d) as [X|[_ X]]; [unfold in_queue; rewrite P; reflexivity|exact X|]. exfalso. clear -L X. lia.
Qed.
End Endless.
