(** The background task in fair endless executions. *)
From Verif Require Import Base Addresses Apdu Tunneling Emi Core Transport Wire Spec TraceSpec TraceSpec2 LiveSpec
  TransportBase TransportInv TransportThm2 TransportThm3 TransportBgThm TransportRecover TransportFair.
From Coq Require Import Lia ZifyBool ZifyNat ZifyN.
Open Scope N_scope.

Lemma bg_stays c s l s' es : step c s l = Some (s', es) -> bg_label l = false -> s_bg s' = s_bg s /\ s_hb s' = s_hb s.
Proof.
  intros Hs Hb. destruct (call_label l) as [u|] eqn:Hl.
  - destruct (call_frame _ _ _ _ _ _ Hs Hl) as (_&_&_&->&->&_). auto.
  - destruct (env_frame _ _ _ _ _ Hs Hb Hl) as (_&_&->&->&_). auto.
Qed.
Definition rank (b : bg_pc) : nat :=
  match b with BConnWait _ => 4 | BMonEnable _ => 3 | BCheck | BConnSleep _ => 2 | BConnSend | BStore _ => 1 | _ => 0 end.
(** A move of the task while it is connecting. *)
Lemma connecting_step c s l s' es :
  step c s l = Some (s', es) -> bg_label l = true -> s_conn s = None -> connecting (s_bg s) = true ->
  (s_conn s' = None /\ (rank (s_bg s') < rank (s_bg s))%nat) \/ (exists e, In e es /\ (asks_for_connection e \/ is_connected_event e = true)).
Proof.
  intros Hs Hb Hc Hk.
  destruct l; try discriminate Hb; inv_step Hs; sys;
    repeat match goal with E : s_bg s = _ |- _ => rewrite E in *; clear E end; cbn [connecting] in Hk; try discriminate Hk; try congruence.
  all: try (left; split; [assumption|cbn; lia]).
  all: right; eexists; split; [left; reflexivity|]; try (right; reflexivity); left; unfold asks_for_connection; rewrite <- connp_eq; first [left; reflexivity | right; reflexivity].
Qed.

Section Task.
Variables (c : cfg) (start : N) (ls : nat -> listener) (tr0 : trace).
Variables (st : nat -> sys) (lb : nat -> label) (es : nat -> list event).
Hypothesis (E : endless c start ls tr0 st lb es) (F : fair c st lb).
Let X := upto_exec c start ls tr0 st lb es E.

Lemma bg_stays_or_moves i d :
  (s_bg (st (i + d)) = s_bg (st i) /\ s_hb (st (i + d)) = s_hb (st i)) \/
  exists j, (i <= j < i + d)%nat /\ bg_label (lb j) = true /\ s_bg (st j) = s_bg (st i) /\ s_hb (st j) = s_hb (st i).
Proof.
  induction d as [|d IH]; [left; rewrite Nat.add_0_r; auto|].
  destruct IH as [(IH1&IH2)|(j&L&Hj)]; [|right; exists j; split; [lia|exact Hj]].
  destruct (bg_label (lb (i + d))) eqn:D.
  - right. exists (i + d)%nat. split; [lia|]. auto.
  - left. rewrite Nat.add_succ_r. destruct (bg_stays _ _ _ _ _ (en_step _ _ _ _ _ _ _ E _) D) as (->&->). auto.
Qed.
Lemma bg_proceeds_label l : bg_proceeds l -> bg_label l = true.
Proof. intros [(ok&->)|[->| ->]]; reflexivity. Qed.
(** If the task can always go on while it stays where it is, it moves. *)
Lemma bg_moves i (k : nat) :
  (i <= k)%nat ->
  (forall j, (k <= j)%nat -> s_bg (st j) = s_bg (st i) -> s_hb (st j) = s_hb (st i) -> exists l, bg_proceeds l /\ step c (st j) l <> None) ->
  exists j, (i <= j)%nat /\ bg_label (lb j) = true /\ s_bg (st j) = s_bg (st i) /\ s_hb (st j) = s_hb (st i).
Proof.
  intros Hk En. destruct (fair_bg _ _ _ F k) as (j&Hj&G).
  destruct (bg_stays_or_moves i (j - i)) as [(S1&S2)|(x&L&G1&G2)].
  2:{ exists x. split; [lia|]. auto. }
  replace (i + (j - i))%nat with j in * by lia. destruct G as [G|G].
  - exists j. split; [lia|]. split; [apply bg_proceeds_label, G|auto].
  - destruct (En j Hj S1 S2) as (l&L&N). exfalso. apply N, G, L.
Qed.

(** ** Asking for a connection *)
Lemma connecting_moves i : connecting (s_bg (st i)) = true ->
  exists j, (i <= j)%nat /\ bg_label (lb j) = true /\ s_bg (st j) = s_bg (st i) /\ s_hb (st j) = s_hb (st i).
Proof.
  intro Hk. destruct (s_bg (st i)) as [| |d|d|r|r|[|l todo] active| |ch sq k|m|r| | | |] eqn:Eb; try discriminate Hk; rewrite <- Eb.
  all: try (apply (bg_moves i i (le_n _)); intros j _ S _; rewrite Eb in S; exists (LBg true);
            (split; [left; eauto|]); cbn [step]; unfold bg_step; rewrite S; discriminate).
  - destruct (fair_time _ _ _ F d) as (k&Hk'). apply (bg_moves i (Nat.max i k) ltac:(lia)). intros j Hj S _. rewrite Eb in S.
    exists LBgTimeout. split; [right; left; reflexivity|]. cbn [step]. unfold bg_timeout. rewrite S.
    pose proof (now_mono c start ls tr0 st lb es E k j ltac:(lia)). replace (d <=? s_now (st j)) with true by lia. discriminate.
  - destruct (fair_time _ _ _ F d) as (k&Hk'). apply (bg_moves i (Nat.max i k) ltac:(lia)). intros j Hj S _. rewrite Eb in S.
    exists (LBg true). split; [left; eauto|]. cbn [step]. unfold bg_step. rewrite S.
    pose proof (now_mono c start ls tr0 st lb es E k j ltac:(lia)). replace (d <=? s_now (st j)) with true by lia. discriminate.
Qed.
Lemma keeps_asking_at n : forall i, (rank (s_bg (st i)) <= n)%nat -> s_conn (st i) = None ->
  exists j e, (i <= j)%nat /\ In e (es j) /\ (asks_for_connection e \/ is_connected_event e = true).
Proof.
  induction n as [n IH] using (well_founded_induction lt_wf). intros i Hn Hc.
  assert (Hk : forall j, s_conn (st j) = None <-> connecting (s_bg (st j)) = true) by (intro j; apply (conn_inv _ _ _ _ _ (X j))).
  destruct (connecting_moves i (proj1 (Hk i) Hc)) as (j&Hj&Hl&Sb&Sh).
  assert (Cj : s_conn (st j) = None) by (apply Hk; rewrite Sb; apply Hk, Hc).
  destruct (connecting_step _ _ _ _ _ (en_step _ _ _ _ _ _ _ E j) Hl Cj (proj1 (Hk j) Cj)) as [(A1&A2)|(e&A1&A2)].
  - rewrite Sb in A2. destruct (IH (rank (s_bg (st (S j)))) ltac:(lia) (S j) ltac:(lia) A1) as (k&e&Hk2&G). exists k, e. split; [lia|exact G].
  - exists j, e. auto.
Qed.
Theorem keeps_asking i : connected_now (upto tr0 st es i) = false ->
  exists j e, (i <= j)%nat /\ In e (es j) /\ (asks_for_connection e \/ is_connected_event e = true).
Proof.
  intro H. rewrite (connected_inv _ _ _ _ _ (X i)) in H. apply (keeps_asking_at _ i (le_n _)).
  destruct (s_conn (st i)); [discriminate H|reflexivity].
Qed.

(** ** Heart beats *)
Hypothesis (T : tick_polled c st lb) (Hm : c_mode c = MClient).
Definition in_loop (b : bg_pc) : bool := match b with BRecv | BAck _ _ _ | BEnq _ | BDiscSend _ => true | _ => false end.
Lemma loop_step s l s' e : step c s l = Some (s', e) -> in_loop (s_bg s) = true ->
  (in_loop (s_bg s') = true /\ s_hb s' = s_hb s /\ l <> LTick) \/ (s_bg s' = BBeat /\ l = LTick) \/ s_bg s' = BClear \/ bg_gone s' = true.
Proof.
  intros Hs Hi. destruct (bg_label l) eqn:Hb.
  2:{ left. destruct (bg_stays _ _ _ _ _ Hs Hb) as (->&->). split; [exact Hi|]. split; [reflexivity|]. intros ->. discriminate Hb. }
  destruct l; try discriminate Hb; inv_step Hs; unfold bg_gone; sys;
    repeat match goal with E : s_bg s = _ |- _ => rewrite E in *; clear E end; cbn [in_loop] in Hi; try discriminate Hi; auto.
  all: try (left; repeat split; discriminate).
  all: try (match goal with |- context [dispatch ?d] => unfold dispatch; destruct d; [|destruct (parse_response _) as [[]| |]; try (destruct (_ =? _))] end; cbn; auto;
            left; repeat split; discriminate).
  all: unfold after_ack; repeat match goal with |- context [match ?x with _ => _ end] => destruct x end; auto; left; repeat split; discriminate.
Qed.
(** Out of the loop the connection is given up, the task stops or a beat is sent. *)
Definition shows (j : nat) : Prop :=
  (exists e, In e (es j) /\ (heartbeat e = true \/ e = EvCleared)) \/ task_stopped (upto tr0 st es j).
Lemma out_of_loop i :
  s_bg (st i) = BBeat \/ s_bg (st i) = BClear \/ bg_gone (st i) = true -> exists j, (i <= j)%nat /\ shows j.
Proof.
  assert (Cl : forall i, s_bg (st i) = BClear -> exists j, (i <= j)%nat /\ shows j).
  { clear i. intros i Eb. destruct (bg_moves i i (le_n _)) as (j&Hj&Hl&Sb&_).
    { intros j _ S _. exists (LBg true). split; [left; eauto|]. cbn [step]. unfold bg_step. rewrite S, Eb. discriminate. }
    exists j. split; [exact Hj|]. left. rewrite Eb in Sb. pose proof (en_step _ _ _ _ _ _ _ E j) as Hs.
    destruct (lb j); try discriminate Hl; unfold step, bg_step, bg_recv_err, bg_timeout, bg_tick in Hs; rewrite Sb in Hs; try discriminate Hs.
    injection Hs as _ <-. exists EvCleared. split; [left; reflexivity|right; reflexivity]. }
  intros [Eb|[Eb|Eb]]; [|apply Cl, Eb|].
  - destruct (bg_moves i i (le_n _)) as (j&Hj&Hl&Sb&_).
    { intros j _ S _. exists (LBg true). split; [left; eauto|]. cbn [step]. unfold bg_step. rewrite S, Eb. destruct (s_conn (st j)); discriminate. }
    rewrite Eb in Sb. pose proof (en_step _ _ _ _ _ _ _ E j) as Hs.
    assert (Hc : s_conn (st j) <> None) by (intro N; apply (conn_inv _ _ _ _ _ (X j)) in N; rewrite Sb in N; discriminate N).
    destruct (lb j) as [| |ok| | | | | | | | | | | |]; try discriminate Hl; unfold step, bg_step, bg_recv_err, bg_timeout, bg_tick in Hs; rewrite Sb in Hs; try discriminate Hs.
    destruct (s_conn (st j)) as [cd|]; [|contradiction]. injection Hs as Hs Hes. destruct ok.
    + exists j. split; [exact Hj|]. left. rewrite <- Hes. eexists. split; [left; reflexivity|left]. reflexivity.
    + destruct (Cl (S j)) as (k&Hk&G); [rewrite <- Hs; reflexivity|]. exists k. split; [lia|exact G].
  - exists i. split; [lia|]. right. apply (bg_gone_events _ _ _ _ _ (X i) Eb).
Qed.
Theorem beats_on i : connected_now (upto tr0 st es i) = true -> exists j, (i <= j)%nat /\ shows j.
Proof.
  intro H. rewrite (connected_inv _ _ _ _ _ (X i)) in H.
  assert (D : in_loop (s_bg (st i)) = true \/ s_bg (st i) = BBeat \/ s_bg (st i) = BClear \/ bg_gone (st i) = true).
  { assert (Hc : connecting (s_bg (st i)) = false).
    { destruct (connecting (s_bg (st i))) eqn:Ec; [|reflexivity]. apply (conn_inv _ _ _ _ _ (X i)) in Ec. rewrite Ec in H. discriminate H. }
    pose proof (client_not_locked _ _ _ _ _ (X i) Hm) as Hn. unfold cd_locked, bg_gone in *.
    destruct (s_bg (st i)); cbn in *; auto; discriminate. }
  destruct D as [D|D]; [|apply out_of_loop, D].
  destruct (fair_time _ _ _ F (s_hb (st i))) as (k&Hk).
  destruct (T (Nat.max i k)) as (j&Hj&G).
  assert (L : forall d, (exists x, (i <= x)%nat /\ shows x) \/ (in_loop (s_bg (st (i + d))) = true /\ s_hb (st (i + d)) = s_hb (st i))).
  { induction d as [|d IH]; [right; rewrite Nat.add_0_r; auto|]. destruct IH as [IH|(IH1&IH2)]; [left; exact IH|].
    rewrite Nat.add_succ_r.
    assert (Out : s_bg (st (S (i + d))) = BBeat \/ s_bg (st (S (i + d))) = BClear \/ bg_gone (st (S (i + d))) = true -> exists x, (i <= x)%nat /\ shows x).
    { intro O. destruct (out_of_loop _ O) as (x&Hx&G'). exists x. split; [lia|exact G']. }
    destruct (loop_step _ _ _ _ (en_step _ _ _ _ _ _ _ E (i + d)) IH1) as [(A1&A2&_)|[(A&_)|[A|A]]]; auto.
    right. split; [exact A1|congruence]. }
  destruct (L (j - i)%nat) as [G'|(L1&L2)]; [exact G'|].
  replace (i + (j - i))%nat with j in * by lia.
  pose proof (now_mono c start ls tr0 st lb es E k j ltac:(lia)) as Ht.
  assert (Et : lb j = LTick).
  { destruct G as [G|G]; [exact G|exfalso]. cbn [step] in G. unfold bg_tick in G. cbv zeta in G.
    replace (s_hb (st j) <=? s_now (st j)) with true in G by lia.
    destruct (s_bg (st j)); try discriminate L1; discriminate G. }
  destruct (loop_step _ _ _ _ (en_step _ _ _ _ _ _ _ E j) L1) as [(_&_&A)|A]; [contradiction|].
  destruct (out_of_loop (S j)) as (x&Hx&G'); [destruct A as [(A&_)|A]; auto|]. exists x. split; [lia|exact G'].
Qed.
End Task.
