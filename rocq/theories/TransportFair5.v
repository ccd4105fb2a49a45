(** Every datagram is taken off the socket, in fair endless executions. *)
From Verif Require Import Base Addresses Apdu Tunneling Emi Core Transport Wire Spec TraceSpec TraceSpec2 LiveSpec
  TransportBase TransportInv TransportConn TransportThm2 TransportThm3 TransportBgThm TransportRecover TransportFair TransportFair2.
From Coq Require Import Lia ZifyBool ZifyNat ZifyN.
Open Scope N_scope.

Definition listening (b : bg_pc) : bool := match b with BRecv | BConnWait _ | BEnded | BPanicked => true | _ => false end.
Definition notifying (b : bg_pc) : bool := match b with BNotify _ _ => true | _ => false end.
Definition distance (b : bg_pc) : nat :=
  match b with
  | BConnSend => 1 | BConnSleep _ | BCheck => 2 | BClear => 3 | BBeat => 4 | BEnq _ | BDiscSend _ => 5 | BAck _ _ _ => 6
  | BStore _ => 7 | BMonEnable _ => 8 | _ => 0
  end.
Lemma distance_step c s l s' es :
  step c s l = Some (s', es) -> bg_label l = true -> s_rx_alive s = true -> (forall d, ~ In (EvSendFail Bg d) es) ->
  listening (s_bg s) = false -> notifying (s_bg s) = false ->
  (distance (s_bg s') < distance (s_bg s))%nat \/ notifying (s_bg s') = true.
Proof.
  intros Hs Hb Ha Hf Hl Hn.
  destruct l; try discriminate Hb; inv_step Hs; sys;
    repeat match goal with E : s_bg s = _ |- _ => rewrite E in *; clear E end; cbn [listening notifying distance] in *;
    try discriminate; try congruence; auto; try (left; lia).
  all: try (exfalso; eapply Hf; left; reflexivity).
  all: left; unfold after_ack; repeat match goal with |- context [match ?x with _ => _ end] => destruct x end; cbn [distance]; lia.
Qed.
Lemma notify_step c s l s' es x todo active :
  step c s l = Some (s', es) -> bg_label l = true -> s_bg s = BNotify (x :: todo) active -> exists active', s_bg s' = BNotify todo active'.
Proof.
  intros Hs Hb He. destruct l; try discriminate Hb; open_step Hs; rewrite He in Hs; try discriminate Hs; break Hs; injection Hs as <- <-; sys; eauto.
Qed.
Lemma notify_end c s l s' es active :
  step c s l = Some (s', es) -> bg_label l = true -> s_bg s = BNotify [] active -> s_bg s' = BRecv.
Proof.
  intros Hs Hb He. destruct l; try discriminate Hb; open_step Hs; rewrite He in Hs; try discriminate Hs; break Hs; injection Hs as <- <-; sys; eauto.
Qed.

Lemma none_taken n l :
  existsb (fun e => match e with EvConnRecv _ | EvBgRecv _ | EvClRecv _ _ => true | _ => false end) l = false <-> consumed (stamp n l) = [].
Proof.
  unfold consumed, stamp. induction l as [|e l IH]; cbn [map flat_map snd existsb]; [tauto|].
  destruct e; cbn [orb app]; try exact IH; split; discriminate.
Qed.

Lemma count_split (f : nat -> bool) i d d' : (d <= d')%nat ->
  length (filter f (seq i d')) = (length (filter f (seq i d)) + length (filter f (seq (i + d) (d' - d))))%nat.
Proof. intro H. replace d' with (d + (d' - d))%nat at 1 by lia. rewrite seq_app, filter_app, app_length. reflexivity. Qed.
Lemma count_one (f : nat -> bool) i d k : (i <= k < i + d)%nat -> f k = true -> (1 <= length (filter f (seq i d)))%nat.
Proof.
  intros H G. assert (I : In k (filter f (seq i d))) by (apply filter_In; split; [apply in_seq; lia|exact G]).
  destruct (filter f (seq i d)); [contradiction I|cbn; lia].
Qed.

Section Served.
Variables (c : cfg) (start : N) (ls : nat -> listener) (tr0 : trace).
Variables (st : nat -> sys) (lb : nat -> label) (es : nat -> list event).
Hypothesis (E : endless c start ls tr0 st lb es) (F : fair c st lb).
Variable i0 : nat.
Hypothesis (Hs : sends_succeed es i0) (Hr : listeners_have_room st i0) (Hv : socket_served st es).
Let X := upto_exec c start ls tr0 st lb es E.

Lemma task_moves i : (i0 <= i)%nat -> listening (s_bg (st i)) = false ->
  exists j, (i <= j)%nat /\ bg_label (lb j) = true /\ s_bg (st j) = s_bg (st i).
Proof.
  intros Hi Hl.
  assert (G : exists j, (i <= j)%nat /\ bg_label (lb j) = true /\ s_bg (st j) = s_bg (st i) /\ s_hb (st j) = s_hb (st i)).
  2:{ destruct G as (j&G1&G2&G3&_). eauto. }
  destruct (s_bg (st i)) as [| |d|d|r|r|[|l todo] active| |ch sq k|m|r| | | |] eqn:Eb; try discriminate Hl; rewrite <- Eb.
  all: try (apply (bg_moves c start ls tr0 st lb es E F i i (le_n _)); intros j _ S _; rewrite Eb in S; exists (LBg true);
            (split; [left; eauto|]); cbn [step]; unfold bg_step; rewrite S; try destruct (s_conn (st j)); discriminate).
  - destruct (fair_time _ _ _ F d) as (k&Hk'). apply (bg_moves c start ls tr0 st lb es E F i (Nat.max i k) ltac:(lia)). intros j Hj S _. rewrite Eb in S.
    exists (LBg true). split; [left; eauto|]. cbn [step]. unfold bg_step. rewrite S.
    pose proof (now_mono c start ls tr0 st lb es E k j ltac:(lia)). replace (d <=? s_now (st j)) with true by lia. discriminate.
  - apply (bg_moves c start ls tr0 st lb es E F i i (le_n _)). intros j Hj S _. rewrite Eb in S. exists (LBg true). split; [left; eauto|].
    cbn [step]. unfold bg_step. rewrite S. destruct (li_alive (s_listeners (st j) l)) eqn:La; [|discriminate].
    pose proof (Hr j l todo active ltac:(lia) S La) as G. apply Nat.ltb_lt in G. rewrite G. discriminate.
  - destruct (fair_time _ _ _ F (s_hb (st i))) as (k&Hk'). apply (bg_moves c start ls tr0 st lb es E F i (Nat.max i k) ltac:(lia)). intros j Hj S S2. rewrite Eb in S.
    exists LTick. split; [right; right; reflexivity|]. cbn [step]. unfold bg_tick. rewrite S, S2. cbv zeta.
    pose proof (now_mono c start ls tr0 st lb es E k j ltac:(lia)). replace (s_hb (st i) <=? s_now (st j)) with true by lia. discriminate.
Qed.
Lemma notified todo : forall i active, (i0 <= i)%nat -> s_bg (st i) = BNotify todo active -> exists j, (i <= j)%nat /\ listening (s_bg (st j)) = true.
Proof.
  induction todo as [|x todo IH]; intros i active Hi Hb.
  - destruct (task_moves i Hi) as (j&Hj&Hl&Sb); [rewrite Hb; reflexivity|]. rewrite Hb in Sb.
    exists (S j). split; [lia|]. rewrite (notify_end _ _ _ _ _ _ (en_step _ _ _ _ _ _ _ E j) Hl Sb). reflexivity.
  - destruct (task_moves i Hi) as (j&Hj&Hl&Sb); [rewrite Hb; reflexivity|]. rewrite Hb in Sb.
    destruct (notify_step _ _ _ _ _ _ _ _ (en_step _ _ _ _ _ _ _ E j) Hl Sb) as (active'&G).
    destruct (IH (S j) active' ltac:(lia) G) as (k&Hk&A). exists k. split; [lia|exact A].
Qed.
(** The notification comes to an end. *)
Lemma reopened i : (i0 <= i)%nat -> exists j, (i <= j)%nat /\ cd_locked (st j) = false.
Proof.
  intro Hi. destruct (cd_locked (st i)) eqn:Hc; [|exists i; auto].
  unfold cd_locked in Hc. destruct (s_bg (st i)) as [| | | | | |todo active| | | | | | | |] eqn:Eb; try discriminate Hc.
  destruct (notified todo i active Hi Eb) as (j&Hj&G). exists j. split; [exact Hj|].
  unfold cd_locked. destruct (s_bg (st j)); try reflexivity. discriminate G.
Qed.
Lemma room_open : (forall t, served c st lb t) -> forall t, open_polled c st lb i0 t.
Proof. intro H. apply again_open; [exact H|exact reopened]. Qed.
Lemma gets_listening n : forall i, (i0 <= i)%nat -> (distance (s_bg (st i)) <= n)%nat -> exists j, (i <= j)%nat /\ listening (s_bg (st j)) = true.
Proof.
  induction n as [n IH] using (well_founded_induction lt_wf). intros i Hi Hn.
  destruct (notifying (s_bg (st i))) eqn:Nb.
  { destruct (s_bg (st i)) as [| | | | | |todo active| | | | | | | |] eqn:Eb; try discriminate Nb. apply (notified todo i active Hi Eb). }
  destruct (listening (s_bg (st i))) eqn:Lb; [exists i; auto|].
  destruct (task_moves i Hi Lb) as (j&Hj&Hl&Sb). rewrite <- Sb in *.
  destruct (distance_step _ _ _ _ _ (en_step _ _ _ _ _ _ _ E j) Hl (fair_kept _ _ _ F j) (fun d => Hs j d ltac:(lia)) Lb Nb) as [A|A].
  - destruct (IH (distance (s_bg (st (S j)))) ltac:(lia) (S j) ltac:(lia) (le_n _)) as (k&Hk&G). exists k. split; [lia|exact G].
  - destruct (s_bg (st (S j))) as [| | | | | |todo active| | | | | | | |] eqn:Eb; try discriminate A.
    destruct (notified todo (S j) active ltac:(lia) Eb) as (k&Hk&G). exists k. split; [lia|exact G].
Qed.

Lemma inbox_kept i d : s_inbox (st i) <> [] ->
  (exists k, (i <= k < i + d)%nat /\ takes es k = true) \/ s_inbox (st (i + d)) <> [].
Proof.
  intro H. induction d as [|d IH]; [right; rewrite Nat.add_0_r; exact H|].
  destruct IH as [(k&Hk&G)|IH]; [left; exists k; split; [lia|exact G]|].
  pose proof (en_step _ _ _ _ _ _ _ E (i + d)) as St. rewrite Nat.add_succ_r.
  destruct (takes es (i + d)) eqn:T; [left; exists (i + d)%nat; split; [lia|exact T]|right].
  assert (C : consumed (stamp (s_now (st (i + d))) (es (i + d)%nat)) = []).
  { apply none_taken, T. }
  pose proof (step_inbox _ _ _ _ _ St) as Q. rewrite C in Q. cbn in Q. rewrite <- Q. destruct (s_inbox (st (i + d))); [contradiction|discriminate].
Qed.
(** While a datagram waits the task is ready for it as often as one likes, or it is taken. *)
Lemma often_ready i n : (i0 <= i)%nat -> s_inbox (st i) <> [] ->
  (exists k, (i <= k)%nat /\ (takes es k = true \/ bg_gone (st k) = true)) \/
  (exists d, (n <= length (filter (ready st) (seq i d)))%nat).
Proof.
  intros Hi H. induction n as [|n IH]; [right; exists 0%nat; lia|].
  destruct IH as [IH|(d&Hd)]; [left; exact IH|].
  destruct (gets_listening _ (i + d) ltac:(lia) (le_n _)) as (j&Hj&Lj).
  destruct (inbox_kept i (j - i) H) as [(k&Hk&G)|G]; [left; exists k; split; [lia|auto]|].
  replace (i + (j - i))%nat with j in G by lia.
  destruct (bg_gone (st j)) eqn:Gj; [left; exists j; split; [lia|auto]|].
  right. exists (S j - i)%nat. rewrite (count_split _ i d (S j - i) ltac:(lia)).
  assert (R : ready st j = true).
  { unfold ready, bg_gone in *. destruct (s_inbox (st j)); [contradiction|]. destruct (s_bg (st j)); try discriminate Lj; try discriminate Gj; reflexivity. }
  pose proof (count_one (ready st) (i + d) (S j - i - d) j ltac:(lia) R). lia.
Qed.
Lemma next_taken i : (i0 <= i)%nat -> s_inbox (st i) <> [] ->
  exists k, (i <= k)%nat /\ (takes es k = true \/ bg_gone (st k) = true).
Proof.
  intros Hi H. destruct (Hv i) as (n&Hn). destruct (often_ready i (S n) Hi H) as [G|(d&Hd)]; [exact G|].
  destruct (Hn d ltac:(lia)) as (k&Hk&G). exists k. split; [lia|auto].
Qed.

Lemma consumed_grows i d : exists q, consumed (upto tr0 st es (i + d)) = consumed (upto tr0 st es i) ++ q.
Proof.
  induction d as [|d (q&IH)]; [exists []; rewrite Nat.add_0_r, app_nil_r; reflexivity|].
  rewrite Nat.add_succ_r. cbn [upto]. eexists. rewrite consumed_app, IH, <- app_assoc. reflexivity.
Qed.
Lemma takes_grows j : takes es j = true -> exists x q, consumed (upto tr0 st es (S j)) = consumed (upto tr0 st es j) ++ x :: q.
Proof.
  intro T. cbn [upto]. rewrite consumed_app.
  assert (G : consumed (stamp (s_now (st j)) (es j)) <> []).
  { intro N. apply none_taken in N. unfold takes in T. congruence. }
  destruct (consumed _) as [|x q]; [contradiction|]. eauto.
Qed.
Lemma prefix_total {A} (a b q : list A) : a ++ b = q -> forall p r, q = p ++ r -> (length a <= length p)%nat -> exists t, p = a ++ t.
Proof.
  intros <- p. revert p. induction a as [|x a IH]; intros p r H L; [exists p; reflexivity|].
  destruct p as [|y p]; [cbn in L; lia|]. cbn in H. injection H as <- H. destruct (IH p r H ltac:(cbn in L; lia)) as (t&->). exists t. reflexivity.
Qed.
Theorem all_taken i : exists j, (i <= j)%nat /\
  ((exists q, consumed (upto tr0 st es j) = arrived (upto tr0 st es i) ++ q) \/ task_stopped (upto tr0 st es j)).
Proof.
  assert (Go : forall n k, (i <= k)%nat -> (i0 <= k)%nat -> (length (arrived (upto tr0 st es i)) <= n + length (consumed (upto tr0 st es k)))%nat ->
    exists j, (k <= j)%nat /\ ((exists q, consumed (upto tr0 st es j) = arrived (upto tr0 st es i) ++ q) \/ task_stopped (upto tr0 st es j))).
  { induction n as [|n IH]; intros k Hk Hk0 Hn.
    - exists k. split; [lia|]. left.
      assert (Ak : exists q, arrived (upto tr0 st es k) = arrived (upto tr0 st es i) ++ q).
      { replace k with (i + (k - i))%nat by lia. generalize (k - i)%nat as d. clear. induction d as [|d (q&IH)]; [exists []; rewrite Nat.add_0_r, app_nil_r; reflexivity|].
        rewrite Nat.add_succ_r. cbn [upto]. rewrite arrived_app, IH, <- app_assoc. eauto. }
      destruct Ak as (q&Ak). pose proof (inbox_inv _ _ _ _ _ (X k)) as B. 
      destruct (prefix_total (arrived (upto tr0 st es i)) q _ (eq_sym Ak) _ _ B ltac:(lia)) as (t&G). exists t. exact G.
    - destruct (Nat.le_gt_cases (length (arrived (upto tr0 st es i))) (n + length (consumed (upto tr0 st es k)))) as [L|L].
      { apply IH; assumption. }
      destruct (s_inbox (st k)) as [|d0 q0] eqn:Ei.
      + destruct (IH k Hk Hk0) as (j&G); [|exists j; exact G].
        pose proof (inbox_inv _ _ _ _ _ (X k)) as B. rewrite Ei, app_nil_r in B. rewrite <- B.
        assert (Am : (length (arrived (upto tr0 st es i)) <= length (arrived (upto tr0 st es k)))%nat).
        { replace k with (i + (k - i))%nat by lia. generalize (k - i)%nat as d. clear. induction d as [|d IH]; [rewrite Nat.add_0_r; lia|].
          rewrite Nat.add_succ_r. cbn [upto]. rewrite arrived_app, app_length. lia. }
        lia.
      + destruct (next_taken k Hk0) as (m&Hm&[T|T]); [rewrite Ei; discriminate| |].
        * destruct (IH (S m) ltac:(lia) ltac:(lia)) as (j&Hj&G).
          { destruct (takes_grows m T) as (x&q&->). destruct (consumed_grows k (m - k)) as (q'&Q). replace (k + (m - k))%nat with m in Q by lia.
            rewrite Q, !app_length. cbn [length]. lia. }
          exists j. split; [lia|exact G].
        * exists m. split; [exact Hm|]. right. apply (bg_gone_events _ _ _ _ _ (X m) T). }
  destruct (Go (length (arrived (upto tr0 st es i))) (Nat.max i i0) ltac:(lia) ltac:(lia) ltac:(lia)) as (j&Hj&G).
  exists j. split; [lia|exact G].
Qed.
End Served.
