(** Concrete executions with a mutex that serves in order, for the examples of PropsFifo.v. *)
From Verif Require Import Base Addresses Apdu Tunneling Emi Core Transport Wire Spec TraceSpec TraceSpec2 LiveSpec PromptSpec FifoSpec
  TransportBase TransportRuns TransportPrompt TransportFair TransportShift LiveRuns PromptRuns TransportFifo.
From Coq Require Import Lia ZifyBool ZifyNat ZifyN.
Open Scope N_scope.

Definition is_next (w : list nat) (s : sys) (l : label) : bool :=
  match l with
  | LCl t _ => if in_queue s t then match find (in_queue s) w with Some u => Nat.eqb u t | None => false end else true
  | _ => true
  end.
Lemma is_next_ok tr s l : is_next (line tr) s l = true -> next_in_line tr s l.
Proof.
  intros H t ok -> Q. cbn in H. rewrite Q in H. destruct (find (in_queue s) (line tr)); [|discriminate H].
  apply Nat.eqb_eq in H. congruence.
Qed.
Fixpoint in_order (c : cfg) (s : sys) (w : list nat) (ts : list nat) (sched : list label) : bool :=
  match sched with
  | [] => true
  | l :: sched =>
      is_next w s l &&
      match l with
      | LTime dt => PromptRuns.quiet s dt ts
      | LInvoke t _ => existsb (Nat.eqb t) ts
      | _ => true
      end &&
      match step c s l with Some (s', es) => in_order c s' (fold_left step_in_line es w) ts sched | None => false end
  end.
Lemma in_order_ok c start ls ts sched : forall s tr s' tr',
  orderly c start ls tr s -> (forall u, ~ In u ts -> s_clients s u = CIdle) -> in_order c s (line tr) ts sched = true -> run c s sched = Some (s', tr') ->
  orderly c start ls (tr ++ tr') s'.
Proof.
  induction sched as [|l sched IH]; intros s tr s' tr' HP O Q R.
  - injection R as <- <-. rewrite app_nil_r. exact HP.
  - cbn [in_order] in Q. apply andb_prop in Q. destruct Q as [Q1 Q2]. apply andb_prop in Q1. destruct Q1 as [Q0 Q1]. cbn [run] in R.
    destruct (step c s l) as [[s1 es]|] eqn:Hs; [|discriminate R].
    destruct (run c s1 sched) as [[s2 tr2]|] eqn:R2; [|discriminate R]. injection R as <- <-. rewrite app_assoc.
    eapply IH; [| |rewrite line_app, evs_stamp; exact Q2|exact R2].
    + econstructor; [exact HP|exact Hs|apply is_next_ok, Q0|]. intros dt ->. eapply quiet_rests; eassumption.
    + intros u Hu. eapply idle_kept; [exact Hs|apply O, Hu|]. intros o ->. apply existsb_exists in Q1.
      destruct Q1 as (x&Hx&E). apply Nat.eqb_eq in E. subst. contradiction.
Qed.
Lemma run_orderly c start ls ts sched s tr :
  run c (init_sys start ls) sched = Some (s, tr) -> in_order c (init_sys start ls) [] ts sched = true -> orderly c start ls tr s.
Proof. intros R Q. apply (in_order_ok c start ls ts sched _ [] _ _ (orderly_init _ _ _) (fun _ _ => eq_refl) Q R). Qed.

(** Three calls at once; none is confirmed, so the last one gets its turn after twenty seconds and is over after thirty. *)
Definition three_calls (a b d : op) : list label := prompt_connect ++ [LInvoke 1 a; LInvoke 2 b; LInvoke 3 d].
Definition unconfirmed (t : nat) : list label := repeat (LCl t true) 4 ++ [LTime 10000; LTimeout t].
Definition thirty_seconds : list label :=
  three_calls (OWrite lamp [1] true) (OWrite other [0] true) (OWrite lamp [0] true) ++
  unconfirmed 1 ++ unconfirmed 2 ++ repeat (LCl 3 true) 4 ++ [LTime 10000].
(** A write, then a read that gets a telegram for another address. *)
Definition write_and_read : list label :=
  prompt_connect ++ [LInvoke 1 (OWrite lamp [1] true); LInvoke 2 (ORead lamp)] ++ unconfirmed 1 ++ repeat (LCl 2 true) 4 ++ [LTime 9999] ++
  deliver (tunnelled 7 0 (group_ind 0x0902 [9])) ++ [LCl 2 true; LTime 10000].

(** ** Two writes a minute for ever, the mutex being given in order *)
Lemma find_only (f : nat -> bool) w t : In t w -> f t = true -> (forall x, f x = true -> x = t) -> find f w = Some t.
Proof.
  intros I F O. destruct (find f w) as [x|] eqn:E; [apply find_some in E; f_equal; apply O, E|].
  pose proof (find_none _ _ E _ I). congruence.
Qed.
Lemma find_same (f g : nat -> bool) w : (forall x, f x = g x) -> find f w = find g w.
Proof. intro H. induction w as [|x w IH]; [reflexivity|]. cbn. rewrite H, IH. reflexivity. Qed.
Lemma sim_queue D s s' t : sim D s s' -> in_queue s' t = in_queue s t.
Proof.
  intro H. pose proof (m_clients _ _ _ H t) as P. unfold in_queue. destruct (s_clients s t) as [|o| | | | | |o dl| | |]; cbn in P; try (rewrite P; reflexivity).
  destruct o; try (destruct P as (d&P)); rewrite P; reflexivity.
Qed.
(** The line after [r] steps of a cycle that begins with nobody calling. *)
Definition cycle_line (c : cfg) (s : sys) (cyc : list label) (r : nat) : list nat :=
  match run c s (firstn r cyc) with Some (_, tr) => line tr | None => [] end.
Lemma cycle_line_step c s cyc s1 tr r e x :
  run c s cyc = Some (s1, tr) -> (r < length cyc)%nat -> step c (at_step c s cyc r) (nth r cyc LTick) = Some (x, e) ->
  cycle_line c s cyc (S r) = fold_left step_in_line e (cycle_line c s cyc r).
Proof.
  intros R Hr Hs. unfold cycle_line, at_step in *.
  assert (F : firstn (S r) cyc = firstn r cyc ++ [nth r cyc LTick]).
  { clear -Hr. revert r Hr. induction cyc as [|a q IH]; intros r Hr; [cbn in Hr; lia|]. destruct r; [reflexivity|]. cbn [firstn nth app]. f_equal. apply IH. cbn in Hr. lia. }
  rewrite F. rewrite <- (firstn_skipn r cyc), run_app in R. rewrite run_app.
  destruct (run c s (firstn r cyc)) as [[z tz]|]; [|discriminate R]. cbn [run]. rewrite Hs.
  rewrite app_nil_r, line_app, evs_stamp. reflexivity.
Qed.
Section Periodic.
Variables (c : cfg) (s : sys) (cyc : list label) (s1 : sys) (tr tr0 : trace) (P : N).
Hypothesis (Hrun : run c s cyc = Some (s1, tr)) (Hsim : sim P s s1) (HP : 0 < P).
Hypothesis (H0 : line tr0 = []) (H1 : line tr = []).
Hypothesis HQ : forallb (fun r => is_next (cycle_line c s cyc r) (at_step c s cyc r) (nth r cyc LTick)) (seq 0 (length cyc)) = true.
Lemma periodic_line i : line (upto tr0 (state_of c s cyc) (events_of c s cyc) i) = cycle_line c s cyc (i mod length cyc).
Proof.
  pose proof (p_pos c s cyc s1 tr P Hrun Hsim HP) as Hp.
  induction i as [|i IH].
  - rewrite Nat.mod_0_l by lia. exact H0.
  - cbn [upto]. rewrite line_app, evs_stamp, IH. pose proof (Nat.mod_upper_bound i (length cyc) ltac:(lia)) as Hb.
    destruct (periodic c s cyc s1 tr P Hrun Hsim HP i) as (Hm&e&He).
    pose proof (sim_step _ c _ _ (label_of cyc i) Hm) as G. rewrite He in G. unfold events_of. rewrite He.
    destruct (step c (at_step c s cyc (i mod length cyc)) (label_of cyc i)) as [[x e']|] eqn:Hs; [|contradiction G]. destruct G as (<-&_).
    rewrite <- (cycle_line_step c s cyc s1 tr _ _ x Hrun Hb Hs).
    destruct (Nat.eq_dec (S (i mod length cyc)) (length cyc)) as [Eq|Ne].
    + rewrite (proj1 (succ_wrap c s cyc s1 tr P Hrun Hsim HP i Eq)), Eq. unfold cycle_line at 1. rewrite firstn_all, Hrun, H1. reflexivity.
    + rewrite (proj1 (succ_mod c s cyc s1 tr P Hrun Hsim HP i ltac:(lia))). reflexivity.
Qed.
Lemma periodic_order : served_in_order tr0 (state_of c s cyc) (label_of cyc) (events_of c s cyc).
Proof.
  intro i. apply is_next_ok. rewrite periodic_line. pose proof (p_pos c s cyc s1 tr P Hrun Hsim HP) as Hp.
  pose proof (Nat.mod_upper_bound i (length cyc) ltac:(lia)) as Hb. rewrite forallb_forall in HQ.
  specialize (HQ (i mod length cyc)%nat ltac:(apply in_seq; lia)).
  destruct (periodic c s cyc s1 tr P Hrun Hsim HP i) as (Hm&_). unfold label_of.
  destruct (nth (i mod length cyc) cyc LTick); try reflexivity. cbn in HQ |- *.
  rewrite (sim_queue _ _ _ t Hm), (find_same _ _ _ (fun x => sim_queue _ _ _ x Hm)). exact HQ.
Qed.
End Periodic.
Lemma writes_in_order :
  exists tr0 st lb es,
    endless client 0 no_listeners tr0 st lb es /\ time_passes st /\ (forall t, polled client st lb t) /\ bg_polled client st lb /\ handle_kept st /\
    served_in_order tr0 st lb es /\ only_calls is_write tr0 st es /\
    forall n, exists i, (n <= i)%nat /\ in_queue (st i) 1 = true /\ in_queue (st i) 2 = true /\ lb i = LCl 1 true.
Proof.
  set (s := end_of client write_start). destruct (run client s write_cycle) as [[s1 tr]|] eqn:R; [|vm_compute in R; discriminate R].
  assert (M : sim 60000 s s1) by (vm_compute in R; injection R as <- _; repeats).
  assert (L : line tr = []) by (clear -R; vm_compute in R; injection R as _ <-; reflexivity).
  assert (X : exec client 0 no_listeners (end_trace client write_start) s) by (apply (run_exec _ _ _ write_start); vm_compute; reflexivity).
  exists (end_trace client write_start), (state_of client s write_cycle), (label_of write_cycle), (events_of client s write_cycle).
  assert (EN : endless client 0 no_listeners (end_trace client write_start) (state_of client s write_cycle) (label_of write_cycle) (events_of client s write_cycle))
    by (eapply periodic_endless; eauto; lia).
  assert (FA : fair client (state_of client s write_cycle) (label_of write_cycle)).
  { apply (periodic_fair client s write_cycle s1 tr 60000 R M ltac:(lia)).
    + intro t. exists 0%nat. split; [vm_compute; lia|]. right. destruct t as [|[|[|t]]]; idle.
    + exists 18%nat. split; [vm_compute; lia|]. left. right. right. reflexivity.
    + intro t. destruct t as [|[|[|t]]].
      * right. left. apply no_waiter_ok. vm_compute. reflexivity.
      * left. exists 2%nat, true. split; [vm_compute; lia|]. left. reflexivity.
      * left. exists 11%nat, true. split; [vm_compute; lia|]. left. reflexivity.
      * right. left. apply no_waiter_ok. vm_compute. reflexivity.
    + apply all_alive_ok. vm_compute. reflexivity. }
  split; [exact EN|]. split; [apply FA|]. split; [apply FA|]. split; [apply FA|]. split; [apply FA|]. split; [|split].
  - apply (periodic_order client s write_cycle s1 tr _ 60000 R M ltac:(lia)); [vm_compute; reflexivity|exact L|vm_compute; reflexivity].
  - intros i t o H. apply in_upto in H. destruct H as [G|(j&G)].
    + vm_compute in G. intuition discriminate.
    + apply (events_recur client s write_cycle s1 tr 60000 R M ltac:(lia)) in G. destruct G as (n&G).
      vm_compute in R. injection R as _ <-. repeat destruct G as [G|G]; try discriminate G; try contradiction G; injection G as _ _ <-; exact I.
  - intro n. destruct (recurs client s write_cycle s1 tr 60000 R M ltac:(lia) n 2 ltac:(vm_compute; lia)) as (i&Hi&Ei).
    exists i. split; [exact Hi|]. destruct (periodic client s write_cycle s1 tr 60000 R M ltac:(lia) i) as (Q&_). rewrite Ei in Q.
    rewrite !(sim_queue _ _ _ _ Q). split; [vm_compute; reflexivity|]. split; [vm_compute; reflexivity|].
    unfold label_of. rewrite Ei. reflexivity.
Qed.
