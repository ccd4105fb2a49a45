(** More concrete endless executions. *)
From Verif Require Import Base Addresses Apdu Tunneling Emi Core Transport Wire Spec TraceSpec TraceSpec2 LiveSpec SessionSpec MonitorSpec
  TransportBase TransportReturn TransportRecover TransportShift TransportFair TransportRuns LiveRuns.
From Coq Require Import Lia ZifyBool ZifyNat ZifyN.
Open Scope N_scope.

(** What happens at each step of a periodic execution. *)
Lemma events_at c s cyc s1 tr P n e :
  run c s cyc = Some (s1, tr) -> sim P s s1 -> 0 < P ->
  option_map snd (step c (at_step c s cyc (n mod length cyc)) (nth (n mod length cyc) cyc LTick)) = Some e ->
  events_of c s cyc n = e.
Proof.
  intros R M HP H. destruct (periodic c s cyc s1 tr P R M HP n) as (Hm&_).
  pose proof (sim_step _ c _ _ (label_of cyc n) Hm) as G. unfold events_of. unfold label_of in *.
  destruct (step c (at_step c s cyc (n mod length cyc)) (nth (n mod length cyc) cyc LTick)) as [[y e'']|]; [|discriminate H].
  destruct (step c (state_of c s cyc n) (nth (n mod length cyc) cyc LTick)) as [[x e']|]; [|contradiction G].
  destruct G as (->&_). injection H as <-. reflexivity.
Qed.

(** ** One task that fetches the telegrams of the bus for ever *)
Definition fetched_by (u : nat) (tr : trace) : bool :=
  forallb (fun x => match snd x with EvInvoke t ONextMsg => Nat.eqb t u | _ => true end) tr.
Lemma fetched_ok u tr n t : fetched_by u tr = true -> In (n, EvInvoke t ONextMsg) tr -> t = u.
Proof. intros H G. unfold fetched_by in H. rewrite forallb_forall in H. specialize (H _ G). cbn in H. apply Nat.eqb_eq, H. Qed.
Lemma fetch_for_ever :
  exists tr0 st lb es,
    endless monitor 0 no_listeners tr0 st lb es /\ fair monitor st lb /\ only_calls is_monitor_call tr0 st es /\
    (forall i, cd_locked (st i) = false) /\ keep_coming es /\
    (forall i u, In (EvInvoke u ONextMsg) (evs (upto tr0 st es i)) -> u = 2%nat) /\
    forall n, exists i, (n <= i)%nat /\ (exists b, in_call 2 ONextMsg (upto tr0 st es i) b).
Proof.
  set (s := end_of monitor watch_start). destruct (run monitor s watch_cycle) as [[s1 tr]|] eqn:R; [|vm_compute in R; discriminate R].
  assert (M : sim 60000 s s1) by (vm_compute in R; injection R as <- _; repeats).
  assert (X : exec monitor 0 no_listeners (end_trace monitor watch_start) s) by (apply (run_exec _ _ _ watch_start); vm_compute; reflexivity).
  exists (end_trace monitor watch_start), (state_of monitor s watch_cycle), (label_of watch_cycle), (events_of monitor s watch_cycle).
  assert (EN : endless monitor 0 no_listeners (end_trace monitor watch_start) (state_of monitor s watch_cycle) (label_of watch_cycle) (events_of monitor s watch_cycle))
    by (eapply periodic_endless; eauto; lia).
  split; [exact EN|]. split; [|split; [|split; [|split; [|split]]]].
  - apply (periodic_fair monitor s watch_cycle s1 tr 60000 R M ltac:(lia)).
    + intro t. exists 0%nat. split; [vm_compute; lia|]. right. destruct t as [|[|[|t]]]; idle.
    + exists 4%nat. split; [vm_compute; lia|]. left. right. right. reflexivity.
    + intro t. destruct t as [|[|[|t]]].
      * right. left. apply no_waiter_ok. vm_compute. reflexivity.
      * left. exists 1%nat, true. split; [vm_compute; lia|]. left. reflexivity.
      * left. exists 14%nat, true. split; [vm_compute; lia|]. left. reflexivity.
      * right. left. apply no_waiter_ok. vm_compute. reflexivity.
    + apply all_alive_ok. vm_compute. reflexivity.
  - intros i t o H. apply in_upto in H. destruct H as [G|(j&G)].
    + apply in_evs in G. destruct G as (n&G). apply (watching_ok (end_trace monitor watch_start) n t o); [vm_compute; reflexivity|exact G].
    + apply (events_recur monitor s watch_cycle s1 tr 60000 R M ltac:(lia)) in G. destruct G as (n&G).
      apply (watching_ok tr n t o); [|exact G]. clear -R. vm_compute in R. injection R as _ <-. reflexivity.
  - intro i. destruct (periodic monitor s watch_cycle s1 tr 60000 R M ltac:(lia) i) as (Q&_).
    rewrite (locked_shift _ _ _ Q). revert i Q. intros i _.
    assert (A : all_open monitor s watch_cycle = true) by (vm_compute; reflexivity).
    apply (all_open_ok _ _ _ A). apply Nat.mod_upper_bound. discriminate.
  - intro i. destruct (recurs monitor s watch_cycle s1 tr 60000 R M ltac:(lia) i 11 ltac:(vm_compute; lia)) as (j&Hj&Ej).
    assert (Y : exists m, option_map snd (step monitor (at_step monitor s watch_cycle 11) (nth 11 watch_cycle LTick)) = Some [EvEnq m] /\ bus_message m = true)
      by (vm_compute; eexists; split; reflexivity).
    destruct Y as (m&Y1&Y2). exists j, m. split; [exact Hj|]. split; [|exact Y2].
    rewrite (events_at monitor s watch_cycle s1 tr 60000 j [EvEnq m] R M ltac:(lia)); [left; reflexivity|]. rewrite Ej. exact Y1.
  - intros i t H. apply in_upto in H. destruct H as [G|(j&G)].
    + apply in_evs in G. destruct G as (n&G). apply (fetched_ok 2 (end_trace monitor watch_start) n t); [vm_compute; reflexivity|exact G].
    + apply (events_recur monitor s watch_cycle s1 tr 60000 R M ltac:(lia)) in G. destruct G as (n&G).
      apply (fetched_ok 2 tr n t); [|exact G]. clear -R. vm_compute in R. injection R as _ <-. reflexivity.
  - intro n. destruct (recurs monitor s watch_cycle s1 tr 60000 R M ltac:(lia) n 0 ltac:(vm_compute; lia)) as (i&Hi&Ei).
    exists i. split; [exact Hi|].
    assert (Ui : exec monitor 0 no_listeners (upto (end_trace monitor watch_start) (state_of monitor s watch_cycle) (events_of monitor s watch_cycle) i) (state_of monitor s watch_cycle i))
      by (eapply upto_exec; eauto).
    destruct (periodic monitor s watch_cycle s1 tr 60000 R M ltac:(lia) i) as (Q&_). rewrite Ei in Q.
    eapply hist_in_call; try exact Ui. pose proof (m_clients _ _ _ Q 2%nat) as Q1.
    assert (Y : exists d, s_clients (at_step monitor s watch_cycle 0) 2 = CWaitQ ONextMsg d) by (eexists; vm_compute; reflexivity).
    destruct Y as (d&Y). rewrite Y in Q1. cbn [pc_sim] in Q1. destruct Q1 as (d'&Q1). rewrite Q1. reflexivity.
Qed.

(** ** Datagrams that arrive and are taken for ever *)
Lemma served_if_taken st es : (forall i, exists k, (i <= k)%nat /\ takes es k = true) -> socket_served st es.
Proof.
  intros H i. destruct (H i) as (k&Hk&T). exists (S k - i)%nat. intros d Hd. exists k. split; [|exact T].
  assert (L : (length (filter (ready st) (seq i d)) <= d)%nat).
  { rewrite <- (seq_length d i) at 2. generalize (seq i d). intro l. induction l as [|x l IH]; cbn; [lia|]. destruct (ready st x); cbn; lia. }
  lia.
Qed.
Definition all_sent (tr : trace) : bool := forallb (fun x => match snd x with EvSendFail Bg _ => false | _ => true end) tr.
Lemma all_sent_ok tr n d : all_sent tr = true -> ~ In (n, EvSendFail Bg d) tr.
Proof. intros H G. unfold all_sent in H. rewrite forallb_forall in H. specialize (H _ G). discriminate H. Qed.
Definition goes_on (tr : trace) : bool := forallb (fun x => match snd x with EvBgEnd | EvBgPanic => false | _ => true end) tr.
Lemma goes_on_ok tr n e : goes_on tr = true -> match e with EvBgEnd | EvBgPanic => true | _ => false end = true -> ~ In (n, e) tr.
Proof. intros H He G. unfold goes_on in H. rewrite forallb_forall in H. specialize (H _ G). cbn in H. destruct e; discriminate. Qed.
Lemma arrive_for_ever :
  exists tr0 st lb es,
    endless monitor 0 no_listeners tr0 st lb es /\ fair monitor st lb /\ sends_succeed es 0 /\ listeners_have_room st 0 /\ socket_served st es /\
    (forall i, ~ task_stopped (upto tr0 st es i)) /\
    forall n, exists i d, (n <= i)%nat /\ In (EvArrive d) (es i).
Proof.
  set (s := end_of monitor watch_start). destruct (run monitor s watch_cycle) as [[s1 tr]|] eqn:R; [|vm_compute in R; discriminate R].
  assert (M : sim 60000 s s1) by (vm_compute in R; injection R as <- _; repeats).
  assert (X : exec monitor 0 no_listeners (end_trace monitor watch_start) s) by (apply (run_exec _ _ _ watch_start); vm_compute; reflexivity).
  exists (end_trace monitor watch_start), (state_of monitor s watch_cycle), (label_of watch_cycle), (events_of monitor s watch_cycle).
  assert (EN : endless monitor 0 no_listeners (end_trace monitor watch_start) (state_of monitor s watch_cycle) (label_of watch_cycle) (events_of monitor s watch_cycle))
    by (eapply periodic_endless; eauto; lia).
  split; [exact EN|]. split; [|split; [|split; [|split; [|split]]]].
  - apply (periodic_fair monitor s watch_cycle s1 tr 60000 R M ltac:(lia)).
    + intro t. exists 0%nat. split; [vm_compute; lia|]. right. destruct t as [|[|[|t]]]; idle.
    + exists 4%nat. split; [vm_compute; lia|]. left. right. right. reflexivity.
    + intro t. destruct t as [|[|[|t]]].
      * right. left. apply no_waiter_ok. vm_compute. reflexivity.
      * left. exists 1%nat, true. split; [vm_compute; lia|]. left. reflexivity.
      * left. exists 14%nat, true. split; [vm_compute; lia|]. left. reflexivity.
      * right. left. apply no_waiter_ok. vm_compute. reflexivity.
    + apply all_alive_ok. vm_compute. reflexivity.
  - intros i d _ G. apply (events_recur monitor s watch_cycle s1 tr 60000 R M ltac:(lia)) in G. destruct G as (n&G).
    revert G. apply all_sent_ok. clear -R. vm_compute in R. injection R as _ <-. reflexivity.
  - intros i l todo active _ G. exfalso.
    assert (C : cd_locked (state_of monitor s watch_cycle i) = true) by (unfold cd_locked; rewrite G; reflexivity).
    destruct (periodic monitor s watch_cycle s1 tr 60000 R M ltac:(lia) i) as (Q&_).
    rewrite (locked_shift _ _ _ Q) in C. clear Q G.
    assert (A : all_open monitor s watch_cycle = true) by (vm_compute; reflexivity).
    rewrite (all_open_ok _ _ _ A) in C; [discriminate C|]. apply Nat.mod_upper_bound. discriminate.
  - apply served_if_taken. intro i.
    destruct (recurs monitor s watch_cycle s1 tr 60000 R M ltac:(lia) i 9 ltac:(vm_compute; lia)) as (j&Hj&Ej).
    exists j. split; [exact Hj|].
    assert (Y : exists d, option_map snd (step monitor (at_step monitor s watch_cycle 9) (nth 9 watch_cycle LTick)) = Some [EvBgRecv d])
      by (vm_compute; eexists; reflexivity).
    destruct Y as (d&Y). unfold takes. rewrite (events_at monitor s watch_cycle s1 tr 60000 j [EvBgRecv d] R M ltac:(lia)); [reflexivity|]. rewrite Ej. exact Y.
  - assert (A : forall i e, match e with EvBgEnd | EvBgPanic => true | _ => false end = true ->
      ~ In e (evs (upto (end_trace monitor watch_start) (state_of monitor s watch_cycle) (events_of monitor s watch_cycle) i))).
    { intros i e He G. apply in_upto in G. destruct G as [G|(j&G)].
      - apply in_evs in G. destruct G as (n&G). revert G. apply (goes_on_ok _ n e); [vm_compute; reflexivity|exact He].
      - apply (events_recur monitor s watch_cycle s1 tr 60000 R M ltac:(lia)) in G. destruct G as (n&G).
        revert G. apply goes_on_ok; [|exact He]. clear -R. vm_compute in R. injection R as _ <-. reflexivity. }
    intros i [G|G]; revert G; apply A; reflexivity.
  - intro n. destruct (recurs monitor s watch_cycle s1 tr 60000 R M ltac:(lia) n 8 ltac:(vm_compute; lia)) as (j&Hj&Ej).
    assert (Y : exists d, option_map snd (step monitor (at_step monitor s watch_cycle 8) (nth 8 watch_cycle LTick)) = Some [EvArrive d])
      by (vm_compute; eexists; reflexivity).
    destruct Y as (d&Y). exists j, d. split; [exact Hj|].
    rewrite (events_at monitor s watch_cycle s1 tr 60000 j [EvArrive d] R M ltac:(lia)); [left; reflexivity|]. rewrite Ej. exact Y.
Qed.
