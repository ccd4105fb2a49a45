(** An endless execution of a monitor that is disconnected again and again. *)
From Verif Require Import Base Addresses Apdu Tunneling Emi Core Transport Wire Spec TraceSpec TraceSpec2 LiveSpec SessionSpec MonitorSpec
  TransportBase TransportReturn TransportRecover TransportShift TransportFair TransportRuns LiveRuns LiveRuns2.
From Coq Require Import Lia ZifyBool ZifyNat ZifyN.
Open Scope N_scope.

(** A channel of the user with room for one message. *)
Definition one_place (_ : nat) : listener := {| li_cap := 1; li_count := 0; li_alive := true |}.
(** Every minute the gateway closes the channel, the monitor connects anew and
    notifies the registered channel; task 1 asks for the connection meanwhile,
    task 2 fetches the telegrams. *)
Definition shaky_start : list label :=
  [LInvoke 0 (OAddListener 0); LCl 0 true; LCl 0 true] ++ monitor_connect 7 ++ [LBg true; LBg true; LListenerTake 0] ++
  beat 7 ++ [LInvoke 2 ONextMsg; LCl 2 true].
Definition shaky_cycle : list label :=
  [LArrive (state_answer 7 0x21)] ++ repeat (LBg true) 4 ++ [LArrive (granting 7); LBg true; LBg true; LBg true] ++
  [LInvoke 1 OIsConnected; LCl 1 true; LBg true; LBg true; LListenerTake 0; LCl 1 true; LTime 60000] ++ beat 7 ++
  deliver (tunnelled 7 0 (group_ind 0x0902 [5])) ++ [LCl 2 true; LInvoke 2 ONextMsg; LCl 2 true].
Definition shaky_trace : trace := trace_of monitor one_place shaky_start.
Definition shaky_state : sys :=
  match run monitor (init_sys 0 one_place) shaky_start with Some (s, _) => s | None => init_sys 0 one_place end.

Definition all_idle (c : cfg) (s : sys) (cyc : list label) (t : nat) : bool :=
  forallb (fun r => match s_clients (at_step c s cyc r) t with CIdle => true | _ => false end) (seq 0 (length cyc)).
Lemma idle_served c s cyc s1 tr P t :
  run c s cyc = Some (s1, tr) -> sim P s s1 -> 0 < P -> all_idle c s cyc t = true -> served c (state_of c s cyc) (label_of cyc) t.
Proof.
  intros R M HP H i. right. exists i. split; [lia|]. intros k _ (l&L&N). apply N.
  destruct (periodic c s cyc s1 tr P R M HP k) as (Q&_). pose proof (m_clients _ _ _ Q t) as Qt.
  assert (Hp : (0 < length cyc)%nat).
  { destruct cyc; [|cbn; lia]. cbn in R. injection R as <- _. pose proof (m_now _ _ _ M). lia. }
  unfold all_idle in H. rewrite forallb_forall in H. specialize (H (k mod length cyc)%nat).
  destruct (s_clients (at_step c s cyc (k mod length cyc)) t) eqn:Ec;
    try (discriminate H; apply in_seq; pose proof (Nat.mod_upper_bound k (length cyc)); lia).
  cbn in Qt. destruct L as [(ok&->)| ->]; cbn [step]; destruct (s_rx_alive _); try reflexivity;
    [unfold cl_step|unfold cl_timeout]; rewrite Qt; reflexivity.
Qed.
Lemma moved_served c s cyc s1 tr P t r :
  run c s cyc = Some (s1, tr) -> sim P s s1 -> 0 < P -> (r < length cyc)%nat -> proceeds t (nth r cyc LTick) ->
  served c (state_of c s cyc) (label_of cyc) t.
Proof.
  intros R M HP Hr G i. left. destruct (recurs c s cyc s1 tr P R M HP i r Hr) as (j&Hj&Ej). exists j. split; [exact Hj|].
  unfold label_of. rewrite Ej. exact G.
Qed.
Definition room_at (s : sys) : bool :=
  match s_bg s with
  | BNotify (l :: _) _ => Nat.ltb (li_count (s_listeners s l)) (li_cap (s_listeners s l))
  | _ => true
  end.
Definition monitored (tr : trace) : bool :=
  forallb (fun x => match snd x with EvInvoke _ o => match o with ONextMsg | OIsConnected | OAddListener _ => true | _ => false end | _ => true end) tr.
Lemma monitored_ok tr n t o : monitored tr = true -> In (n, EvInvoke t o) tr -> is_monitor_call o.
Proof.
  intros H G. unfold monitored in H. rewrite forallb_forall in H. specialize (H _ G). cbn in H. destruct o; try discriminate H; exact I.
Qed.
Lemma shaky_for_ever :
  exists tr0 st lb es,
    endless monitor 0 one_place tr0 st lb es /\ fair monitor st lb /\ (forall t, served monitor st lb t) /\
    only_calls is_monitor_call tr0 st es /\ listeners_have_room st 0 /\ keep_coming es /\
    (forall i u, In (EvInvoke u ONextMsg) (evs (upto tr0 st es i)) -> u = 2%nat) /\
    forall n, exists i, (n <= i)%nat /\ (exists l todo active, s_bg (st i) = BNotify (l :: todo) active) /\
      (exists b, in_call 1 OIsConnected (upto tr0 st es i) b) /\ (exists b, in_call 2 ONextMsg (upto tr0 st es i) b).
Proof.
  set (s := shaky_state). destruct (run monitor s shaky_cycle) as [[s1 tr]|] eqn:R; [|vm_compute in R; discriminate R].
  assert (M : sim 60000 s s1) by (vm_compute in R; injection R as <- _; repeats).
  assert (X : exec monitor 0 one_place shaky_trace s) by (apply (run_exec _ _ _ shaky_start); vm_compute; reflexivity).
  exists shaky_trace, (state_of monitor s shaky_cycle), (label_of shaky_cycle), (events_of monitor s shaky_cycle).
  assert (EN : endless monitor 0 one_place shaky_trace (state_of monitor s shaky_cycle) (label_of shaky_cycle) (events_of monitor s shaky_cycle))
    by (eapply periodic_endless; eauto; lia).
  split; [exact EN|]. split; [|split; [|split; [|split; [|split; [|split]]]]].
  - apply (periodic_fair monitor s shaky_cycle s1 tr 60000 R M ltac:(lia)).
    + intro t. exists 0%nat. split; [vm_compute; lia|]. right. destruct t as [|[|[|t]]]; idle.
    + exists 16%nat. split; [vm_compute; lia|]. left. right. right. reflexivity.
    + intro t. destruct t as [|[|[|t]]].
      * right. left. apply no_waiter_ok. vm_compute. reflexivity.
      * left. exists 10%nat, true. split; [vm_compute; lia|]. left. reflexivity.
      * left. exists 26%nat, true. split; [vm_compute; lia|]. left. reflexivity.
      * right. left. apply no_waiter_ok. vm_compute. reflexivity.
    + apply all_alive_ok. vm_compute. reflexivity.
  - intro t. destruct t as [|[|[|t]]].
    + apply (idle_served monitor s shaky_cycle s1 tr 60000 _ R M ltac:(lia)). vm_compute. reflexivity.
    + apply (moved_served monitor s shaky_cycle s1 tr 60000 1 10 R M ltac:(lia) ltac:(vm_compute; lia)). left. exists true. reflexivity.
    + apply (moved_served monitor s shaky_cycle s1 tr 60000 2 26 R M ltac:(lia) ltac:(vm_compute; lia)). left. exists true. reflexivity.
    + apply (idle_served monitor s shaky_cycle s1 tr 60000 _ R M ltac:(lia)). vm_compute. reflexivity.
  - intros i t o H. apply in_upto in H. destruct H as [G|(j&G)].
    + apply in_evs in G. destruct G as (n&G). apply (monitored_ok shaky_trace n t o); [vm_compute; reflexivity|exact G].
    + apply (events_recur monitor s shaky_cycle s1 tr 60000 R M ltac:(lia)) in G. destruct G as (n&G).
      apply (monitored_ok tr n t o); [|exact G]. clear -R. vm_compute in R. injection R as _ <-. reflexivity.
  - intros i l todo active _ G _.
    destruct (periodic monitor s shaky_cycle s1 tr 60000 R M ltac:(lia) i) as (Q&_).
    assert (A : forallb (fun r => room_at (at_step monitor s shaky_cycle r)) (seq 0 (length shaky_cycle)) = true) by (vm_compute; reflexivity).
    rewrite forallb_forall in A. specialize (A (i mod length shaky_cycle)%nat).
    assert (I : In (i mod length shaky_cycle)%nat (seq 0 (length shaky_cycle))).
    { apply in_seq. split; [lia|]. apply Nat.mod_upper_bound. discriminate. }
    apply A in I. unfold room_at in I. rewrite (m_listeners _ _ _ Q l). pose proof (m_bg _ _ _ Q) as Qb. rewrite G in Qb.
    destruct (s_bg (at_step monitor s shaky_cycle (i mod length shaky_cycle))) as [| | | | | |[|l' todo'] active'| | | | | | | |]; try discriminate Qb.
    injection Qb as -> _ _. apply Nat.ltb_lt, I.
  - intro i. destruct (recurs monitor s shaky_cycle s1 tr 60000 R M ltac:(lia) i 23 ltac:(vm_compute; lia)) as (j&Hj&Ej).
    assert (Y : exists m, option_map snd (step monitor (at_step monitor s shaky_cycle 23) (nth 23 shaky_cycle LTick)) = Some [EvEnq m] /\ bus_message m = true)
      by (vm_compute; eexists; split; reflexivity).
    destruct Y as (m&Y1&Y2). exists j, m. split; [exact Hj|]. split; [|exact Y2].
    rewrite (events_at monitor s shaky_cycle s1 tr 60000 j [EvEnq m] R M ltac:(lia)); [left; reflexivity|]. rewrite Ej. exact Y1.
  - intros i u H. apply in_upto in H. destruct H as [G|(j&G)].
    + apply in_evs in G. destruct G as (n&G). apply (fetched_ok 2 shaky_trace n u); [vm_compute; reflexivity|exact G].
    + apply (events_recur monitor s shaky_cycle s1 tr 60000 R M ltac:(lia)) in G. destruct G as (n&G).
      apply (fetched_ok 2 tr n u); [|exact G]. clear -R. vm_compute in R. injection R as _ <-. reflexivity.
  - intro n. destruct (recurs monitor s shaky_cycle s1 tr 60000 R M ltac:(lia) n 11 ltac:(vm_compute; lia)) as (i&Hi&Ei).
    exists i. split; [exact Hi|].
    assert (Ui : exec monitor 0 one_place (upto shaky_trace (state_of monitor s shaky_cycle) (events_of monitor s shaky_cycle) i) (state_of monitor s shaky_cycle i))
      by (eapply upto_exec; eauto).
    destruct (periodic monitor s shaky_cycle s1 tr 60000 R M ltac:(lia) i) as (Q&_). rewrite Ei in Q.
    split; [|split].
    + exists 0%nat, [], []. rewrite (m_bg _ _ _ Q). 
      assert (Y : s_bg (at_step monitor s shaky_cycle 11) = BNotify [0%nat] []) by (vm_compute; reflexivity). rewrite Y. reflexivity.
    + eapply hist_in_call; [exact Ui|]. pose proof (m_clients _ _ _ Q 1%nat) as Q1.
      assert (Y : s_clients (at_step monitor s shaky_cycle 11) 1 = CConnChk) by (vm_compute; reflexivity).
      rewrite Y in Q1. cbn [pc_sim] in Q1. rewrite Q1. reflexivity.
    + eapply hist_in_call; [exact Ui|]. pose proof (m_clients _ _ _ Q 2%nat) as Q1.
      assert (Y : s_clients (at_step monitor s shaky_cycle 11) 2 = CWaitQ ONextMsg 0) by (vm_compute; reflexivity).
      rewrite Y in Q1. cbn [pc_sim] in Q1. destruct Q1 as (dl&Q1). rewrite Q1. reflexivity.
Qed.

(** Without [served]: task 1 asks for the connection but is polled only while a
    new connection is being announced. *)
Definition starve_start : list label :=
  [LInvoke 0 (OAddListener 0); LCl 0 true; LCl 0 true] ++ monitor_connect 7 ++ [LBg true; LBg true; LListenerTake 0] ++
  beat 7 ++ [LInvoke 1 OIsConnected; LCl 1 true].
Definition starve_cycle : list label :=
  [LArrive (state_answer 7 0x21)] ++ repeat (LBg true) 4 ++ [LArrive (granting 7)] ++ repeat (LBg true) 5 ++
  [LListenerTake 0; LTime 60000] ++ beat 7.
Definition starve_trace : trace := trace_of monitor one_place starve_start.
Definition starve_state : sys :=
  match run monitor (init_sys 0 one_place) starve_start with Some (s, _) => s | None => init_sys 0 one_place end.
Lemma starved_for_ever :
  exists tr0 st lb es b,
    endless monitor 0 one_place tr0 st lb es /\ fair monitor st lb /\ only_calls is_monitor_call tr0 st es /\ listeners_have_room st 0 /\
    in_call 1 OIsConnected tr0 b /\ forall i, ~ is_over es 1 i.
Proof.
  set (s := starve_state). destruct (run monitor s starve_cycle) as [[s1 tr]|] eqn:R; [|vm_compute in R; discriminate R].
  assert (M : sim 60000 s s1) by (vm_compute in R; injection R as <- _; repeats).
  assert (X : exec monitor 0 one_place starve_trace s) by (apply (run_exec _ _ _ starve_start); vm_compute; reflexivity).
  exists starve_trace, (state_of monitor s starve_cycle), (label_of starve_cycle), (events_of monitor s starve_cycle). eexists.
  split; [eapply periodic_endless; eauto; lia|]. split; [|split; [|split; [|split]]].
  - apply (periodic_fair monitor s starve_cycle s1 tr 60000 R M ltac:(lia)).
    + intro t. exists 9%nat. split; [vm_compute; lia|]. right. destruct t as [|[|[|t]]]; idle.
    + exists 13%nat. split; [vm_compute; lia|]. left. right. right. reflexivity.
    + intro t. right. right. apply no_turn_ok. vm_compute. reflexivity.
    + apply all_alive_ok. vm_compute. reflexivity.
  - intros i t o H. apply in_upto in H. destruct H as [G|(j&G)].
    + apply in_evs in G. destruct G as (n&G). apply (monitored_ok starve_trace n t o); [vm_compute; reflexivity|exact G].
    + apply (events_recur monitor s starve_cycle s1 tr 60000 R M ltac:(lia)) in G. destruct G as (n&G).
      apply (monitored_ok tr n t o); [|exact G]. clear -R. vm_compute in R. injection R as _ <-. reflexivity.
  - intros i l todo active _ G _.
    destruct (periodic monitor s starve_cycle s1 tr 60000 R M ltac:(lia) i) as (Q&_).
    assert (A : forallb (fun r => room_at (at_step monitor s starve_cycle r)) (seq 0 (length starve_cycle)) = true) by (vm_compute; reflexivity).
    rewrite forallb_forall in A. specialize (A (i mod length starve_cycle)%nat).
    assert (I : In (i mod length starve_cycle)%nat (seq 0 (length starve_cycle))).
    { apply in_seq. split; [lia|]. apply Nat.mod_upper_bound. discriminate. }
    apply A in I. unfold room_at in I. rewrite (m_listeners _ _ _ Q l). pose proof (m_bg _ _ _ Q) as Qb. rewrite G in Qb.
    destruct (s_bg (at_step monitor s starve_cycle (i mod length starve_cycle))) as [| | | | | |[|l' todo'] active'| | | | | | | |]; try discriminate Qb.
    injection Qb as -> _ _. apply Nat.ltb_lt, I.
  - eexists [], 0. split; [vm_compute; reflexivity|]. cbn [In]. intuition (subst; try reflexivity; try discriminate).
  - intro i. apply (never_over monitor s starve_cycle s1 tr 60000 1 i R M ltac:(lia)). vm_compute in R. injection R as _ <-. reflexivity.
Qed.
