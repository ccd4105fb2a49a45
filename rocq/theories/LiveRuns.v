(** Concrete endless executions. *)
From Verif Require Import Base Addresses Apdu Tunneling Emi Core Transport Wire Spec TraceSpec TraceSpec2 LiveSpec
  TransportBase TransportReturn TransportRecover TransportShift TransportFair TransportRuns.
From Coq Require Import Lia ZifyBool ZifyNat ZifyN.
Open Scope N_scope.

Definition end_of (c : cfg) (sched : list label) : sys :=
  match run c (init_sys 0 no_listeners) sched with Some (s, _) => s | None => init_sys 0 no_listeners end.
Definition end_trace (c : cfg) (sched : list label) : trace := trace_of c no_listeners sched.
Definition beat (chan : N) : list label := [LTick; LBg true; LArrive (state_answer chan 0); LBg true].

(** The background task picks up the answer to get_connection_status; every
    later heart beat is answered as well.  Another task waits for the mutex. *)
Definition status_start : list label :=
  connect_with 7 ++ beat 7 ++ [LInvoke 1 OStatus; LCl 1 true; LCl 1 true; LCl 1 true; LCl 1 true; LArrive (state_answer 7 0); LBg true;
     LInvoke 2 (OWrite lamp [1] true)].
Definition status_cycle : list label := LTime 60000 :: beat 7.
(** A read while another address is busy. *)
Definition busy : list label := deliver (tunnelled 7 0 (group_ind 0x0902 [5])) ++ [LCl 1 true].
Definition read_start : list label := connect_with 7 ++ beat 7 ++ call4 1 (ORead lamp) ++ [LInvoke 2 (OWrite other [1] true)].
Definition read_cycle : list label :=
  concat (repeat (LTime 9000 :: busy) 6) ++ LTime 6000 :: beat 7 ++ busy.
(** A disconnect whose answer is lost. *)
Definition bye_start : list label := connect_with 7 ++ beat 7 ++ call4 1 ODisconnect ++ [LInvoke 2 (OWrite lamp [1] true)].
Definition bye_cycle : list label := [LTime 60000; LTick; LBg true].
(** Two tasks writing without end: one write is confirmed, the other times out,
    then the gateway closes the channel and a new one is opened. *)
Definition write_start : list label := connect_with 7 ++ beat 7.
Definition write_cycle : list label :=
  [LInvoke 1 (OWrite lamp [1] true); LInvoke 2 (OWrite other [0] true)] ++ repeat (LCl 1 true) 4 ++
  deliver (tunnelled 7 0 (group_con 0xbc 0x0901 [])) ++ [LCl 1 true] ++ repeat (LCl 2 true) 4 ++
  [LTime 10000; LTimeout 2; LTime 50000; LTick; LBg true; LArrive (state_answer 7 0x21)] ++ repeat (LBg true) 4 ++
  [LArrive (granting 7); LBg true; LBg true].

(** ** What has to be computed about a cycle *)
Definition no_waiter (c : cfg) (s : sys) (cyc : list label) (t : nat) : bool :=
  forallb (fun r => match s_clients (at_step c s cyc r) t with CLock _ => false | _ => true end) (seq 0 (length cyc)).
Lemma no_waiter_ok c s cyc t : no_waiter c s cyc t = true ->
  forall r o, (r < length cyc)%nat -> s_clients (at_step c s cyc r) t <> CLock o.
Proof.
  intros H r o Hr E. unfold no_waiter in H. rewrite forallb_forall in H. specialize (H r). rewrite E in H.
  discriminate H. apply in_seq. lia.
Qed.
Definition no_turn (c : cfg) (s : sys) (cyc : list label) : bool :=
  forallb (fun r => match nth r cyc LTick with LCl u _ => match s_clients (at_step c s cyc r) u with CLock _ => false | _ => true end | _ => true end)
    (seq 0 (length cyc)).
Lemma no_turn_ok c s cyc : no_turn c s cyc = true ->
  forall r u ok o, (r < length cyc)%nat -> nth r cyc LTick = LCl u ok -> s_clients (at_step c s cyc r) u <> CLock o.
Proof.
  intros H r u ok o Hr E1 E2. unfold no_turn in H. rewrite forallb_forall in H. specialize (H r). rewrite E1, E2 in H.
  discriminate H. apply in_seq. lia.
Qed.
Definition all_alive (c : cfg) (s : sys) (cyc : list label) : bool :=
  forallb (fun r => s_rx_alive (at_step c s cyc r)) (seq 0 (length cyc)).
Lemma all_alive_ok c s cyc : all_alive c s cyc = true -> forall r, (r < length cyc)%nat -> s_rx_alive (at_step c s cyc r) = true.
Proof. intros H r Hr. unfold all_alive in H. rewrite forallb_forall in H. apply H, in_seq. lia. Qed.
Definition all_open (c : cfg) (s : sys) (cyc : list label) : bool :=
  forallb (fun r => negb (cd_locked (at_step c s cyc r))) (seq 0 (length cyc)).
Lemma all_open_ok c s cyc : all_open c s cyc = true -> forall r, (r < length cyc)%nat -> cd_locked (at_step c s cyc r) = false.
Proof. intros H r Hr. unfold all_open in H. rewrite forallb_forall in H. apply Bool.negb_true_iff, H, in_seq. lia. Qed.
Definition never_ends (t : nat) (tr : trace) : bool := forallb (fun x => negb (call_end t (snd x))) tr.
Lemma never_over c s cyc s1 tr P t i :
  run c s cyc = Some (s1, tr) -> sim P s s1 -> 0 < P -> never_ends t tr = true -> ~ is_over (events_of c s cyc) t i.
Proof.
  intros H1 H2 H3 H4 (j&e&_&I&C). destruct (events_recur c s cyc s1 tr P H1 H2 H3 j e I) as (n'&G).
  unfold never_ends in H4. rewrite forallb_forall in H4. specialize (H4 _ G). cbn in H4. rewrite C in H4. discriminate H4.
Qed.
Ltac repeats := constructor; try (vm_compute; reflexivity);
  first [vm_compute; left; reflexivity | vm_compute; right; split; reflexivity |
    let t := fresh "t" in intro t; do 3 (destruct t as [|t]; [vm_compute; first [reflexivity | eexists; reflexivity]|]); vm_compute; reflexivity].
Ltac idle := let l := fresh in let H := fresh in let ok := fresh in intros l H; destruct H as [(ok&->)| ->]; vm_compute; reflexivity.

(** ** Calls that never end *)
(** In the cycle [cyc] from the end of [start] on, which takes a minute. *)
Ltac endless_run start cyc blocked beats :=
  let s := fresh "s" in let R := fresh "R" in let M := fresh "M" in let X := fresh "X" in
  let s1 := fresh "s1" in let tr := fresh "tr" in let t := fresh "t" in let i := fresh "i" in
  set (s := end_of client start); destruct (run client s cyc) as [[s1 tr]|] eqn:R; [|vm_compute in R; discriminate R];
  assert (M : sim 60000 s s1) by (vm_compute in R; injection R as <- _; repeats);
  assert (X : exec client 0 no_listeners (end_trace client start) s) by (apply (run_exec _ _ _ start); vm_compute; reflexivity);
  exists (end_trace client start), (state_of client s cyc), (label_of cyc), (events_of client s cyc); do 2 eexists;
  split; [eapply periodic_endless; eauto; lia|];
  split;
  [ apply (periodic_fair client s cyc s1 tr 60000 R M ltac:(lia));
    [ intro t; exists blocked; split; [vm_compute; lia|]; right; destruct t as [|[|[|t]]]; idle
    | exists beats; split; [vm_compute; lia|]; left; right; right; reflexivity
    | intro t; right; right; apply no_turn_ok; vm_compute; reflexivity
    | apply all_alive_ok; vm_compute; reflexivity ]
  | ];
  split; [eexists [], 0; split; [vm_compute; reflexivity|]; cbn [In]; intuition (subst; try reflexivity; try discriminate)|];
  split; [eexists [], 0; split; [vm_compute; reflexivity|]; cbn [In]; intuition (subst; try reflexivity; try discriminate)|];
  split; [do 2 eexists; cbn [In]; eauto|];
  intro i; split; apply (never_over client s cyc s1 tr 60000); auto; try lia; vm_compute in R; injection R as _ <-; reflexivity.

(** Task 1 has sent its request, task 2 waits for the mutex, for ever. *)
Definition stuck (o o2 : op) : Prop :=
  exists tr0 st lb es b1 b2,
    endless client 0 no_listeners tr0 st lb es /\ fair client st lb /\
    in_call 1 o tr0 b1 /\ in_call 2 o2 tr0 b2 /\ (exists n d, In (n, EvSend (Cl 1) d) b1) /\
    forall i, ~ is_over es 1 i /\ ~ is_over es 2 i.
Lemma status_for_ever : stuck OStatus (OWrite lamp [1] true).
Proof. endless_run status_start status_cycle 0%nat 1%nat. Qed.
Lemma bye_for_ever : stuck ODisconnect (OWrite lamp [1] true).
Proof. endless_run bye_start bye_cycle 0%nat 1%nat. Qed.
Lemma read_for_ever : stuck (ORead lamp) (OWrite other [1] true).
Proof. endless_run read_start read_cycle 0%nat 37%nat. Qed.

Lemma in_upto tr0 st es i e : In e (evs (upto tr0 st es i)) -> In e (evs tr0) \/ exists j, In e (es j).
Proof.
  induction i as [|i IH]; intro H; [left; exact H|]. cbn [upto] in H. rewrite evs_app, evs_stamp in H.
  apply in_app_or in H. destruct H as [H|H]; eauto.
Qed.
(** ** Writes without end *)
Lemma writes_for_ever :
  exists tr0 st lb es,
    endless client 0 no_listeners tr0 st lb es /\ fair client st lb /\ only_calls is_write tr0 st es /\
    forall n, exists i, (n <= i)%nat /\
      (exists b, in_call 1 (OWrite lamp [1] true) (upto tr0 st es i) b) /\ (exists b, in_call 2 (OWrite other [0] true) (upto tr0 st es i) b).
Proof.
  set (s := end_of client write_start). destruct (run client s write_cycle) as [[s1 tr]|] eqn:R; [|vm_compute in R; discriminate R].
  assert (M : sim 60000 s s1) by (vm_compute in R; injection R as <- _; repeats).
  assert (X : exec client 0 no_listeners (end_trace client write_start) s) by (apply (run_exec _ _ _ write_start); vm_compute; reflexivity).
  exists (end_trace client write_start), (state_of client s write_cycle), (label_of write_cycle), (events_of client s write_cycle).
  assert (EN : endless client 0 no_listeners (end_trace client write_start) (state_of client s write_cycle) (label_of write_cycle) (events_of client s write_cycle))
    by (eapply periodic_endless; eauto; lia).
  split; [exact EN|]. split; [|split].
  - apply (periodic_fair client s write_cycle s1 tr 60000 R M ltac:(lia)).
    + intro t. exists 0%nat. split; [vm_compute; lia|]. right. destruct t as [|[|[|t]]]; idle.
    + exists 18%nat. split; [vm_compute; lia|]. left. right. right. reflexivity.
    + intro t. destruct t as [|[|[|t]]].
      * right. left. apply no_waiter_ok. vm_compute. reflexivity.
      * left. exists 2%nat, true. split; [vm_compute; lia|]. left. reflexivity.
      * left. exists 11%nat, true. split; [vm_compute; lia|]. left. reflexivity.
      * right. left. apply no_waiter_ok. vm_compute. reflexivity.
    + apply all_alive_ok. vm_compute. reflexivity.
  - intros i t o H. apply in_upto in H. destruct H as [G|(j&G)].
    + vm_compute in G. intuition discriminate.
    + apply (events_recur client s write_cycle s1 tr 60000 R M ltac:(lia)) in G. destruct G as (n&G).
      vm_compute in R. injection R as _ <-. repeat destruct G as [G|G]; try discriminate G; try contradiction G; injection G as _ _ <-; exact I.
  - intro n. destruct (recurs client s write_cycle s1 tr 60000 R M ltac:(lia) n 2 ltac:(vm_compute; lia)) as (i&Hi&Ei).
    exists i. split; [exact Hi|].
    assert (Ui : exec client 0 no_listeners (upto (end_trace client write_start) (state_of client s write_cycle) (events_of client s write_cycle) i) (state_of client s write_cycle i))
      by (eapply upto_exec; eauto).
    destruct (periodic client s write_cycle s1 tr 60000 R M ltac:(lia) i) as (Q&_). rewrite Ei in Q.
    split; eapply hist_in_call; try exact Ui.
    + pose proof (m_clients _ _ _ Q 1%nat) as Q1.
      assert (Y : s_clients (at_step client s write_cycle 2) 1 = CLock (OWrite lamp [1] true)) by (vm_compute; reflexivity).
      rewrite Y in Q1. cbn [pc_sim] in Q1. rewrite Q1. reflexivity.
    + pose proof (m_clients _ _ _ Q 2%nat) as Q1.
      assert (Y : s_clients (at_step client s write_cycle 2) 2 = CLock (OWrite other [0] true)) by (vm_compute; reflexivity).
      rewrite Y in Q1. cbn [pc_sim] in Q1. rewrite Q1. reflexivity.
Qed.

(** ** A monitor: one task asks for the connection over and over, the other waits
    for bus messages. *)
Definition watch_start : list label := monitor_connect 7 ++ [LBg true] ++ beat 7 ++ [LInvoke 2 ONextMsg; LCl 2 true].
Definition watch_cycle : list label :=
  [LInvoke 1 OIsConnected; LCl 1 true; LCl 1 true; LTime 60000] ++ beat 7 ++
  deliver (tunnelled 7 0 (group_ind 0x0902 [5])) ++ [LCl 2 true; LInvoke 2 ONextMsg; LCl 2 true].
Definition watching (tr : trace) : bool :=
  forallb (fun x => match snd x with EvInvoke _ o => match o with ONextMsg | OIsConnected => true | _ => false end | _ => true end) tr.
Lemma watching_ok tr n t o : watching tr = true -> In (n, EvInvoke t o) tr -> is_monitor_call o.
Proof.
  intros H G. unfold watching in H. rewrite forallb_forall in H. specialize (H _ G). cbn in H. destruct o; try discriminate H; exact I.
Qed.
Lemma watch_for_ever :
  exists tr0 st lb es,
    endless monitor 0 no_listeners tr0 st lb es /\ fair monitor st lb /\ only_calls is_monitor_call tr0 st es /\
    (forall i, cd_locked (st i) = false) /\
    forall n, exists i, (n <= i)%nat /\ (exists b, in_call 1 OIsConnected (upto tr0 st es i) b).
Proof.
  set (s := end_of monitor watch_start). destruct (run monitor s watch_cycle) as [[s1 tr]|] eqn:R; [|vm_compute in R; discriminate R].
  assert (M : sim 60000 s s1) by (vm_compute in R; injection R as <- _; repeats).
  assert (X : exec monitor 0 no_listeners (end_trace monitor watch_start) s) by (apply (run_exec _ _ _ watch_start); vm_compute; reflexivity).
  exists (end_trace monitor watch_start), (state_of monitor s watch_cycle), (label_of watch_cycle), (events_of monitor s watch_cycle).
  assert (EN : endless monitor 0 no_listeners (end_trace monitor watch_start) (state_of monitor s watch_cycle) (label_of watch_cycle) (events_of monitor s watch_cycle))
    by (eapply periodic_endless; eauto; lia).
  split; [exact EN|]. split; [|split; [|split]].
  - apply (periodic_fair monitor s watch_cycle s1 tr 60000 R M ltac:(lia)).
    + intro t. exists 0%nat. split; [vm_compute; lia|]. right. destruct t as [|[|[|t]]]; idle.
    + exists 4%nat. split; [vm_compute; lia|]. left. right. right. reflexivity.
    + intro t. destruct t as [|[|[|t]]].
      * right. left. apply no_waiter_ok. vm_compute. reflexivity.
      * left. exists 1%nat, true. split; [vm_compute; lia|]. left. reflexivity.
      * left. exists 14%nat, true. split; [vm_compute; lia|]. left. reflexivity.
      * right. left. apply no_waiter_ok. vm_compute. reflexivity.
    + apply all_alive_ok. vm_compute. reflexivity.
  - intros i t o H. apply in_upto in H. destruct H as [G|(j&G)].
    + apply in_evs in G. destruct G as (n&G). apply (watching_ok (end_trace monitor watch_start) n t o); [vm_compute; reflexivity|exact G].
    + apply (events_recur monitor s watch_cycle s1 tr 60000 R M ltac:(lia)) in G. destruct G as (n&G).
      apply (watching_ok tr n t o); [|exact G]. clear -R. vm_compute in R. injection R as _ <-. reflexivity.
  - intro i. destruct (periodic monitor s watch_cycle s1 tr 60000 R M ltac:(lia) i) as (Q&_).
    rewrite (locked_shift _ _ _ Q). revert i Q. intros i _.
    assert (A : all_open monitor s watch_cycle = true) by (vm_compute; reflexivity).
    apply (all_open_ok _ _ _ A). apply Nat.mod_upper_bound. discriminate.
  - intro n. destruct (recurs monitor s watch_cycle s1 tr 60000 R M ltac:(lia) n 1 ltac:(vm_compute; lia)) as (i&Hi&Ei).
    exists i. split; [exact Hi|].
    assert (Ui : exec monitor 0 no_listeners (upto (end_trace monitor watch_start) (state_of monitor s watch_cycle) (events_of monitor s watch_cycle) i) (state_of monitor s watch_cycle i))
      by (eapply upto_exec; eauto).
    destruct (periodic monitor s watch_cycle s1 tr 60000 R M ltac:(lia) i) as (Q&_). rewrite Ei in Q.
    eapply hist_in_call; try exact Ui. pose proof (m_clients _ _ _ Q 1%nat) as Q1.
    assert (Y : s_clients (at_step monitor s watch_cycle 1) 1 = CLock OIsConnected) by (vm_compute; reflexivity).
    rewrite Y in Q1. cbn [pc_sim] in Q1. rewrite Q1. reflexivity.
Qed.

(** ** Reads that time out over and over on a silent bus *)
Definition silent_cycle : list label :=
  call4 1 (ORead lamp) ++ [LTime 10000; LTimeout 1; LTime 50000; LTick; LBg true; LArrive (state_answer 7 0x21)] ++ repeat (LBg true) 4 ++
  [LArrive (granting 7); LBg true; LBg true].
Definition silent (tr : trace) : bool :=
  forallb (fun x => match snd x with EvInvoke _ o => match o with ORead _ => true | _ => false end | EvEnq _ => false | _ => true end) tr.
Lemma silent_call tr n t o : silent tr = true -> In (n, EvInvoke t o) tr -> is_transfer o.
Proof.
  intros H G. unfold silent in H. rewrite forallb_forall in H. specialize (H _ G). cbn in H. destruct o; try discriminate H; exact I.
Qed.
Lemma silent_queue tr n m : silent tr = true -> ~ In (n, EvEnq m) tr.
Proof. intros H G. unfold silent in H. rewrite forallb_forall in H. specialize (H _ G). discriminate H. Qed.
Lemma reads_for_ever :
  exists tr0 st lb es,
    endless client 0 no_listeners tr0 st lb es /\ fair client st lb /\ only_calls is_transfer tr0 st es /\ falls_silent es 0 /\
    forall n, exists i, (n <= i)%nat /\ (exists b, in_call 1 (ORead lamp) (upto tr0 st es i) b).
Proof.
  set (s := end_of client write_start). destruct (run client s silent_cycle) as [[s1 tr]|] eqn:R; [|vm_compute in R; discriminate R].
  assert (M : sim 60000 s s1) by (vm_compute in R; injection R as <- _; repeats).
  assert (X : exec client 0 no_listeners (end_trace client write_start) s) by (apply (run_exec _ _ _ write_start); vm_compute; reflexivity).
  assert (Si : silent tr = true) by (clear -R; vm_compute in R; injection R as _ <-; reflexivity).
  exists (end_trace client write_start), (state_of client s silent_cycle), (label_of silent_cycle), (events_of client s silent_cycle).
  assert (EN : endless client 0 no_listeners (end_trace client write_start) (state_of client s silent_cycle) (label_of silent_cycle) (events_of client s silent_cycle))
    by (eapply periodic_endless; eauto; lia).
  split; [exact EN|]. split; [|split; [|split]].
  - apply (periodic_fair client s silent_cycle s1 tr 60000 R M ltac:(lia)).
    + intro t. exists 0%nat. split; [vm_compute; lia|]. right. destruct t as [|[|[|t]]]; idle.
    + exists 8%nat. split; [vm_compute; lia|]. left. right. right. reflexivity.
    + intro t. destruct t as [|[|t]].
      * right. left. apply no_waiter_ok. vm_compute. reflexivity.
      * left. exists 1%nat, true. split; [vm_compute; lia|]. left. reflexivity.
      * right. left. apply no_waiter_ok. vm_compute. reflexivity.
    + apply all_alive_ok. vm_compute. reflexivity.
  - intros i t o H. apply in_upto in H. destruct H as [G|(j&G)].
    + apply in_evs in G. destruct G as (n&G). apply (silent_call (end_trace client write_start) n t o); [vm_compute; reflexivity|exact G].
    + apply (events_recur client s silent_cycle s1 tr 60000 R M ltac:(lia)) in G. destruct G as (n&G).
      apply (silent_call tr n t o Si G).
  - intros i m _ G. apply (events_recur client s silent_cycle s1 tr 60000 R M ltac:(lia)) in G. destruct G as (n&G).
    apply (silent_queue tr n m Si G).
  - intro n. destruct (recurs client s silent_cycle s1 tr 60000 R M ltac:(lia) n 1 ltac:(vm_compute; lia)) as (i&Hi&Ei).
    exists i. split; [exact Hi|].
    assert (Ui : exec client 0 no_listeners (upto (end_trace client write_start) (state_of client s silent_cycle) (events_of client s silent_cycle) i) (state_of client s silent_cycle i))
      by (eapply upto_exec; eauto).
    destruct (periodic client s silent_cycle s1 tr 60000 R M ltac:(lia) i) as (Q&_). rewrite Ei in Q.
    eapply hist_in_call; try exact Ui. pose proof (m_clients _ _ _ Q 1%nat) as Q1.
    assert (Y : s_clients (at_step client s silent_cycle 1) 1 = CLock (ORead lamp)) by (vm_compute; reflexivity).
    rewrite Y in Q1. cbn [pc_sim] in Q1. rewrite Q1. reflexivity.
Qed.

(** ** The task alone *)
(** Nothing to say: the connection stays up. *)
Definition calm_start : list label := connect_with 7 ++ beat 7.
Definition calm_cycle : list label := LTime 60000 :: beat 7.
Definition always_some (c : cfg) (s : sys) (cyc : list label) (b : bool) : bool :=
  forallb (fun r => Bool.eqb (is_some (s_conn (at_step c s cyc r))) b) (seq 0 (length cyc)).
Lemma always_some_ok c s cyc b : always_some c s cyc b = true -> forall r, (r < length cyc)%nat -> is_some (s_conn (at_step c s cyc r)) = b.
Proof. intros H r Hr. unfold always_some in H. rewrite forallb_forall in H. apply Bool.eqb_prop, H, in_seq. lia. Qed.
Lemma connected_periodic c s cyc s1 tr P start ls tr0 b :
  run c s cyc = Some (s1, tr) -> sim P s s1 -> 0 < P -> exec c start ls tr0 s -> always_some c s cyc b = true ->
  forall i, connected_now (upto tr0 (state_of c s cyc) (events_of c s cyc) i) = b.
Proof.
  intros R M HP X A i.
  assert (EN : endless c start ls tr0 (state_of c s cyc) (label_of cyc) (events_of c s cyc)) by (eapply periodic_endless; eauto).
  rewrite (connected_inv _ _ _ _ _ (upto_exec _ _ _ _ _ _ _ EN i)).
  destruct (periodic c s cyc s1 tr P R M HP i) as (Q&_). rewrite (m_conn _ _ _ Q).
  apply (always_some_ok _ _ _ _ A). apply Nat.mod_upper_bound. pose proof (p_pos _ _ _ _ _ _ R M HP). lia.
Qed.
Lemma calm_for_ever :
  exists tr0 st lb es,
    endless client 0 no_listeners tr0 st lb es /\ fair client st lb /\ tick_polled client st lb /\
    forall i, connected_now (upto tr0 st es i) = true.
Proof.
  set (s := end_of client calm_start). destruct (run client s calm_cycle) as [[s1 tr]|] eqn:R; [|vm_compute in R; discriminate R].
  assert (M : sim 60000 s s1) by (vm_compute in R; injection R as <- _; repeats).
  assert (X : exec client 0 no_listeners (end_trace client calm_start) s) by (apply (run_exec _ _ _ calm_start); vm_compute; reflexivity).
  exists (end_trace client calm_start), (state_of client s calm_cycle), (label_of calm_cycle), (events_of client s calm_cycle).
  split; [eapply periodic_endless; eauto; lia|]. split; [|split].
  - apply (periodic_fair client s calm_cycle s1 tr 60000 R M ltac:(lia)).
    + intro t. exists 0%nat. split; [vm_compute; lia|]. right. destruct t as [|[|[|t]]]; idle.
    + exists 1%nat. split; [vm_compute; lia|]. left. right. right. reflexivity.
    + intro t. right. left. apply no_waiter_ok. vm_compute. reflexivity.
    + apply all_alive_ok. vm_compute. reflexivity.
  - intro i. destruct (recurs client s calm_cycle s1 tr 60000 R M ltac:(lia) i 1 ltac:(vm_compute; lia)) as (j&Hj&Ej).
    exists j. split; [exact Hj|]. left. unfold label_of. rewrite Ej. reflexivity.
  - apply (connected_periodic client s calm_cycle s1 tr 60000 0 no_listeners _ _ R M ltac:(lia) X). vm_compute. reflexivity.
Qed.
(** A gateway that never answers. *)
Definition deaf_start : list label := [LTime 1000; LBg true].
Definition deaf_cycle : list label := [LBg true; LTime 30000; LBgTimeout; LTime 10000; LBg true].
Lemma deaf_for_ever :
  exists tr0 st lb es,
    endless client 0 no_listeners tr0 st lb es /\ fair client st lb /\
    forall i, connected_now (upto tr0 st es i) = false.
Proof.
  set (s := end_of client deaf_start). destruct (run client s deaf_cycle) as [[s1 tr]|] eqn:R; [|vm_compute in R; discriminate R].
  assert (M : sim 40000 s s1) by (vm_compute in R; injection R as <- _; repeats).
  assert (X : exec client 0 no_listeners (end_trace client deaf_start) s) by (apply (run_exec _ _ _ deaf_start); vm_compute; reflexivity).
  exists (end_trace client deaf_start), (state_of client s deaf_cycle), (label_of deaf_cycle), (events_of client s deaf_cycle).
  split; [eapply periodic_endless; eauto; lia|]. split.
  - apply (periodic_fair client s deaf_cycle s1 tr 40000 R M ltac:(lia)).
    + intro t. exists 0%nat. split; [vm_compute; lia|]. right. destruct t as [|[|[|t]]]; idle.
    + exists 0%nat. split; [vm_compute; lia|]. left. left. exists true. reflexivity.
    + intro t. right. left. apply no_waiter_ok. vm_compute. reflexivity.
    + apply all_alive_ok. vm_compute. reflexivity.
  - apply (connected_periodic client s deaf_cycle s1 tr 40000 0 no_listeners _ _ R M ltac:(lia) X). vm_compute. reflexivity.
Qed.

(** ** A gateway that gives up the connection every minute and grants a new one *)
Lemma arrive_label c s l s' es d : step c s l = Some (s', es) -> In (EvArrive d) es -> l = LArrive d.
Proof.
  intros Hs Hi. destruct (bg_label l) eqn:Hb; [|destruct (call_label l) as [t|] eqn:Hl].
  - destruct (bg_frame _ _ _ _ _ Hs Hb) as (_&_&_&_&A). apply forallb_forall with (x := EvArrive d) in A; [discriminate A|exact Hi].
  - destruct (call_frame _ _ _ _ _ _ Hs Hl) as (_&_&_&_&_&_&_&A). apply forallb_forall with (x := EvArrive d) in A; [discriminate A|exact Hi].
  - destruct l; try discriminate Hb; try discriminate Hl; inv_step Hs; cbn in Hi; try contradiction Hi. destruct Hi as [Hi|[]]. congruence.
Qed.
Lemma fail_label c s l s' es d : step c s l = Some (s', es) -> In (EvSendFail Bg d) es -> l = LBg false.
Proof.
  intros Hs Hi. destruct (bg_label l) eqn:Hb; [|destruct (call_label l) as [t|] eqn:Hl].
  - destruct l as [| |[]| | | | | | | | | | | |]; try discriminate Hb; [|reflexivity| | |]; exfalso; inv_step Hs; cbn [In stop_events app] in Hi;
      repeat match goal with H : _ \/ _ |- _ => destruct H as [H|H]; try discriminate H; try contradiction H end; try contradiction.
    all: match goal with H : In _ (stop_events ?b) |- _ => destruct b; cbn in H; intuition discriminate end.
  - destruct (call_frame _ _ _ _ _ _ Hs Hl) as (_&_&_&_&_&_&_&A). apply forallb_forall with (x := EvSendFail Bg d) in A; [discriminate A|exact Hi].
  - destruct (env_frame _ _ _ _ _ Hs Hb Hl) as (_&_&_&_&_&_&_&_&[(x&A&_)|(A&_)]); rewrite A in Hi; [destruct Hi as [Hi|[]]; discriminate Hi|destruct Hi].
Qed.
Definition willing_at_step (c : cfg) (s : sys) (cyc : list label) (r : nat) : bool :=
  match nth r cyc LTick with
  | LArrive d => is_some (s_conn (at_step c s cyc r)) || (if list_eq_dec N.eq_dec d (granting 7) then true else false)
  | LBgRecvErr | LBgTimeout | LBg false => false
  | _ => true
  end.
Definition willing_cycle (c : cfg) (s : sys) (cyc : list label) : bool := forallb (willing_at_step c s cyc) (seq 0 (length cyc)).
Lemma granting_grants : bytes (granting 7) /\ exists ch ep, grants (granting 7) ch ep.
Proof.
  split; [vm_compute; repeat constructor|]. exists 7, gateway. exists 20, 0x1101, (repeat 0 80).
  split; [split; vm_compute; congruence|]. split; [reflexivity|]. split; [reflexivity|].
  split; [reflexivity|]. split; [repeat constructor|]. split; reflexivity.
Qed.
Lemma willing_periodic c s cyc s1 tr P start ls tr0 k :
  run c s cyc = Some (s1, tr) -> sim P s s1 -> 0 < P -> exec c start ls tr0 s ->
  willing_cycle c s cyc = true -> (k < length cyc)%nat -> nth k cyc LTick = LArrive (granting 7) ->
  willing tr0 (state_of c s cyc) (label_of cyc) (events_of c s cyc) 0.
Proof.
  intros R M HP X A Hk Ek.
  assert (EN : endless c start ls tr0 (state_of c s cyc) (label_of cyc) (events_of c s cyc)) by (eapply periodic_endless; eauto).
  assert (Ok : forall i, willing_at_step c s cyc (i mod length cyc) = true).
  { intro i. unfold willing_cycle in A. rewrite forallb_forall in A. apply A, in_seq.
    pose proof (Nat.mod_upper_bound i (length cyc) ltac:(lia)). lia. }
  constructor.
  - intros i d _ G. apply (fail_label _ _ _ _ _ _ (en_step _ _ _ _ _ _ _ EN i)) in G. specialize (Ok i).
    unfold willing_at_step in Ok. fold (label_of cyc i) in Ok. rewrite G in Ok. discriminate Ok.
  - intros i _ G. specialize (Ok i). unfold willing_at_step in Ok. fold (label_of cyc i) in Ok. rewrite G in Ok. discriminate Ok.
  - intros i _ G. specialize (Ok i). unfold willing_at_step in Ok. fold (label_of cyc i) in Ok. rewrite G in Ok. discriminate Ok.
  - intros i d _ C G. apply (arrive_label _ _ _ _ _ _ (en_step _ _ _ _ _ _ _ EN i)) in G. specialize (Ok i).
    unfold willing_at_step in Ok. fold (label_of cyc i) in Ok. rewrite G in Ok.
    rewrite (connected_inv _ _ _ _ _ (upto_exec _ _ _ _ _ _ _ EN i)) in C.
    destruct (periodic c s cyc s1 tr P R M HP i) as (Q&_). rewrite (m_conn _ _ _ Q) in C. rewrite C in Ok.
    destruct (list_eq_dec N.eq_dec d (granting 7)) as [->|]; [apply granting_grants|discriminate Ok].
  - intros i _ _. destruct (recurs c s cyc s1 tr P R M HP i k Hk) as (j&Hj&Ej). exists j, (granting 7). split; [exact Hj|].
    pose proof (en_step _ _ _ _ _ _ _ EN j) as Hs. unfold label_of in Hs. rewrite Ej, Ek in Hs. injection Hs as _ <-. left. reflexivity.
Qed.
Lemma granted_for_ever :
  exists tr0 st lb es,
    endless client 0 no_listeners tr0 st lb es /\ fair client st lb /\ willing tr0 st lb es 0 /\
    forall n, exists i, (n <= i)%nat /\ connected_now (upto tr0 st es i) = false.
Proof.
  set (s := end_of client write_start). destruct (run client s silent_cycle) as [[s1 tr]|] eqn:R; [|vm_compute in R; discriminate R].
  assert (M : sim 60000 s s1) by (vm_compute in R; injection R as <- _; repeats).
  assert (X : exec client 0 no_listeners (end_trace client write_start) s) by (apply (run_exec _ _ _ write_start); vm_compute; reflexivity).
  exists (end_trace client write_start), (state_of client s silent_cycle), (label_of silent_cycle), (events_of client s silent_cycle).
  assert (EN : endless client 0 no_listeners (end_trace client write_start) (state_of client s silent_cycle) (label_of silent_cycle) (events_of client s silent_cycle))
    by (eapply periodic_endless; eauto; lia).
  split; [exact EN|]. split; [|split].
  - apply (periodic_fair client s silent_cycle s1 tr 60000 R M ltac:(lia)).
    + intro t. exists 0%nat. split; [vm_compute; lia|]. right. destruct t as [|[|[|t]]]; idle.
    + exists 8%nat. split; [vm_compute; lia|]. left. right. right. reflexivity.
    + intro t. destruct t as [|[|t]].
      * right. left. apply no_waiter_ok. vm_compute. reflexivity.
      * left. exists 1%nat, true. split; [vm_compute; lia|]. left. reflexivity.
      * right. left. apply no_waiter_ok. vm_compute. reflexivity.
    + apply all_alive_ok. vm_compute. reflexivity.
  - apply (willing_periodic client s silent_cycle s1 tr 60000 0 no_listeners _ 15 R M ltac:(lia) X); [vm_compute; reflexivity|vm_compute; lia|reflexivity].
  - intro n. destruct (recurs client s silent_cycle s1 tr 60000 R M ltac:(lia) n 15 ltac:(vm_compute; lia)) as (i&Hi&Ei).
    exists i. split; [exact Hi|]. rewrite (connected_inv _ _ _ _ _ (upto_exec _ _ _ _ _ _ _ EN i)).
    destruct (periodic client s silent_cycle s1 tr 60000 R M ltac:(lia) i) as (Q&_). rewrite (m_conn _ _ _ Q), Ei.
    assert (Y : s_conn (at_step client s silent_cycle 15) = None) by (vm_compute; reflexivity). rewrite Y. reflexivity.
Qed.
