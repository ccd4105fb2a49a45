(** Properties C147, C148 and the general form of C58: how much is sent, how
    much is lost.  Proofs in TransportCount.v. *)
From Verif Require Import Base Addresses Apdu Tunneling Emi Core Transport Wire Spec TraceSpec TraceSpec2 CountSpec TransportBase TransportRuns TransportCount.
Open Scope N_scope.

(** ** C58 *)
Theorem C58_never_detected : forall c start ls p s l cd s1 sched s' q,
  exec c start ls p s -> arrived p = consumed p -> step c s l = Some (s1, [EvConnected cd]) ->
  run c s1 sched = Some (s', q) -> forallb undisturbed sched = true -> ~ In EvCleared (evs q).
Proof. exact never_detected. Qed.
Example C58_example :
  exists p s cd s1 s' q, exec client 0 no_listeners p s /\ arrived p = consumed p /\ step client s (LBg true) = Some (s1, [EvConnected cd]) /\
    run client s1 [LTick; LBg true; LTime 60000; LTick; LBg true] = Some (s', q) /\ length (filter heartbeat (evs q)) = 2%nat.
Proof.
  eexists _, _, _, _, _, _. split; [eapply (run_exec client 0 no_listeners (firstn 4 (connect_with 7))); vm_compute; reflexivity|].
  split; [vm_compute; reflexivity|]. split; [vm_compute; reflexivity|]. split; [vm_compute; reflexivity|vm_compute; reflexivity].
Qed.

(** ** C147 *)
Theorem C147_traffic : forall c start ls tr s,
  exec c start ls tr s -> c_mode c = MClient ->
  count task_sends tr <= count task_takes tr + 2 + (s_now s - start) / 10000 + (s_now s - start) / 60000.
Proof. exact traffic_client. Qed.
(** The monitor sends one more datagram for every connection. *)
Theorem C147_monitor_traffic : forall c start ls tr s,
  exec c start ls tr s ->
  count task_sends tr <= count task_takes tr + count takes_connecting tr + 2 + (s_now s - start) / 10000 + (s_now s - start) / 60000.
Proof. exact traffic_monitor. Qed.
Theorem C147_answers : forall c start ls tr s,
  exec c start ls tr s -> count answers tr <= count takes_receiving tr.
Proof. exact answers_bound. Qed.
Theorem C147_attempts : forall c start ls tr s,
  exec c start ls tr s -> count asks tr <= 1 + count takes_connecting tr + (s_now s - start) / 10000.
Proof. exact asks_bound. Qed.
Theorem C147_beats : forall c start ls tr s,
  exec c start ls tr s -> count beats tr <= 1 + (s_now s - start) / 60000.
Proof. exact beats_bound. Qed.
Theorem C147_calls : forall c start ls tr s t,
  exec c start ls tr s -> count (is_send t) tr <= count (calls t) tr.
Proof. exact calls_bound. Qed.
(** The bound is attained: request, heart beat and, after a receive error, the
    next request, all at once. *)
Definition busy_schedule : list label := connect_with 7 ++ [LTick; LBg true; LBgRecvErr; LBg true; LBg true; LBg true].
Example C147_example :
  exists tr s, exec client 0 no_listeners tr s /\ s_now s = 0 /\ count task_sends tr = 3 /\ count task_takes tr = 1.
Proof. execution busy_schedule. repeat split; vm_compute; reflexivity. Qed.
Example C147_session : count task_sends session = 8 /\ count answers session = 3 /\ count asks session = 3 /\ count beats session = 2.
Proof. vm_compute. repeat split. Qed.

(** ** C148 *)
Theorem C148_delivery : forall c start ls tr s f,
  exec c start ls tr s -> (forall d, f d = true -> has_message (c_prof c) d) -> Forall bytes (arrived tr) -> s_rx_alive s = true ->
  count (takes_chosen f) tr <= N.of_nat (length (queued tr)) + count ticks tr + count ack_failed tr + 1.
Proof. exact delivery. Qed.
Theorem C148_losses : forall c start ls tr s,
  exec c start ls tr s -> count drops tr <= 1 + (s_now s - start) / 60000.
Proof. exact drops_bound. Qed.
(** The bound is attained: one telegram queued, one lost to a heart beat, one in hand. *)
Definition telegram9 : list N := tunnelled 7 0 (group_ind 0x0902 [9]).
Definition is_telegram9 (d : list N) : bool := if list_eq_dec N.eq_dec d telegram9 then true else false.
Definition hurried_schedule : list label :=
  connect_with 7 ++ deliver telegram9 ++ [LArrive telegram9; LBg true; LTick; LBg true; LArrive telegram9; LBg true].
Example C148_example :
  (forall d, is_telegram9 d = true -> has_message (c_prof client) d) /\
  exists tr s, exec client 0 no_listeners tr s /\ Forall bytes (arrived tr) /\ s_rx_alive s = true /\
    count (takes_chosen is_telegram9) tr = 3 /\ length (queued tr) = 1%nat /\ count ticks tr = 1 /\ count ack_failed tr = 0.
Proof.
  split.
  - intros d H. unfold is_telegram9 in H. destruct (list_eq_dec N.eq_dec d telegram9) as [->|]; [|discriminate H].
    eexists _, _. split; [apply tunnelled_looks; vm_compute; discriminate|vm_compute; reflexivity].
  - execution hurried_schedule. split; [apply octets_dec; vm_compute; reflexivity|]. repeat split; vm_compute; reflexivity.
Qed.
