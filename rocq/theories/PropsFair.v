(** Properties C133-C137, C139, C140, C142: which calls end in every fair endless execution; only
    elapsed time matters; the task keeps asking for a connection and keeps it alive. *)
From Verif Require Import Base Addresses Apdu Tunneling Emi Core Transport Wire Spec TraceSpec TraceSpec2 LiveSpec SessionSpec MonitorSpec
  TransportBase TransportShift TransportFair TransportFair2 TransportFair3 TransportFair4 TransportFair5 TransportReturn TransportRuns LiveRuns LiveRuns2 LiveRuns3.
Open Scope N_scope.

(** ** C133 *)
Theorem C133_writes_end : forall c start ls tr0 st lb es,
  endless c start ls tr0 st lb es -> fair c st lb -> only_calls is_write tr0 st es ->
  forall i t o body, in_call t o (upto tr0 st es i) body -> is_over es t i.
Proof. intros c start ls tr0 st lb es E F H. apply (transfers_end c start ls tr0 st lb es E F). left. exact H. Qed.
(** Two tasks that write without end, one confirmed and one timing out. *)
Example C133_example :
  exists tr0 st lb es,
    endless client 0 no_listeners tr0 st lb es /\ fair client st lb /\ only_calls is_write tr0 st es /\
    forall n, exists i, (n <= i)%nat /\
      (exists b, in_call 1 (OWrite lamp [1] true) (upto tr0 st es i) b) /\ (exists b, in_call 2 (OWrite other [0] true) (upto tr0 st es i) b).
Proof. exact writes_for_ever. Qed.

(** ** C134 *)
(** A status query whose answer the background task picked up, a disconnect whose
    answer was lost, and a read while other addresses are busy never end, and
    neither does the write that waits behind them. *)
Theorem C134_calls_end_refuted : forall o o2,
  In (o, o2) [(OStatus, OWrite lamp [1] true); (ODisconnect, OWrite lamp [1] true); (ORead lamp, OWrite other [1] true)] ->
  exists tr0 st lb es b1 b2,
    endless client 0 no_listeners tr0 st lb es /\ fair client st lb /\
    in_call 1 o tr0 b1 /\ in_call 2 o2 tr0 b2 /\ (exists n d, In (n, EvSend (Cl 1) d) b1) /\
    forall i, ~ is_over es 1 i /\ ~ is_over es 2 i.
Proof.
  intros o o2 [H|[H|[H|[]]]]; injection H as <- <-; [exact status_for_ever|exact bye_for_ever|exact read_for_ever].
Qed.
(** Reads and writes end once the bus falls silent. *)
Theorem C134_transfers_end_partial : forall c start ls tr0 st lb es i0,
  endless c start ls tr0 st lb es -> fair c st lb -> only_calls is_transfer tr0 st es -> falls_silent es i0 ->
  forall i t o body, in_call t o (upto tr0 st es i) body -> is_over es t i.
Proof.
  intros c start ls tr0 st lb es i0 E F H Q. apply (transfers_end c start ls tr0 st lb es E F). right. eauto.
Qed.
Example C134_silent_example :
  exists tr0 st lb es,
    endless client 0 no_listeners tr0 st lb es /\ fair client st lb /\ only_calls is_transfer tr0 st es /\ falls_silent es 0 /\
    forall n, exists i, (n <= i)%nat /\ (exists b, in_call 1 (ORead lamp) (upto tr0 st es i) b).
Proof. exact reads_for_ever. Qed.
(** The monitor's calls, next_msg and disconnect apart, end once no listener is
    being notified any more. *)
Theorem C134_monitor_calls_end_partial : forall c start ls tr0 st lb es i0,
  endless c start ls tr0 st lb es -> fair c st lb -> only_calls is_monitor_call tr0 st es ->
  (forall i, (i0 <= i)%nat -> match s_bg (st i) with BNotify _ _ => False | _ => True end) ->
  forall i t o body, in_call t o (upto tr0 st es i) body -> o <> ONextMsg -> is_over es t i.
Proof.
  intros c start ls tr0 st lb es i0 E F H Q. apply (monitor_calls_end c start ls tr0 st lb es E F H). exists i0.
  apply (always_open c st lb F). apply open_if_not_notifying, Q.
Qed.
Example C134_example :
  exists tr0 st lb es,
    endless monitor 0 no_listeners tr0 st lb es /\ fair monitor st lb /\ only_calls is_monitor_call tr0 st es /\
    (forall i, cd_locked (st i) = false) /\
    forall n, exists i, (n <= i)%nat /\ (exists b, in_call 1 OIsConnected (upto tr0 st es i) b).
Proof. exact watch_for_ever. Qed.
(** They also end while the monitor is disconnected and connects again without
    end, if the registered channels have room. *)
Theorem C134_monitor_calls_served_partial : forall c start ls tr0 st lb es i0,
  endless c start ls tr0 st lb es -> fair c st lb -> (forall t, served c st lb t) -> only_calls is_monitor_call tr0 st es ->
  listeners_have_room st i0 ->
  forall i t o body, in_call t o (upto tr0 st es i) body -> o <> ONextMsg -> is_over es t i.
Proof.
  intros c start ls tr0 st lb es i0 E F V H Q. apply (monitor_calls_end c start ls tr0 st lb es E F H). exists i0.
  apply (room_open c start ls tr0 st lb es E F i0 Q V).
Qed.
Example C134_served_example :
  exists tr0 st lb es,
    endless monitor 0 one_place tr0 st lb es /\ fair monitor st lb /\ (forall t, served monitor st lb t) /\
    only_calls is_monitor_call tr0 st es /\ listeners_have_room st 0 /\
    forall n, exists i, (n <= i)%nat /\ (exists l todo active, s_bg (st i) = BNotify (l :: todo) active) /\
      (exists b, in_call 1 OIsConnected (upto tr0 st es i) b).
Proof.
  destruct shaky_for_ever as (tr0&st&lb&es&H1&H2&H3&H4&H5&_&_&H6). exists tr0, st, lb, es. repeat (split; [assumption|]).
  intro n. destruct (H6 n) as (i&A&B&C&_). eauto.
Qed.
(** Weak fairness would not do. *)
Example C134_unserved_example :
  exists tr0 st lb es b,
    endless monitor 0 one_place tr0 st lb es /\ fair monitor st lb /\ only_calls is_monitor_call tr0 st es /\ listeners_have_room st 0 /\
    in_call 1 OIsConnected tr0 b /\ forall i, ~ is_over es 1 i.
Proof. exact starved_for_ever. Qed.

(** ** C135 *)
Theorem C135_later : forall c start ls tr s D,
  exec c start ls tr s -> exists s', exec c (start + D) ls (later D tr) s'.
Proof. intros c start ls tr s D H. destruct (exec_later c start ls tr s D H) as (s'&G&_). eauto. Qed.
Theorem C135_earlier : forall c start ls tr s D,
  exec c (start + D) ls tr s -> exists tr0 s0, tr = later D tr0 /\ exec c start ls tr0 s0.
Proof. intros c start ls tr s D H. destruct (exec_earlier c start ls tr s D H) as (tr0&s0&G1&G2&_). eauto. Qed.
Example C135_example :
  later 5 [(0, EvTick); (60000, EvTick)] = [(5, EvTick); (60005, EvTick)] /\
  match run client (init_sys 5 no_listeners) write_start with
  | Some (_, tr) => tr = later 5 (end_trace client write_start) /\ length tr = 8%nat
  | None => False
  end.
Proof. vm_compute. repeat split. Qed.

(** ** C136 *)
Theorem C136_keeps_asking : forall c start ls tr0 st lb es i,
  endless c start ls tr0 st lb es -> fair c st lb -> connected_now (upto tr0 st es i) = false ->
  exists j e, (i <= j)%nat /\ In e (es j) /\ (asks_for_connection e \/ exists cd, e = EvConnected cd).
Proof.
  intros c start ls tr0 st lb es i E F H. destruct (keeps_asking c start ls tr0 st lb es E F i H) as (j&e&G1&G2&G3).
  exists j, e. split; [exact G1|]. split; [exact G2|]. destruct G3 as [G3|G3]; [left; exact G3|right].
  destruct e; try discriminate G3. eauto.
Qed.
Example C136_example :
  exists tr0 st lb es,
    endless client 0 no_listeners tr0 st lb es /\ fair client st lb /\
    forall i, connected_now (upto tr0 st es i) = false.
Proof. exact deaf_for_ever. Qed.

(** ** C137 *)
Theorem C137_beats_on : forall c start ls tr0 st lb es i,
  endless c start ls tr0 st lb es -> fair c st lb -> tick_polled c st lb -> c_mode c = MClient ->
  connected_now (upto tr0 st es i) = true ->
  exists j, (i <= j)%nat /\
    ((exists e, In e (es j) /\ (heartbeat e = true \/ e = EvCleared)) \/ task_stopped (upto tr0 st es j)).
Proof. intros c start ls tr0 st lb es i E F T M. exact (beats_on c start ls tr0 st lb es E F T M i). Qed.
Example C137_example :
  exists tr0 st lb es,
    endless client 0 no_listeners tr0 st lb es /\ fair client st lb /\ tick_polled client st lb /\
    forall i, connected_now (upto tr0 st es i) = true.
Proof. exact calm_for_ever. Qed.

(** ** C139 *)
Theorem C139_willing_connects : forall c start ls tr0 st lb es i0 i,
  endless c start ls tr0 st lb es -> fair c st lb -> willing tr0 st lb es i0 ->
  connected_now (upto tr0 st es i) = false ->
  exists j cd, (i <= j)%nat /\ In (EvConnected cd) (es j).
Proof. intros c start ls tr0 st lb es i0 i E F W. exact (willing_connects c start ls tr0 st lb es E F i0 W i). Qed.
Example C139_example :
  exists tr0 st lb es,
    endless client 0 no_listeners tr0 st lb es /\ fair client st lb /\ willing tr0 st lb es 0 /\
    forall n, exists i, (n <= i)%nat /\ connected_now (upto tr0 st es i) = false.
Proof. exact granted_for_ever. Qed.

(** ** C140 *)
Theorem C140_some_call_ends : forall c start ls tr0 st lb es i0,
  endless c start ls tr0 st lb es -> fair c st lb -> only_calls is_monitor_call tr0 st es ->
  (forall i, (i0 <= i)%nat -> match s_bg (st i) with BNotify _ _ => False | _ => True end) -> keep_coming es ->
  forall i t body, in_call t ONextMsg (upto tr0 st es i) body -> some_next_msg_ends es i.
Proof.
  intros c start ls tr0 st lb es i0 E F O Q K i t body I.
  apply (next_ends c start ls tr0 st lb es E F O K i0 (always_open c st lb F i0 (open_if_not_notifying st i0 Q)) i t).
  eapply in_call_pc; [eapply upto_exec; eauto|exact I].
Qed.
(** The only task that calls next_msg gets its message. *)
Theorem C140_sole_caller : forall c start ls tr0 st lb es i0 t,
  endless c start ls tr0 st lb es -> fair c st lb -> only_calls is_monitor_call tr0 st es ->
  (forall i, (i0 <= i)%nat -> match s_bg (st i) with BNotify _ _ => False | _ => True end) -> keep_coming es ->
  (forall k u, In (EvInvoke u ONextMsg) (evs (upto tr0 st es k)) -> u = t) ->
  forall i body, in_call t ONextMsg (upto tr0 st es i) body -> is_over es t i.
Proof.
  intros c start ls tr0 st lb es i0 t E F O Q K S i body I.
  apply (sole_next_ends c start ls tr0 st lb es E F O K i0 (always_open c st lb F i0 (open_if_not_notifying st i0 Q)) t i S).
  eapply in_call_pc; [eapply upto_exec; eauto|exact I].
Qed.
Example C140_example :
  exists tr0 st lb es,
    endless monitor 0 no_listeners tr0 st lb es /\ fair monitor st lb /\ only_calls is_monitor_call tr0 st es /\
    (forall i, cd_locked (st i) = false) /\ keep_coming es /\
    (forall i u, In (EvInvoke u ONextMsg) (evs (upto tr0 st es i)) -> u = 2%nat) /\
    forall n, exists i, (n <= i)%nat /\ (exists b, in_call 2 ONextMsg (upto tr0 st es i) b).
Proof. exact fetch_for_ever. Qed.

(** The same while the monitor is disconnected and connects again without end. *)
Theorem C140_some_call_served : forall c start ls tr0 st lb es i0,
  endless c start ls tr0 st lb es -> fair c st lb -> (forall t, served c st lb t) -> only_calls is_monitor_call tr0 st es ->
  listeners_have_room st i0 -> keep_coming es ->
  forall i t body, in_call t ONextMsg (upto tr0 st es i) body -> some_next_msg_ends es i.
Proof.
  intros c start ls tr0 st lb es i0 E F V O Q K i t body I.
  apply (next_ends c start ls tr0 st lb es E F O K i0 (room_open c start ls tr0 st lb es E F i0 Q V) i t).
  eapply in_call_pc; [eapply upto_exec; eauto|exact I].
Qed.
Theorem C140_sole_caller_served : forall c start ls tr0 st lb es i0 t,
  endless c start ls tr0 st lb es -> fair c st lb -> (forall u, served c st lb u) -> only_calls is_monitor_call tr0 st es ->
  listeners_have_room st i0 -> keep_coming es ->
  (forall k u, In (EvInvoke u ONextMsg) (evs (upto tr0 st es k)) -> u = t) ->
  forall i body, in_call t ONextMsg (upto tr0 st es i) body -> is_over es t i.
Proof.
  intros c start ls tr0 st lb es i0 t E F V O Q K S i body I.
  apply (sole_next_ends c start ls tr0 st lb es E F O K i0 (room_open c start ls tr0 st lb es E F i0 Q V) t i S).
  eapply in_call_pc; [eapply upto_exec; eauto|exact I].
Qed.
Example C140_served_example :
  exists tr0 st lb es,
    endless monitor 0 one_place tr0 st lb es /\ fair monitor st lb /\ (forall t, served monitor st lb t) /\
    only_calls is_monitor_call tr0 st es /\ listeners_have_room st 0 /\ keep_coming es /\
    (forall i u, In (EvInvoke u ONextMsg) (evs (upto tr0 st es i)) -> u = 2%nat) /\
    forall n, exists i, (n <= i)%nat /\ (exists l todo active, s_bg (st i) = BNotify (l :: todo) active) /\
      (exists b, in_call 2 ONextMsg (upto tr0 st es i) b).
Proof.
  destruct shaky_for_ever as (tr0&st&lb&es&H1&H2&H3&H4&H5&H6&H7&H8). exists tr0, st, lb, es. repeat (split; [assumption|]).
  intro n. destruct (H8 n) as (i&A&B&_&C). eauto.
Qed.

(** ** C142 *)
(** What arrived within the first [i] steps is taken off the socket, in order. *)
Theorem C142_all_taken : forall c start ls tr0 st lb es i0 i,
  endless c start ls tr0 st lb es -> fair c st lb -> sends_succeed es i0 -> listeners_have_room st i0 -> socket_served st es ->
  exists j, (i <= j)%nat /\
    ((exists q, consumed (upto tr0 st es j) = arrived (upto tr0 st es i) ++ q) \/ task_stopped (upto tr0 st es j)).
Proof. intros c start ls tr0 st lb es i0 i E F S R V. exact (all_taken c start ls tr0 st lb es E F i0 S R V i). Qed.
Example C142_example :
  exists tr0 st lb es,
    endless monitor 0 no_listeners tr0 st lb es /\ fair monitor st lb /\ sends_succeed es 0 /\ listeners_have_room st 0 /\ socket_served st es /\
    (forall i, ~ task_stopped (upto tr0 st es i)) /\
    forall n, exists i d, (n <= i)%nat /\ In (EvArrive d) (es i).
Proof. exact arrive_for_ever. Qed.
