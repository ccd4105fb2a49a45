(** Properties C125, C126: what the monitor shows of the bus.  Specification in
    MonitorSpec.v, proofs in MonitorStream.v. *)
From Verif Require Import Base Addresses Tunneling Emi Core Transport Wire Spec TraceSpec TraceSpec2 SessionSpec MonitorSpec
  TransportBase TransportRuns MonitorStream PropsSession.
From Coq Require Import Lia.
Open Scope N_scope.

(** ** C125: the results of all next_msg calls of all tasks, cancelled calls
    included, against the messages queued. *)
Theorem C125_stream : forall c start ls tr s,
  exec c start ls tr s -> c_mode c = MMonitor -> Forall bytes (arrived tr) ->
  exists rest, queued tr = taken tr ++ rest /\ Forall2 shown (filter bus_message (taken tr)) (deliveries tr).
Proof. exact stream. Qed.
(** Against the datagrams received. *)
Theorem C125_datagrams : forall c start ls tr s,
  exec c start ls tr s -> c_mode c = MMonitor -> Forall bytes (arrived tr) ->
  exists ds, sublist ds (received tr) /\
    Forall2 (fun d r => exists m, carries d m /\ bus_message m = true /\ shown m r) ds (deliveries tr).
Proof. exact stream_datagrams. Qed.
(** Two tasks take turns, the call of the first is cancelled while it waits. *)
Definition shared : list label :=
  monitor_connect 7 ++ [LBg true; LInvoke 1 ONextMsg; LCl 1 true; LCancel 1; LInvoke 2 ONextMsg; LCl 2 true] ++
  deliver (tunnelled 7 0 (group_ind 0x0901 [9])) ++ deliver (tunnelled 7 1 (group_con 0xbc 0x0901 [4])) ++
  deliver (tunnelled 7 2 (group_ind 0x0902 [8])) ++ [LInvoke 1 ONextMsg; LCl 1 true; LCl 1 true; LCl 2 true; LCl 2 true].
Definition values (rs : list api_result) : list (list N) := flat_map (fun r => match r with RInd i => [li_value i] | _ => [] end) rs.
Example C125_example :
  let tr := trace_of monitor no_listeners shared in
  (exists s, exec monitor 0 no_listeners tr s) /\ Forall bytes (arrived tr) /\
  map (fun x => fst (fst x)) (results tr) = [1%nat; 2%nat] /\ values (deliveries tr) = [[9]; [8]] /\
  map ce_code (taken tr) = [0x29; 0x2e; 0x29] /\ length (queued tr) = 3%nat.
Proof.
  cbn zeta. split; [eexists; eapply (run_exec monitor 0 no_listeners shared); vm_compute; reflexivity|]. split; [vm_compute; repeat constructor|]. vm_compute. repeat split.
Qed.

(** ** C126: the caller alone can fetch whatever is queued. *)
Theorem C126_backlog : forall c start ls tr s t ms rest,
  exec c start ls tr s -> c_mode c = MMonitor -> Forall bytes (arrived tr) -> s_rx_alive s = true ->
  s_tlock s = None -> s_clients s t = CIdle -> queued tr = taken tr ++ ms ++ rest ->
  exists sched s' tr' rs, Forall (fetching t) sched /\ run c s sched = Some (s', tr') /\
    results tr' = map (fun r => (t, ONextMsg, r)) rs /\ Forall2 shown (filter bus_message ms) rs.
Proof. exact backlog. Qed.
(** A session of any length, telegrams arriving in batches. *)
Theorem C126_session : forall p start ls t g ch ep bs,
  bytes g -> grants g ch ep -> byte ch -> Forall batch_ok bs ->
  exists sched s tr rs, Forall (monitor_step t) sched /\
    run {| c_mode := MMonitor; c_prof := p |} (init_sys start ls) sched = Some (s, tr) /\
    arrived tr = g :: map (te_datagram ch) (concat bs) /\
    results tr = map (fun r => (t, ONextMsg, r)) rs /\ Forall2 tele_shown (filter bus_tele (concat bs)) rs.
Proof. exact monitor_whole. Qed.
Definition burst : list tele := repeat (heard 0 0x29 0x0901 [7]) 60 ++ repeat (heard 0 0x2e 0x0901 []) 39 ++ [heard 1 0x2b 0x0902 [9]].
Example C126_example :
  Forall batch_ok (repeat burst 1000) /\ length (filter bus_tele burst) = 61%nat /\
  let tr := trace_of monitor no_listeners (firstn 24 shared) in
  (exists s, exec monitor 0 no_listeners tr s /\ s_rx_alive s = true /\ s_tlock s = None /\ s_clients s 3 = CIdle) /\
  Forall bytes (arrived tr) /\ map ce_code (queued tr) = [0x29; 0x2e; 0x29] /\ taken tr = [].
Proof.
  assert (B : batch_ok burst).
  { assert (K : forall b, b < 256 -> bytes [b]) by (intros b H; constructor; [exact H|constructor]). split.
    - unfold burst. apply Forall_app. split; [|apply Forall_app; split].
      + generalize 60%nat. intro k. induction k; [constructor|]. constructor; [|exact IHk]. apply heard_ok; try reflexivity; [apply K; reflexivity|cbn; lia].
      + generalize 39%nat. intro k. induction k; [constructor|]. constructor; [|exact IHk]. apply heard_ok; try reflexivity; [constructor|cbn; lia].
      + constructor; [|constructor]. apply heard_ok; try reflexivity; [apply K; reflexivity|cbn; lia].
    - vm_compute. apply le_n. }
  split; [generalize 1000%nat; intro k; induction k; constructor; assumption|]. split; [vm_compute; reflexivity|]. cbn zeta.
  split.
  { eexists. split; [eapply (run_exec monitor 0 no_listeners (firstn 24 shared)); vm_compute; reflexivity|]. vm_compute. auto. }
  split; [vm_compute; repeat constructor|]. vm_compute. auto.
Qed.
