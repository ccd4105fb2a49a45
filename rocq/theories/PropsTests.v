(** Property C132: disconnecting on a quiet bus, and the project's test that does so.  Proofs in TestProofs.v. *)
From Verif Require Import Base Addresses Tunneling Emi Core Transport Wire Spec TraceSpec TraceSpec2
  TransportBase TransportRuns TestProofs.
From Coq Require Import Lia.
Open Scope N_scope.

(** ** C132: false.  As long as no bus message arrives, disconnect does not
    succeed, whatever the device answers. *)
Theorem C132_quiet_refuted : forall c start ls tr s n t r,
  exec c start ls tr s -> Forall bytes (arrived tr) ->
  (forall d m, In d (arrived tr) -> ~ carries d m) -> In (n, EvRet t ODisconnect r) tr -> r <> RUnit.
Proof. exact quiet_disconnect. Qed.
(** The test in udp.rs:612-671 ends with a disconnect that must succeed. *)
Theorem C132_test_refuted : forall c start ls tr s n t r,
  exec c start ls tr s -> Forall (fun d => d = mock_granted \/ d = mock_state) (arrived tr) ->
  In (n, EvRet t ODisconnect r) tr -> r <> RUnit.
Proof. exact mock_quiet. Qed.
(** Up to there it can run as it expects to: connected with channel 8, a
    connection state of that channel with status 0. *)
Definition test_schedule : list label :=
  [LBg true; LBg true; LArrive mock_granted; LBg true; LBg true] ++ call4 1 OStatus ++ [LArrive mock_state; LCl 1 true]
  ++ call4 1 ODisconnect.
Definition test_run : trace := trace_of client no_listeners test_schedule.
Theorem C132_test_partial : exists s, exec client 0 no_listeners test_run s /\
  Forall (fun d => d = mock_granted \/ d = mock_state) (arrived test_run) /\
  (exists n cd, In (n, EvConnected cd) test_run /\ cd_chan cd = 8) /\
  In (0, EvRet 1 OStatus (RStatus {| ss_chan := 8; ss_status := 0 |})) test_run /\
  exists n d, last test_run (0, EvTick) = (n, EvSend (Cl 1) d) /\ service d = 0x0209.
Proof.
  eexists. split; [apply (run_exec client 0 no_listeners test_schedule); vm_compute; reflexivity|].
  split.
  { assert (arrived test_run = [mock_granted; mock_state]) as -> by (vm_compute; reflexivity).
    apply Forall_cons; [left; reflexivity|]. apply Forall_cons; [right; reflexivity|apply Forall_nil]. }
  split.
  { eexists _, _. split; [apply (nth_error_In _ 3); vm_compute; reflexivity|reflexivity]. }
  split; [apply (nth_error_In _ 8); vm_compute; reflexivity|]. do 2 eexists. split; vm_compute; reflexivity.
Qed.
(** A quiet execution in which disconnect does return: the device's answer
    makes it fail. *)
Definition quiet : trace :=
  trace_of client no_listeners (connect_with 7 ++ call4 1 ODisconnect ++ [LArrive (disconnect_answer 7); LBg true; LCl 1 true]).
Example C132_example : In (0, EvRet 1 ODisconnect (RErr EClosed)) quiet /\
  arrived quiet = [granting 7; disconnect_answer 7].
Proof. split; [apply (nth_error_In _ 9); vm_compute; reflexivity|vm_compute; reflexivity]. Qed.
