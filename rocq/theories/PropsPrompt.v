(** Properties C143-C146: how long things take when the machine is fast enough.
    [prompt] (PromptSpec.v) says what that means; proofs in TransportPrompt.v and
    TransportPrompt2.v, examples in PromptRuns.v. *)
From Verif Require Import Base Addresses Apdu Tunneling Emi Core Transport Wire Spec TraceSpec TraceSpec2 LiveSpec PromptSpec TransportRuns TransportPrompt TransportPrompt2 PromptRuns.
Open Scope N_scope.

(** ** C143 *)
Theorem C143_in_time : forall c start ls tr s t o body n2 d,
  prompt c start ls tr s -> s_rx_alive s = true -> in_call t o tr body -> is_transfer o -> In (n2, EvSend (Cl t) d) body ->
  s_now s <= n2 + 10000 + 10000 * messages_taken t body.
Proof. exact transfer_in_time. Qed.
Theorem C143_write_in_time : forall c start ls tr s t a v b body n2 d,
  prompt c start ls tr s -> s_rx_alive s = true -> in_call t (OWrite a v b) tr body -> In (n2, EvSend (Cl t) d) body ->
  s_now s <= n2 + 10000.
Proof. exact write_in_time. Qed.
(** The whole call, if nobody else makes calls. *)
Theorem C143_alone_in_time : forall c start ls tr s t o h n body,
  prompt c start ls tr s -> c_mode c = MClient -> s_rx_alive s = true -> only_caller t tr -> is_transfer o ->
  call_events t tr = h ++ (n, EvInvoke t o) :: body ->
  (forall x, In x body -> call_end t (snd x) = false /\ forall o', snd x <> EvInvoke t o') ->
  s_now s <= n + 10000 + 10000 * messages_taken t body.
Proof. exact transfer_in_time_alone. Qed.
Example C143_example :
  exists tr s body, prompt client 0 no_listeners tr s /\ s_rx_alive s = true /\ only_caller 1 tr /\
    call_events 1 tr = (0, EvInvoke 1 (ORead lamp)) :: body /\ messages_taken 1 body = 1 /\ s_now s = 16000 /\
    forallb (fun x => negb (call_end 1 (snd x))) body = true.
Proof.
  eexists _, _, _. split; [eapply (run_prompt client 0 no_listeners [1%nat] slow_read); vm_compute; reflexivity|].
  split; [reflexivity|]. split.
  - intros u o I. vm_compute in I. repeat (destruct I as [I|I]; [try discriminate I; injection I as <- _; reflexivity|]). destruct I.
  - split; [vm_compute; reflexivity|]. split; [vm_compute; reflexivity|]. split; [reflexivity|vm_compute; reflexivity].
Qed.

(** ** C144 *)
(** For the monitor provided the user takes the notifications out of the on-connect
    channels ([attended]); the client has none. *)
Theorem C144_beat_in_time : forall c start ls tr s p n e q,
  attended c start ls tr s -> ~ task_stopped tr ->
  tr = p ++ (n, e) :: q -> connected_now (p ++ [(n, e)]) = true -> never EvCleared q -> never EvTick q ->
  s_now s <= n + 60000.
Proof. exact beat_in_time. Qed.
Theorem C144_client_beat_in_time : forall c start ls tr s p n e q,
  prompt c start ls tr s -> c_mode c = MClient -> ~ task_stopped tr ->
  tr = p ++ (n, e) :: q -> connected_now (p ++ [(n, e)]) = true -> never EvCleared q -> never EvTick q ->
  s_now s <= n + 60000.
Proof. intros c start ls tr s p n e q HP Hm. apply (beat_in_time c start ls), (client_attended _ _ _ _ _ HP Hm). Qed.
Definition one_free (_ : nat) : listener := {| li_cap := 1; li_count := 0; li_alive := true |}.
Definition registered_connect : list label :=
  [LInvoke 0 (OAddListener 0); LCl 0 true; LCl 0 true] ++ monitor_connect 7 ++ [LBg true; LBg true].
Example C144_example :
  exists tr s p, attended monitor 0 one_free tr s /\ registered tr = [0%nat] /\ ~ task_stopped tr /\
    tr = p ++ [(0, EvTick); (0, EvSend Bg (state_datagram 7 gateway))] /\ connected_now (p ++ [(0, EvTick)]) = true /\ s_now s = 60000.
Proof.
  eexists _, _, (trace_of monitor one_free registered_connect).
  split; [eapply (run_attended monitor 0 one_free [0%nat] (registered_connect ++ [LListenerTake 0; LTick; LBg true; LTime 60000])); vm_compute; reflexivity|].
  split; [vm_compute; reflexivity|]. split; [|split; [vm_compute; reflexivity|split; [vm_compute; reflexivity|reflexivity]]].
  intros [I|I]; vm_compute in I; repeat (destruct I as [I|I]; [discriminate I|]); destruct I.
Qed.
(** Without attention heart beats can fail to come: a second notification of a
    channel for one, after a reconnection. *)
Definition unattended_run : list label :=
  registered_connect ++ [LTick; LBg true; LArrive [1]; LBg true; LBg true] ++ monitor_connect 8 ++ [LTime 1000000].
Example C144_unattended :
  exists tr s p, prompt monitor 0 one_free tr s /\ ~ task_stopped tr /\
    tr = p ++ [(0, EvConnected {| cd_chan := 8; cd_ep := gateway; cd_seq := 1 |})] /\ s_now s = 1000000.
Proof.
  eexists _, _, (removelast (trace_of monitor one_free unattended_run)).
  split; [eapply (run_prompt monitor 0 one_free [0%nat] unattended_run); vm_compute; reflexivity|].
  split; [|split; [vm_compute; reflexivity|reflexivity]].
  intros [I|I]; vm_compute in I; repeat (destruct I as [I|I]; [discriminate I|]); destruct I.
Qed.

(** ** C145 *)
Theorem C145_asks_in_time : forall c start ls tr s p n e q,
  prompt c start ls tr s -> tr = p ++ (n, e) :: q ->
  connected_now (p ++ [(n, e)]) = false -> (forall cd, never (EvConnected cd) q) -> (forall x, asks_for_connection x -> never x q) ->
  s_now s <= n + 40000.
Proof. exact asks_in_time. Qed.
Theorem C145_first_at_once : forall c start ls tr s,
  prompt c start ls tr s -> (forall cd, never (EvConnected cd) tr) -> (forall x, asks_for_connection x -> never x tr) ->
  s_now s = start.
Proof. exact first_asked_at_once. Qed.
Example C145_example :
  exists s, prompt client 0 no_listeners [(0, EvSend Bg connection_datagram)] s /\ s_now s = 40000.
Proof.
  eexists. split; [|shelve]. eapply (run_prompt client 0 no_listeners [] unanswered); vm_compute; reflexivity.
  Unshelve. reflexivity.
Qed.

(** ** C146 *)
Theorem C146_nothing_waits : forall c start ls tr s,
  exec c start ls tr s -> at_rest c s -> has_room tr s -> ~ task_stopped tr -> connected_now tr = true ->
  (length (queued tr) < length (taken tr) + 100)%nat -> arrived tr = consumed tr.
Proof. exact rest_nothing_waits. Qed.
Example C146_example :
  exists tr s, exec monitor 0 one_free tr s /\ at_rest monitor s /\ has_room tr s /\ registered tr = [0%nat] /\ ~ task_stopped tr /\ connected_now tr = true /\
    arrived tr = [granting 7].
Proof.
  eexists _, _. split; [eapply (TransportBase.run_exec monitor 0 one_free (registered_connect ++ [LListenerTake 0; LTick; LBg true])); vm_compute; reflexivity|]. split.
  - apply (quiet_now _ _ []); [intros [|u] _; reflexivity|vm_compute; reflexivity].
  - split; [apply roomy_room; vm_compute; reflexivity|]. split; [vm_compute; reflexivity|]. split; [|split; vm_compute; reflexivity].
    intros [I|I]; vm_compute in I; repeat (destruct I as [I|I]; [discriminate I|]); destruct I.
Qed.
