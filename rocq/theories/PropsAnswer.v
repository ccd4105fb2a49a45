(** Properties C151 to C153: what an answer, or the lack of one, leads to when the
    machine is fast enough.  Vocabulary in PromptSpec.v and AnswerSpec.v, proofs in
    TransportAnswer.v and TransportOutage.v. *)
From Verif Require Import Base Addresses Apdu Tunneling Emi Core Transport Wire Spec TraceSpec TraceSpec2 PromptSpec AnswerSpec
  TransportRuns TransportPrompt PromptRuns TransportAnswer TransportOutage AnswerRuns.
Open Scope N_scope.

(** ** C151 *)
(** A call waits for the bus, its answer arrives; by the time the clock moves on
    the call has returned it (unless its ten seconds were over in this very instant). *)
Theorem C151_answered_at_once : forall c start ls tr s p n d q t o r body n2 d0,
  prompt c start ls tr s -> c_mode c = MClient -> s_rx_alive s = true ->
  tr = p ++ (n, EvArrive d) :: q -> n < s_now s ->
  Forall (fun x => fst x < n) p -> connected_now p = true ->
  in_call t o p body -> In (n2, EvSend (Cl t) d0) body -> answered o d r ->
  not_at n EvTick q -> not_at n EvCleared q -> not_at n (EvCancel t o) q ->
  exists r', In (n, EvRet t o r') q /\ (r' = r \/ r' = RErr ETimeout /\ Forall (fun x => fst x + 10000 <= n) body).
Proof. exact answered_at_once. Qed.
Definition answered_read_run : list label :=
  prompt_connect ++ call4 1 (ORead lamp) ++ [LTime 6000] ++ deliver (tunnelled 7 0 (group_ind 0x0901 [9])) ++ [LCl 1 true; LTime 1].
Example C151_example :
  exists tr s p q body d0, prompt client 0 no_listeners tr s /\ s_rx_alive s = true /\ s_now s = 6001 /\
    tr = p ++ (6000, EvArrive (tunnelled 7 0 (group_ind 0x0901 [9]))) :: q /\
    Forall (fun x => fst x < 6000) p /\ connected_now p = true /\ in_call 1 (ORead lamp) p body /\ In (0, EvSend (Cl 1) d0) body /\
    answered (ORead lamp) (tunnelled 7 0 (group_ind 0x0901 [9])) (RBytes [9]) /\
    not_at 6000 EvTick q /\ not_at 6000 EvCleared q /\ not_at 6000 (EvCancel 1 (ORead lamp)) q /\
    In (6000, EvRet 1 (ORead lamp) (RBytes [9])) q.
Proof.
  eexists _, _, (trace_of client no_listeners (prompt_connect ++ call4 1 (ORead lamp))), _, _, _.
  split; [eapply (run_prompt client 0 no_listeners [1%nat] answered_read_run); vm_compute; reflexivity|].
  split; [reflexivity|]. split; [reflexivity|]. split; [vm_compute; reflexivity|].
  split; [vm_compute; repeat constructor|]. split; [vm_compute; reflexivity|].
  split; [exists [], 0; split; [vm_compute; reflexivity|]|].
  { intros x Hx. cbn in Hx. repeat (destruct Hx as [Hx|Hx]; [subst x; split; [reflexivity|discriminate]|]). destruct Hx. }
  split; [right; left; reflexivity|].
  split; [|repeat split; [intro I|intro I|intro I|right; right; right; right; left; reflexivity];
           vm_compute in I; repeat (destruct I as [I|I]; [discriminate I|]); destruct I].
  apply (answered_read lamp 7 0 [] 0xbc 0xe0 0x1105 2 0x80 [9]); [reflexivity|reflexivity|].
  unfold indication_octets. vm_compute. repeat split; repeat constructor; auto; discriminate.
Qed.

(** ** C152 *)
(** Without connection since [k] (the start, or the moment the last one was given
    up); the gateway's answer is the next datagram to arrive, less than 30 s later:
    the connection stands before the clock moves on.  Calls that read the socket
    themselves could take the answer away. *)
Theorem C152_outage_ends_with_answer : forall c start ls tr s p k q1 n d q2 ch ep,
  steady c start ls tr s -> tr = p ++ q1 ++ (n, EvArrive d) :: q2 -> n < s_now s ->
  lost_at start k p -> arrived p = consumed p -> arrived q1 = [] -> n < k + 30000 ->
  bytes d -> grants d ch ep -> task_sends (q1 ++ q2) -> (forall t, not_at n (EvClRecv t d) q2) ->
  exists cd, In (n, EvConnected cd) q2 /\ cd_chan cd = ch /\ cd_ep cd = ep.
Proof. exact outage_ends. Qed.
Example C152_example :
  exists tr s p q1 q2 cd, steady client 0 no_listeners tr s /\ tr = p ++ q1 ++ (60250, EvArrive (granting 9)) :: q2 /\ s_now s = 60251 /\
    lost_at 0 60000 p /\ arrived p = consumed p /\ arrived q1 = [] /\ bytes (granting 9) /\ grants (granting 9) 9 gateway /\
    task_sends (q1 ++ q2) /\ (forall t, not_at 60250 (EvClRecv t (granting 9)) q2) /\ In (60250, EvConnected cd) q2.
Proof.
  eexists _, _, (trace_of client no_listeners connection_lost), [(60000, EvSend Bg connection_datagram)], _, _.
  split; [eapply (run_steady client 0 no_listeners [] connected_again); vm_compute; reflexivity|].
  split; [vm_compute; reflexivity|]. split; [reflexivity|].
  split; [right; exists (removelast (trace_of client no_listeners connection_lost)); vm_compute; reflexivity|]. split; [vm_compute; reflexivity|]. split; [reflexivity|].
  split; [vm_compute; repeat constructor|].
  split; [exists 20, 0x1101, (repeat 0 80); repeat split; solve [reflexivity|vm_compute; congruence|repeat constructor]|].
  split; [intros x I; cbn in I; repeat (destruct I as [I|I]; [discriminate I|]); destruct I|].
  split; [intros t I; cbn in I; repeat (destruct I as [I|I]; [discriminate I|]); destruct I|].
  right. left. reflexivity.
Qed.
Example C152_example_start :
  exists tr s q1 q2 cd, steady monitor 0 no_listeners tr s /\ tr = [] ++ q1 ++ (250, EvArrive (granting 9)) :: q2 /\ s_now s = 251 /\
    lost_at 0 0 [] /\ arrived q1 = [] /\ task_sends (q1 ++ q2) /\ In (250, EvConnected cd) q2.
Proof.
  eexists _, _, [(0, EvSend Bg connection_datagram)], _, _.
  split; [eapply (run_steady monitor 0 no_listeners [] [LBg true; LBg true; LTime 250; LArrive (granting 9); LBg true; LBg true; LBg true; LBg true; LTick; LBg true; LTime 1]); vm_compute; reflexivity|].
  split; [vm_compute; reflexivity|]. split; [reflexivity|]. split; [left; split; reflexivity|]. split; [reflexivity|].
  split; [intros x I; cbn in I; repeat (destruct I as [I|I]; [discriminate I|]); destruct I|].
  right. right. left. reflexivity.
Qed.

(** ** C153 *)
(** Without connection since [k] and with no datagram arriving since: exactly when
    the task tried to send what, and that the next attempt is not overdue. *)
Theorem C153_silence : forall c start ls tr s p k q,
  steady c start ls tr s -> tr = p ++ q -> lost_at start k p -> arrived p = consumed p -> arrived q = [] ->
  exists n, cadence k (task_tries q) n /\ s_now s <= n.
Proof. exact silence. Qed.
Example C153_example :
  exists tr s p q, steady client 0 no_listeners tr s /\ tr = p ++ q /\ lost_at 0 60000 p /\ arrived p = consumed p /\ arrived q = [] /\
    task_tries q = [(60000, EvSend Bg connection_datagram); (100000, EvSendFail Bg connection_datagram); (110000, EvSend Bg connection_datagram)] /\
    s_now s = 110500.
Proof.
  eexists _, _, (trace_of client no_listeners connection_lost), _.
  split; [eapply (run_steady client 0 no_listeners [] nobody_answers); vm_compute; reflexivity|].
  split; [vm_compute; reflexivity|].
  split; [right; exists (removelast (trace_of client no_listeners connection_lost)); vm_compute; reflexivity|]. repeat split; vm_compute; reflexivity.
Qed.
