(** Properties C144 and C172, further: the heart beat that is due is sent.  Proofs
    in TransportBeat.v. *)
From Verif Require Import Base Addresses Tunneling Emi Core Transport Wire Spec TraceSpec TraceSpec2 LiveSpec PromptSpec
  TransportBase TransportConn TransportRecover TransportRuns PromptRuns TransportQuit TransportBeat.
From Coq Require Import Lia.
Open Scope N_scope.

(** ** C144 *)
(** On a machine fast enough, in every minute of a connection that is not given up
    a heart beat is handed to the socket. *)
Theorem C144_beat_sent : forall c start ls tr s p n e q,
  attended c start ls tr s -> ~ task_stopped tr -> tr = p ++ (n, e) :: q -> connected_now (p ++ [(n, e)]) = true -> never EvCleared q ->
  n + 60000 < s_now s -> exists k ok x, n <= k <= n + 60000 /\ In (k, send_event ok Bg x) q /\ service x = 0x0207.
Proof. exact beat_sent. Qed.

(** ** C172 *)
(** So it is after the monitor's [disconnect] succeeded. *)
Theorem C172_beat_sent : forall c start ls tr s p n t x q,
  attended c start ls tr s -> ~ task_stopped tr -> tr = p ++ (n, EvRet t OMDisconnect (RU8 x)) :: q ->
  connected_now p = true -> never EvCleared q -> n + 60000 < s_now s ->
  exists k ok d, n <= k <= n + 60000 /\ In (k, send_event ok Bg d) q /\ service d = 0x0207.
Proof.
  intros c start ls tr s p n t x q HA NS E C NC L. eapply beat_sent; try eassumption. rewrite connected_app. cbn. exact C.
Qed.
Example C144_sent_example : exists tr s p q,
  attended monitor 0 no_listeners tr s /\ s_now s = 70000 /\ tr = p ++ (5000, EvRet 1 OMDisconnect (RU8 0)) :: q /\
  connected_now (p ++ [(5000, EvRet 1 OMDisconnect (RU8 0))]) = true /\ In (60000, EvSend Bg (state_datagram 7 gateway)) q /\
  service (state_datagram 7 gateway) = 0x0207.
Proof.
  destruct quit_attended as (s&HA&Hn). exists quit_trace, s, (firstn (length quit_trace - 5) quit_trace), quit_rest.
  split; [exact HA|]. split; [exact Hn|]. split; [vm_compute; reflexivity|]. split; [vm_compute; reflexivity|].
  split; [right; left; reflexivity|reflexivity].
Qed.
