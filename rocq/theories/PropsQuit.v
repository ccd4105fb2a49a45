(** Property C172: what a monitor does after a successful disconnect.  Proofs in
    TransportQuit.v. *)
From Verif Require Import Base Addresses Tunneling Emi Core Transport Wire Spec TraceSpec TraceSpec2 LiveSpec PromptSpec
  TransportBase TransportRuns PromptRuns TransportQuit.
From Coq Require Import Lia.
Open Scope N_scope.

(** ** C172 *)
(** Full property, refuted in both parts: after [disconnect] returned 0 the
    background task goes on sending, and [is_connected] returns true. *)
Theorem C172_gone_refuted :
  ~ (forall c start ls tr s p n t q, attended c start ls tr s -> Forall bytes (arrived tr) ->
       tr = p ++ (n, EvRet t OMDisconnect (RU8 0)) :: q -> forall d, ~ In (EvSend Bg d) (evs q)) /\
  ~ (forall c start ls tr s p n t q u, attended c start ls tr s -> Forall bytes (arrived tr) ->
       tr = p ++ (n, EvRet t OMDisconnect (RU8 0)) :: q -> ~ In (EvRet u OIsConnected (RBool true)) (evs q)).
Proof. exact not_gone. Qed.
(** It is so in every execution: as long as nothing else ended the connection,
    the next heart beat falls due within a minute of the disconnect, ... *)
Theorem C172_beats_on : forall c start ls tr s p n t x q,
  attended c start ls tr s -> ~ task_stopped tr -> tr = p ++ (n, EvRet t OMDisconnect (RU8 x)) :: q ->
  connected_now p = true -> never EvCleared q -> n + 60000 < s_now s -> In EvTick (evs q).
Proof. exact beats_on. Qed.
(** ... and [is_connected] returns true. *)
Theorem C172_still_there : forall c start ls tr s p n t x q u m r z,
  exec c start ls tr s -> tr = p ++ (n, EvRet t OMDisconnect (RU8 x)) :: q ++ (m, EvRet u OIsConnected r) :: z ->
  connected_now p = true -> never EvCleared q -> r = RBool true.
Proof. exact still_there. Qed.
(** Connected at 0, disconnected at 5 s, heart beat at 60 s. *)
Example C172_example : exists tr s p q,
  attended monitor 0 no_listeners tr s /\ s_now s = 70000 /\ tr = p ++ (5000, EvRet 1 OMDisconnect (RU8 0)) :: q /\
  connected_now p = true /\
  q = [(60000, EvTick); (60000, EvSend Bg (state_datagram 7 gateway)); (60000, EvInvoke 2 OIsConnected); (60000, EvRet 2 OIsConnected (RBool true))].
Proof.
  destruct quit_attended as (s&HA&Hn). exists quit_trace, s, (firstn (length quit_trace - 5) quit_trace), quit_rest.
  split; [exact HA|]. split; [exact Hn|]. split; [vm_compute; reflexivity|]. split; vm_compute; reflexivity.
Qed.
