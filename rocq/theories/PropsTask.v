(** Properties C50-C52, C56-C58, C65, C66, C69, C70, C73-C76, C79, C83: the
    background task (connection, receive loop, heart beat) on every execution.
    [bg_events tr]: what the task did, in order; the calls are left out. *)
From Verif Require Import Base Addresses Apdu Tunneling Emi Core Transport Wire Spec TraceSpec TraceSpec2
  TransportBase TransportInv TransportConn TransportCalls TransportThm TransportThm2 TransportThm3
  TransportBg TransportBgThm TransportBgThm2 TransportBgThm3 TransportBgThm4 TransportNotify TransportMore TransportMore2
  TransportRuns TransportLost TransportOrder TransportReads TransportLive TransportLive2.
Open Scope N_scope.

(** ** C50 *)
(** [s_rxq s]: the messages still waiting; [s_inbox s]: the datagrams not yet read. *)
Theorem C50_queue : forall c start ls tr s,
  exec c start ls tr s -> queued tr = taken tr ++ s_rxq s /\ (length (s_rxq s) <= 100)%nat.
Proof. exact queue_inv. Qed.
Theorem C50_socket : forall c start ls tr s,
  exec c start ls tr s -> arrived tr = consumed tr ++ s_inbox s.
Proof. exact inbox_inv. Qed.
Theorem C50_not_invented : forall c start ls tr s m,
  exec c start ls tr s -> Forall bytes (arrived tr) -> In m (queued tr) ->
  exists d t, In d (arrived tr) /\ looks_like (recv_buffer d) (RTunReq t) /\ cemi_octets (tr_cemi t) m.
Proof. exact queued_origin. Qed.
Example C50_example :
  length (arrived session) = 8%nat /\ length (queued session) = 3%nat /\ queued session = taken session /\
  queued (firstn 12 session) <> taken (firstn 12 session).
Proof. vm_compute. repeat split. discriminate. Qed.

(** ** C51 *)
Theorem C51_acknowledged_first : forall c start ls tr s a m b,
  exec c start ls tr s -> Forall bytes (arrived tr) -> bg_events tr = a ++ EvEnq m :: b ->
  exists a' d t, a = a' ++ [EvBgRecv d; EvSend Bg (ack_datagram (tr_chan t) (tr_seq t))] /\
    looks_like (recv_buffer d) (RTunReq t) /\ cemi_octets (tr_cemi t) m.
Proof. exact delivered. Qed.
Theorem C51_ack_answers : forall c start ls tr s a ok x b,
  exec c start ls tr s -> Forall bytes (arrived tr) -> bg_events tr = a ++ send_event ok Bg x :: b -> service x = 0x0421 ->
  exists a' d ch seq, a = a' ++ [EvBgRecv d] /\ x = ack_datagram ch seq /\
    ((exists t, looks_like (recv_buffer d) (RTunReq t) /\ tr_chan t = ch /\ tr_seq t = seq) \/
     (exists f, looks_like (recv_buffer d) (RFeature f) /\ fr_chan f = ch /\ fr_seq f = seq)).
Proof. exact ack_answers. Qed.
Example C51_example :
  nth_error (bg_events session) 4 = Some (EvSend Bg (ack_datagram 7 0)) /\
  nth_error (bg_events session) 3 = Some (EvBgRecv (tunnelled 7 0 (group_ind 0x0902 [9]))) /\
  exists m, nth_error (bg_events session) 5 = Some (EvEnq m).
Proof. vm_compute. repeat split. eexists. reflexivity. Qed.

(** ** C52 *)
Theorem C52_delivered_refuted :
  exists tr s, exec client 0 no_listeners tr s /\ Forall bytes (arrived tr) /\
    exists a d t m b,
      bg_events tr = a ++ [EvBgRecv d; EvSend Bg (ack_datagram (tr_chan t) (tr_seq t)); EvTick; EvLost m] ++ b /\
      looks_like (recv_buffer d) (RTunReq t) /\ run_on (cemi_from_packet Release) (tr_cemi t) = Ok m /\
      length (queued tr) = 100%nat /\ taken tr = [].
Proof. exact lost_message. Qed.
(** The only ways to lose it: a heart beat falls due while the queue is full, or
    the client handle is dropped. *)
Theorem C52_fate : forall c start ls tr s a d t m e b,
  exec c start ls tr s -> Forall bytes (arrived tr) ->
  bg_events tr = a ++ [EvBgRecv d; EvSend Bg (ack_datagram (tr_chan t) (tr_seq t))] ++ e :: b ->
  looks_like (recv_buffer d) (RTunReq t) -> run_on (cemi_from_packet (c_prof c)) (tr_cemi t) = Ok m ->
  e = EvEnq m \/ (e = EvTick /\ exists b', b = EvLost m :: b') \/ (e = EvCleared /\ s_rx_alive s = false).
Proof. exact acked_fate. Qed.

(** ** C56 *)
Theorem C56_reconnects_first : forall c start ls tr s a b1 e b2,
  exec c start ls tr s -> Forall bytes (arrived tr) ->
  bg_events tr = a ++ EvCleared :: b1 ++ e :: b2 -> no_conn_ev b1 ->
  (exists ok, e = send_event ok Bg connection_datagram) \/
  (exists d, e = EvConnRecv d) \/
  (c_mode c = MMonitor /\ exists ok ch ep b' d, b1 = b' ++ [EvConnRecv d] /\ grants d ch ep /\ e = send_event ok Bg (feature_datagram ch)) \/
  (exists cd b' d f, b1 = b' ++ EvConnRecv d :: f /\ grants d (cd_chan cd) (cd_ep cd) /\ e = EvConnected cd /\
     f = match c_mode c with MClient => [] | MMonitor => [EvSend Bg (feature_datagram (cd_chan cd))] end).
Proof. exact disconnected_events. Qed.
Example C56_example :
  firstn 5 (skipn 13 (bg_events session)) =
    [EvCleared; EvSend Bg connection_datagram; EvSend Bg connection_datagram; EvConnRecv (granting 9);
     EvConnected {| cd_chan := 9; cd_ep := gateway; cd_seq := 0 |}].
Proof. vm_compute. reflexivity. Qed.

(** ** C57 *)
Theorem C57_error_drops : forall c start ls tr s a d e b,
  exec c start ls tr s -> Forall bytes (arrived tr) -> bg_events tr = a ++ EvBgRecv d :: e :: b ->
  connection_error d -> e = EvCleared.
Proof. exact error_clears. Qed.
(** If that has not happened yet, the task is able to do it: no step of anyone
    else is needed. *)
Theorem C57_error_reconnects : forall c start ls tr s a d ok,
  exec c start ls tr s -> Forall bytes (arrived tr) -> bg_events tr = a ++ [EvBgRecv d] -> connection_error d ->
  exists s', run c s [LBg true; LBg true; LBg ok] =
               Some (s', [(s_now s, EvCleared); (s_now s, send_event ok Bg connection_datagram)]) /\ s_conn s' = None.
Proof. exact error_reconnects. Qed.
Theorem C57_socket_error_drops : forall c start ls tr0 s s1 es sched s' tr e b,
  exec c start ls tr0 s -> step c s LBgRecvErr = Some (s1, es) -> s_conn s <> None ->
  run c s1 sched = Some (s', tr) -> bg_events tr = e :: b -> e = EvCleared.
Proof. exact socket_error_clears. Qed.
Theorem C57_send_failure_drops : forall c start ls tr s a x e b,
  exec c start ls tr s -> bg_events tr = a ++ EvSendFail Bg x :: e :: b -> service x = 0x0421 \/ service x = 0x0207 -> e = EvCleared.
Proof. exact send_failure_clears. Qed.
(** An empty datagram is not an error: it changes nothing. *)
Theorem C57_empty_ignored : forall c s,
  idle_at s -> run c s [LArrive []; LBg true] = Some (s, [(s_now s, EvArrive []); (s_now s, EvBgRecv [])]).
Proof. intros c s H. exact (nothing_happens c s [] H eq_refl). Qed.
Theorem C57_then_requests : forall c start ls tr s a e b,
  exec c start ls tr s -> bg_events tr = a ++ [EvCleared] ++ e :: b -> exists ok, e = send_event ok Bg connection_datagram.
Proof. exact next_after_cleared. Qed.
Example C57_example :
  nth_error (bg_events session) 12 = Some (EvBgRecv (state_answer 7 0x21)) /\ connection_error (state_answer 7 0x21) /\
  nth_error (bg_events monitor_session) 11 = Some (EvBgRecv [1]) /\ connection_error [1].
Proof.
  split; [vm_compute; reflexivity|]. split; [left; eexists; split; [apply state_looks|discriminate]|].
  split; [vm_compute; reflexivity|]. exact garbage_is_error.
Qed.

(** ** C58 *)
Theorem C58_silence_detected_refuted : forall k,
  exists tr s, exec client 0 no_listeners tr s /\ well_typed tr /\
    exists p n cd q, tr = p ++ (n, EvConnected cd) :: q /\ arrived q = [] /\ ~ In EvCleared (evs q) /\
      length (filter heartbeat (evs q)) = k.
Proof. exact silent_for_ever. Qed.

(** ** C65 *)
Theorem C65_silent : forall c start ls tr s p n e q,
  exec c start ls tr s -> Forall bytes (arrived tr) -> tr = p ++ (n, e) :: q -> e = EvBgEnd \/ e = EvBgPanic -> bg_events q = [].
Proof. exact stopped_silent. Qed.
(** A call waiting for a message is told as soon as the queue is empty. *)
Theorem C65_waiters_told : forall c start ls tr s t o dl ok,
  exec c start ls tr s -> task_stopped tr -> s_rx_alive s = true -> s_clients s t = CWaitQ o dl -> queued tr = taken tr ->
  exists s', step c s (LCl t ok) = Some (s', [EvRet t o (RErr EClosed)]).
Proof. exact stopped_closes. Qed.
(** The disconnect response is the last thing the task reads. *)
Theorem C65_after_response : forall c start ls tr s a d r b,
  exec c start ls tr s -> Forall bytes (arrived tr) -> bg_events tr = a ++ EvBgRecv d :: b ->
  looks_like (recv_buffer d) (RDiscResp r) -> b = [EvBgEnd].
Proof. exact response_stops. Qed.
Example C65_example :
  skipn 22 (bg_events session) = [EvBgRecv (disconnect_answer 9); EvBgEnd] /\
  nth_error monitor_session 50 = Some (0, EvRet 1 ONextMsg (RErr EClosed)).
Proof. vm_compute. repeat split. Qed.

(** ** C66 *)
Theorem C66_not_connected_refuted :
  exists tr s, exec monitor 0 no_listeners tr s /\ well_typed tr /\
    exists p n1 d q n2 r,
      tr = p ++ [(n1, EvBgRecv d); (n1, EvBgEnd)] ++ q ++ [(n2, EvRet 2 OIsConnected (RBool true))] /\
      looks_like (recv_buffer d) (RDiscResp r).
Proof. exact still_connected. Qed.
(** On no execution is it ever reported. *)
Theorem C66_never_reported : forall c start ls tr s p n t r q,
  exec c start ls tr s -> tr = p ++ (n, EvRet t OIsConnected r) :: q -> In EvBgEnd (evs p) \/ In EvBgPanic (evs p) ->
  r = RBool true.
Proof. exact still_connected_refuting. Qed.

(** ** C69 *)
Theorem C69_heartbeat_after_tick : forall c start ls tr s a ok x b,
  exec c start ls tr s -> Forall bytes (arrived tr) -> bg_events tr = a ++ send_event ok Bg x :: b -> service x = 0x0207 ->
  exists a' l, a = a' ++ EvTick :: l /\ (l = [] \/ exists m, l = [EvLost m]).
Proof. exact heartbeat_tick. Qed.
Theorem C69_ticks_spaced : forall c start ls tr s p n1 m n2 q,
  exec c start ls tr s -> tr = p ++ (n1, EvTick) :: m ++ (n2, EvTick) :: q -> n1 + 59995 <= n2.
Proof. exact ticks_spaced. Qed.
Theorem C69_heartbeat_current : forall c start ls tr s p n ok x q,
  exec c start ls tr s -> Forall bytes (arrived tr) -> tr = p ++ (n, send_event ok Bg x) :: q -> service x = 0x0207 ->
  exists a n0 cd b, p = a ++ (n0, EvConnected cd) :: b /\ no_connected b /\ ~ In EvCleared (evs b) /\
    x = state_datagram (cd_chan cd) (cd_ep cd).
Proof. exact heartbeat_current. Qed.
Example C69_example :
  firstn 4 (skipn 35 session) =
    [(60000, EvTick); (60000, EvSend Bg (state_datagram 9 gateway)); (120000, EvTick); (120000, EvSend Bg (state_datagram 9 gateway))].
Proof. vm_compute. reflexivity. Qed.

(** ** C70 *)
Theorem C70_attempts_spaced : forall c start ls tr s p n1 ok1 m n2 ok2 q,
  exec c start ls tr s -> c_mode c = MClient ->
  tr = p ++ (n1, send_event ok1 Bg connection_datagram) :: m ++ (n2, send_event ok2 Bg connection_datagram) :: q ->
  no_connected m -> n1 + 10000 <= n2.
Proof. exact attempts_spaced. Qed.
Example C70_example :
  firstn 2 (skipn 30 session) = [(0, EvSend Bg connection_datagram); (10000, EvSend Bg connection_datagram)].
Proof. vm_compute. reflexivity. Qed.

(** ** C73 *)
Theorem C73_keeps_running_refuted :
  exists tr s, exec client 0 no_listeners tr s /\ well_typed tr /\
    exists p n d, tr = p ++ [(n, EvBgRecv d); (n, EvBgPanic)] /\ length d = 10%nat.
Proof. exact crashing_datagram. Qed.
(** Without the three kinds of datagram in [harmless], which C74 shows to be
    the only reasons, it never stops. *)
Theorem C73_keeps_running_partial : forall c start ls tr s,
  exec c start ls tr s -> Forall bytes (arrived tr) -> Forall (harmless (c_prof c)) (received tr) -> ~ task_stopped tr.
Proof. exact keeps_running. Qed.

(** ** C74 *)
Theorem C74_stop_reasons : forall c start ls tr s a e b,
  exec c start ls tr s -> Forall bytes (arrived tr) -> bg_events tr = a ++ e :: b ->
  match e with
  | EvBgEnd => b = [] /\ exists a' d r, a = a' ++ [EvBgRecv d] /\ looks_like (recv_buffer d) (RDiscResp r)
  | EvBgPanic => b = [] /\ exists a' d,
      (a = a' ++ [EvBgRecv d] /\ exists size chan seq pad rest, size < 10 /\
         recv_buffer d = [0x06; 0x10] ++ word 0x0420 ++ word size ++ [4; chan; seq; pad] ++ rest) \/
      (c_prof c = Debug /\ exists t, a = a' ++ [EvBgRecv d; EvSend Bg (ack_datagram (tr_chan t) (tr_seq t))] /\
         looks_like (recv_buffer d) (RTunReq t) /\ info_overflow (tr_cemi t))
  | _ => True
  end.
Proof. exact stop_reason. Qed.
(** Each of the three happens: a disconnect response, a size field of 9, and
    (debug build) additional information of 255 octets twice. *)
Example C74_example :
  bg_events (trace_of client no_listeners (connect_with 7 ++ [LArrive (disconnect_answer 7); LBg true])) =
    [EvSend Bg connection_datagram; EvConnRecv (granting 7); EvConnected {| cd_chan := 7; cd_ep := gateway; cd_seq := 0 |};
     EvBgRecv (disconnect_answer 7); EvBgEnd] /\
  skipn 3 (bg_events (trace_of client no_listeners (connect_with 7 ++ [LArrive [6; 16; 4; 32; 0; 9; 4; 7; 0; 0]; LBg true]))) =
    [EvBgRecv [6; 16; 4; 32; 0; 9; 4; 7; 0; 0]; EvBgPanic] /\
  skipn 4 (bg_events (trace_of {| c_mode := MClient; c_prof := Debug |} no_listeners
    (connect_with 7 ++ [LArrive (tunnelled 7 0 [0x29; 255; 3; 255]); LBg true; LBg true]))) =
    [EvSend Bg (ack_datagram 7 0); EvBgPanic].
Proof. vm_compute. repeat split. Qed.

(** ** C75 *)
Theorem C75_delivered_once_refuted :
  exists tr s, exec client 0 no_listeners tr s /\ well_typed tr /\
    exists d t m, arrived tr = [granting 7; d; d] /\ looks_like (recv_buffer d) (RTunReq t) /\ queued tr = [m; m].
Proof. exact duplicate_delivered. Qed.
(** Nothing is done against it: the same datagram twice is delivered twice,
    whatever its sequence number and whatever was received before. *)
Theorem C75_delivered_twice : forall c s d t m,
  idle_at s -> bytes d -> looks_like (recv_buffer d) (RTunReq t) -> run_on (cemi_from_packet (c_prof c)) (tr_cemi t) = Ok m ->
  s_rx_alive s = true -> (length (s_rxq s) < 99)%nat ->
  exists tr, run c s (deliver d ++ deliver d) = Some (set_rxq s (s_rxq s ++ [m; m]), tr) /\ queued tr = [m; m].
Proof. exact delivered_twice. Qed.
Example C75_example :
  exists s, exec client 0 no_listeners (trace_of client no_listeners (connect_with 7)) s /\ idle_at s /\ s_rx_alive s = true /\
    (length (s_rxq s) < 99)%nat.
Proof. eexists. split; [eapply (run_exec _ _ _ (connect_with 7)); vm_compute; reflexivity|]. vm_compute. repeat split. repeat constructor. Qed.

(** ** C76 *)
Theorem C76_own_channel_refuted :
  exists tr s, exec client 0 no_listeners tr s /\ well_typed tr /\
    exists cd d t m,
      evs tr = [EvSend Bg connection_datagram; EvArrive (granting 7); EvConnRecv (granting 7); EvConnected cd; EvArrive d;
                EvBgRecv d; EvSend Bg (ack_datagram (tr_chan t) (tr_seq t)); EvEnq m] /\
      looks_like (recv_buffer d) (RTunReq t) /\ tr_chan t <> cd_chan cd.
Proof. exact foreign_delivered. Qed.
(** Every tunnelling request is acknowledged and delivered, whatever its
    channel and whatever the channel of the connection. *)
Theorem C76_any_channel : forall c s d t m,
  idle_at s -> bytes d -> looks_like (recv_buffer d) (RTunReq t) -> run_on (cemi_from_packet (c_prof c)) (tr_cemi t) = Ok m ->
  s_rx_alive s = true -> (length (s_rxq s) < 100)%nat ->
  run c s (deliver d) =
    Some (set_rxq s (s_rxq s ++ [m]),
          [(s_now s, EvArrive d); (s_now s, EvBgRecv d); (s_now s, EvSend Bg (ack_datagram (tr_chan t) (tr_seq t))); (s_now s, EvEnq m)]).
Proof. exact delivered_anyway. Qed.

(** ** C79 *)
Theorem C79_task_ends_refuted : forall k,
  exists tr s, exec client 0 no_listeners tr s /\ well_typed tr /\ s_rx_alive s = false /\
    exists sched s' tr', run client s sched = Some (s', tr') /\ s_rx_alive s' = false /\ bg_gone s' = false /\
      length (filter heartbeat (evs tr')) = k.
Proof. exact dropped_for_ever. Qed.
(** The next telegram does not end it either: the task gives the connection up
    and asks the device for another one. *)
Theorem C79_reconnects : forall c start ls tr s chan seq code is c1 c2 src dst len apci data,
  exec c start ls tr s -> s_rx_alive s = false -> s_bg s = BRecv -> s_inbox s = [] ->
  byte chan -> byte seq -> indication_octets code is c1 c2 src dst len apci data ->
  let d := tunnel_datagram chan seq (cemi_bytes code is (ldata_bytes c1 c2 src dst len apci data)) in
  exists s', run c s (LArrive d :: repeat (LBg true) 6) =
    Some (s', stamp (s_now s) [EvArrive d; EvBgRecv d; EvSend Bg (ack_datagram chan seq); EvCleared; EvSend Bg connection_datagram]).
Proof. exact dropped_reconnects. Qed.
Example C79_example :
  exists s, exec client 0 no_listeners (trace_of client no_listeners (connect_with 7 ++ [LDropHandle])) s /\ s_rx_alive s = false /\ s_bg s = BRecv /\ s_inbox s = [].
Proof. eexists. split; [eapply (run_exec client 0 no_listeners (connect_with 7 ++ [LDropHandle])); vm_compute; reflexivity|]. vm_compute. auto. Qed.

(** ** C83 *)
Theorem C83_answered_refuted :
  exists tr s, exec client 0 no_listeners tr s /\ well_typed tr /\
    In (EvBgRecv (disconnect_datagram 7 gateway)) (evs tr) /\
    forall sched s' tr', run client s sched = Some (s', tr') -> well_typed (tr ++ tr') ->
      forall w x, In (EvSend w x) (evs (tr ++ tr')) -> service x <> 0x020a.
Proof. exact never_answered. Qed.
(** No execution at all contains a disconnect response; a disconnect request is
    taken for a connection error. *)
Theorem C83_no_response : forall c start ls tr s w x,
  exec c start ls tr s -> well_typed tr -> In (EvSend w x) (evs tr) -> service x <> 0x020a.
Proof. exact no_disconnect_response. Qed.
Theorem C83_reconnects : forall c start ls tr s a rest e b,
  exec c start ls tr s -> Forall bytes (arrived tr) -> bg_events tr = a ++ EvBgRecv ([6; 16; 2; 9] ++ rest) :: e :: b -> e = EvCleared.
Proof. exact disconnect_request_clears. Qed.
