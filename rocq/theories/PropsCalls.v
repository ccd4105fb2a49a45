(** Properties C49, C53-C55, C59-C64, C67, C68, C71, C72, C77, C78: the calls of
    the client and of the monitor, on every execution.  An execution is a list
    of labels (who moves, how the environment answers) from the state after
    [connect]; [exec c start ls tr s]: some execution leads to state [s] with
    the time-stamped events [tr].  The vocabulary is in TraceSpec.v; the
    concrete executions used as cases are in TransportRuns.v. *)
From Verif Require Import Base Addresses Apdu Tunneling Emi Core Transport Wire Spec TraceSpec TraceSpec2
  TransportBase TransportInv TransportConn TransportCalls TransportThm TransportThm2 TransportThm3 TransportMore TransportMore2
  TransportRuns TransportOrder TransportReads PartialMore.
Open Scope N_scope.

(** ** C49: between two things only the holder of the connection can do, done
    by different tasks, the first one's call has ended. *)
Theorem C49_serialised : forall c start ls tr s t u p n1 e1 m n2 e2 q,
  exec c start ls tr s -> tr = p ++ (n1, e1) :: m ++ (n2, e2) :: q -> t <> u ->
  exclusive (c_mode c) t e1 = true -> exclusive (c_mode c) u e2 = true ->
  exists y, In y m /\ call_end t (snd y) = true.
Proof. exact serialised. Qed.
(** Task 1 sends, task 2 is given a sequence number after task 1 returned. *)
Example C49_example :
  exclusive MClient 1 (snd (nth 6 session (0, EvTick))) = true /\ exclusive MClient 2 (snd (nth 19 session (0, EvTick))) = true /\
  call_end 1 (snd (nth 18 session (0, EvTick))) = true.
Proof. vm_compute. repeat split. Qed.

(** ** C53 *)
Theorem C53_consecutive : forall c start ls tr s a n cd b,
  exec c start ls tr s -> tr = a ++ (n, EvConnected cd) :: b -> no_connected b ->
  issued b = consecutive (match c_mode c with MClient => 0 | MMonitor => 1 end) (length (issued b)).
Proof. exact seq_consecutive. Qed.
Theorem C53_none_before : forall c start ls tr s p n t k q,
  exec c start ls tr s -> tr = p ++ (n, EvSeq t k) :: q -> ~ no_connected p.
Proof. intros c start ls tr s p n t k q H E N. exact (before_connection _ _ _ _ _ _ _ _ _ H E N). Qed.
Example C53_example :
  issued (skipn 4 (firstn 30 session)) = [0; 1] /\ no_connected (skipn 4 (firstn 30 session)) /\
  issued (skipn 9 (firstn 30 monitor_session)) = [1; 2] /\ consecutive 254 4 = [254; 255; 0; 1].
Proof. vm_compute. repeat split. Qed.

(** ** C54 *)
Theorem C54_request_of_current_connection_refuted :
  exists tr s, exec client 0 no_listeners tr s /\ well_typed tr /\
    exists a n cd b n2 t o, tr = (a ++ (n, EvConnected cd) :: b) ++ [(n2, EvSend (Cl t) (tunnel_datagram (cd_chan cd) 1 (telegram o)))] /\
      no_connected b /\ issued b = [] /\ issued a = [0; 1] /\ in_call t o (a ++ (n, EvConnected cd) :: b) [(n2, EvSeq t 1)].
Proof. exact wrong_connection. Qed.
(** It holds when no connection is made between drawing the number and sending. *)
Theorem C54_same_connection : forall c start ls tr s a n cd b n2 t d q o n1 seq,
  exec c start ls tr s -> well_typed tr ->
  tr = (a ++ (n, EvConnected cd) :: b) ++ (n2, EvSend (Cl t) d) :: q -> no_connected b ->
  in_call t o (a ++ (n, EvConnected cd) :: b) [(n1, EvSeq t seq)] -> In (n1, EvSeq t seq) b ->
  d = tunnel_datagram (cd_chan cd) seq (telegram o).
Proof. exact same_connection. Qed.
Example C54_example :
  nth_error session 40 = Some (120000, EvSeq 1 0) /\
  nth_error session 41 = Some (120000, EvSend (Cl 1) (tunnel_datagram 9 0 (telegram (ORead other)))) /\
  map snd (call_events 1 (skipn 39 (firstn 41 session))) = [EvInvoke 1 (ORead other); EvSeq 1 0].
Proof. vm_compute. repeat split. Qed.

(** ** C55 *)
Theorem C55_granted_channel : forall c start ls tr s p n t d q,
  exec c start ls tr s -> well_typed tr ->
  tr = p ++ (n, EvSend (Cl t) d) :: q \/ tr = p ++ (n, EvSendFail (Cl t) d) :: q ->
  exists o body, in_call t o p body /\
    exists ch ep g ep' g' ch',
      In (EvConnRecv g) (evs p) /\ grants g ch ep' /\ In (EvConnRecv g') (evs p) /\ grants g' ch' ep /\
      match o with
      | OStatus => body = [] /\ d = state_datagram ch ep
      | ODisconnect | OMDisconnect => body = [] /\ d = disconnect_datagram ch ep
      | ONextMsg | OIsConnected | OAddListener _ => False
      | _ => exists n1 seq, body = [(n1, EvSeq t seq)] /\ d = tunnel_datagram ch seq (telegram o)
      end.
Proof. exact call_datagram. Qed.
Theorem C55_nothing_before : forall c start ls tr s p n e q,
  exec c start ls tr s -> tr = p ++ (n, e) :: q -> no_connected p -> before_event e.
Proof. exact before_connection. Qed.
Example C55_example :
  nth_error session 44 = Some (130000, EvSend (Cl 3) (state_datagram 9 gateway)) /\
  (* a call before any connection *)
  evs (trace_of client no_listeners (LInvoke 1 (ORead lamp) :: repeat (LCl 1 true) 2)) =
    [EvInvoke 1 (ORead lamp); EvRet 1 (ORead lamp) (RErr EDisconnected)].
Proof. vm_compute. repeat split. Qed.

(** ** C59 *)
Theorem C59_read_result : forall c start ls tr s p n t a v q,
  exec c start ls tr s -> Forall bytes (arrived tr) -> tr = p ++ (n, EvRet t (ORead a) (RBytes v)) :: q ->
  exists n1 seq n2 d ms n3 m i,
    in_call t (ORead a) p ([(n1, EvSeq t seq); (n2, EvSend (Cl t) d)] ++ takes t (ms ++ [(n3, m)])) /\
    is_ind m /\ indication_of m i /\ ld_dest (li_data i) = addr_to_u16 a /\ v = li_value i /\
    Forall (not_for a) (map snd ms).
Proof. exact read_result. Qed.
(** Every way a read can end, and what it did before (there is no other result). *)
Theorem C59_read_outcome : forall c start ls tr s p n t a r q,
  exec c start ls tr s -> Forall bytes (arrived tr) -> tr = p ++ (n, EvRet t (ORead a) r) :: q ->
  exists body, in_call t (ORead a) p body /\ read_outcome t a p n r body.
Proof. exact read_returns. Qed.
(** A message that decides the read ends it at once: an indication for the
    address with its value, an indication too short to be one with an error. *)
Theorem C59_message_decides : forall c start ls tr s p n t a m q body,
  exec c start ls tr s -> Forall bytes (arrived tr) -> tr = p ++ (n, EvDeq t m) :: q -> in_call t (ORead a) p body ->
  (forall i, is_ind m -> indication_of m i -> ld_dest (li_data i) = addr_to_u16 a ->
     exists q', q = (n, EvRet t (ORead a) (RBytes (li_value i))) :: q') /\
  (is_ind m -> (length (ce_service m) < 9)%nat -> exists q', q = (n, EvRet t (ORead a) (RErr EBadCemi)) :: q').
Proof. exact read_message. Qed.
(** A read that skips the indication for another address. *)
Example C59_example :
  nth_error session 18 = Some (0, EvRet 1 (ORead lamp) (RBytes [5])) /\ length (taken (firstn 18 session)) = 2%nat.
Proof. vm_compute. repeat split. Qed.
(** A short indication ends a read with an error. *)
Example C59_short_example :
  exists m, is_ind m /\ length (ce_service m) = 4%nat /\
    skipn 10 (evs (trace_of client no_listeners (connect_with 7 ++ call4 1 (ORead lamp) ++ deliver (tunnelled 7 0 [0x29; 0; 1; 2; 3; 4]) ++ [LCl 1 true]))) =
      [EvEnq m; EvDeq 1 m; EvRet 1 (ORead lamp) (RErr EBadCemi)].
Proof. exists {| ce_code := 0x29; ce_infos := []; ce_service := [1; 2; 3; 4] |}. vm_compute. repeat split. Qed.

(** ** C60 *)
Theorem C60_read_after_request_refuted :
  exists tr s, exec client 0 no_listeners tr s /\ well_typed tr /\
    exists p n1 m p2 n2 d n3 v,
      tr = p ++ (n1, EvEnq m) :: p2 ++ [(n2, EvSend (Cl 1) d); (n3, EvDeq 1 m); (n3, EvRet 1 (ORead lamp) (RBytes v))].
Proof. exact stale_read. Qed.
(** It holds when no message was waiting at the time of the request. *)
Theorem C60_fresh_partial : forall c start ls tr s p d q n t a v r n0,
  exec c start ls tr s -> Forall bytes (arrived tr) ->
  tr = p ++ (n0, EvSend (Cl t) d) :: q ++ (n, EvRet t (ORead a) (RBytes v)) :: r ->
  queued p = taken p ->
  exists m i, In m (queued q) /\ In m (taken q) /\ is_ind m /\ indication_of m i /\ ld_dest (li_data i) = addr_to_u16 a /\ v = li_value i.
Proof. exact fresh_read. Qed.
Example C60_example :
  nth_error session 6 = Some (0, EvSend (Cl 1) (tunnel_datagram 7 0 (telegram (ORead lamp)))) /\
  nth_error session 18 = Some (0, EvRet 1 (ORead lamp) (RBytes [5])) /\ queued (firstn 6 session) = taken (firstn 6 session).
Proof. vm_compute. repeat split. Qed.

(** ** C61 *)
Theorem C61_write_outcome : forall c start ls tr s p n t a v b r q,
  exec c start ls tr s -> tr = p ++ (n, EvRet t (OWrite a v b) r) :: q ->
  exists body, in_call t (OWrite a v b) p body /\ write_outcome t p n r body.
Proof. exact write_returns. Qed.
Theorem C61_first_message_decides : forall c start ls tr s p n t a v b m q body,
  exec c start ls tr s -> tr = p ++ (n, EvDeq t m) :: q -> in_call t (OWrite a v b) p body ->
  exists q', q = (n, EvRet t (OWrite a v b) (if ce_code m =? 0x2e then RUnit else RErr EUnexpected)) :: q'.
Proof. exact write_first_message. Qed.
Example C61_example :
  nth_error session 26 = Some (0, EvRet 2 (OWrite lamp [1] false) RUnit) /\
  map snd (call_events 2 (firstn 26 session)) =
    [EvInvoke 2 (OWrite lamp [1] false); EvSeq 2 1; EvSend (Cl 2) (tunnel_datagram 7 1 (telegram (OWrite lamp [1] false)));
     EvDeq 2 {| ce_code := 0x2e; ce_infos := []; ce_service := ldata_bytes 0xbc 0xe0 0x1101 0x0901 2 0x80 [1] |}].
Proof. vm_compute. repeat split. Qed.

(** ** C62 *)
Theorem C62_write_confirmed_refuted :
  exists tr s, exec client 0 no_listeners tr s /\ well_typed tr /\
    exists p n1 n2 m c1 c2 src dst len apci data,
      tr = p ++ [(n1, EvDeq 1 m); (n2, EvRet 1 (OWrite lamp [1] false) RUnit)] /\ queued tr = [m] /\ is_con m /\
      ce_service m = ldata_bytes c1 c2 src dst len apci data /\
      N.testbit c1 0 = true /\ dst <> addr_to_u16 lamp /\ data <> [1].
Proof. exact unconfirmed_write. Qed.
(** When no message was waiting at the time of the request, the confirmation was queued and taken after it. *)
Theorem C62_fresh_partial : forall c start ls tr s p d q n t a v b r n0,
  exec c start ls tr s ->
  tr = p ++ (n0, EvSend (Cl t) d) :: q ++ (n, EvRet t (OWrite a v b) RUnit) :: r ->
  queued p = taken p -> exists m, In m (queued q) /\ In m (taken q) /\ is_con m.
Proof. exact fresh_write. Qed.
Definition written : trace :=
  trace_of client no_listeners (connect_with 7 ++ call4 1 (OWrite lamp [1] false) ++ deliver (tunnelled 7 0 (group_con 0xbc 0x0901 [1])) ++ [LCl 1 true]).
Example C62_example :
  exists p d q, written =
    p ++ (0, EvSend (Cl 1) d) :: q ++ [(0, EvRet 1 (OWrite lamp [1] false) RUnit)] /\ queued p = taken p.
Proof. exists (firstn 6 written), (tunnel_datagram 7 0 (telegram (OWrite lamp [1] false))), (firstn 5 (skipn 7 written)). vm_compute. split; reflexivity. Qed.

(** ** C63 *)
Theorem C63_one_datagram : forall c start ls tr s t p n1 e1 m n2 e2 q,
  exec c start ls tr s -> tr = p ++ (n1, e1) :: m ++ (n2, e2) :: q ->
  is_send t e1 = true -> is_send t e2 = true -> exists y, In y m /\ call_end t (snd y) = true.
Proof. exact one_datagram. Qed.
Theorem C63_success_sent : forall c start ls tr s p n t o r q,
  exec c start ls tr s -> well_typed tr -> tr = p ++ (n, EvRet t o r) :: q -> success r ->
  exists body, in_call t o p body /\
    match o with
    | ONextMsg | OIsConnected | OAddListener _ => sends t body = []
    | _ => exists d, sends t body = [EvSend (Cl t) d] /\ encodes o d
    end.
Proof. exact success_sent. Qed.
Example C63_example :
  is_send 1 (snd (nth 6 session (0, EvTick))) = true /\ is_send 1 (snd (nth 41 session (0, EvTick))) = true /\
  nth_error monitor_session 25 = Some (0, EvRet 2 (OMWrite lamp [1] true) RUnit) /\
  nth_error monitor_session 24 = Some (0, EvSend (Cl 2) (tunnel_datagram 7 1 (telegram (OMWrite lamp [1] true)))).
Proof. vm_compute. repeat split. Qed.

(** ** C64 *)
Theorem C64_disconnect_success_refuted :
  exists tr s, exec client 0 no_listeners tr s /\ well_typed tr /\
    exists p n1 d n2 chan,
      tr = p ++ [(n1, EvBgRecv d); (n1, EvBgEnd); (n2, EvRet 1 ODisconnect (RErr EClosed))] /\
      In (EvSend (Cl 1) (disconnect_datagram chan gateway)) (evs p) /\
      looks_like (recv_buffer d) (RDiscResp {| ds_chan := chan; ds_status := 0 |}).
Proof. exact failed_disconnect. Qed.
(** What decides instead: success when a bus message is in the queue, an error
    when the task has stopped with the queue empty. *)
Theorem C64_client_outcome : forall c start ls tr s p n t r q,
  exec c start ls tr s -> tr = p ++ (n, EvRet t ODisconnect r) :: q ->
  exists body, in_call t ODisconnect p body /\ disconnect_outcome t p r body.
Proof. exact disconnect_returns. Qed.
(** The monitor's disconnect reads the socket itself. *)
Theorem C64_monitor_outcome : forall c start ls tr s p n t r q,
  exec c start ls tr s -> Forall bytes (arrived tr) -> tr = p ++ (n, EvRet t OMDisconnect r) :: q ->
  exists body, in_call t OMDisconnect p body /\ monitor_disconnect_outcome t r body.
Proof. exact monitor_disconnect_returns. Qed.
Example C64_example :
  nth_error session 53 = Some (130000, EvRet 1 ODisconnect (RErr EClosed)) /\
  nth_error monitor_session 36 = Some (0, EvRet 3 OMDisconnect (RU8 0)).
Proof. vm_compute. repeat split. Qed.

(** ** C67 *)
Theorem C67_status_completes_refuted :
  exists tr s, exec client 0 no_listeners tr s /\ well_typed tr /\
    (exists p n d n2 d2, tr = p ++ [(n, EvSend (Cl 1) d); (n2, EvArrive d2); (n2, EvBgRecv d2)] /\
       service d = 0x0207 /\ looks_like (recv_buffer d2) (RConnState {| ss_chan := 7; ss_status := 0 |})) /\
    in_call 1 OStatus tr [(0, EvSend (Cl 1) (state_datagram 7 gateway))] /\
    forall sched s' tr', run client s sched = Some (s', tr') -> forallb (lets_wait 1) sched = true -> call_events 1 tr' = [].
Proof. exact answered_waits. Qed.
(** When it does return, the first datagram it received itself decides. *)
Theorem C67_status_outcome : forall c start ls tr s p n t r q,
  exec c start ls tr s -> Forall bytes (arrived tr) -> tr = p ++ (n, EvRet t OStatus r) :: q ->
  exists body, in_call t OStatus p body /\ status_outcome t r body.
Proof. exact status_returns. Qed.
Example C67_example :
  nth_error session 48 = Some (130000, EvRet 3 OStatus (RStatus {| ss_chan := 9; ss_status := 0 |})).
Proof. vm_compute. reflexivity. Qed.

(** ** C68 *)
Theorem C68_status_leaves_traffic_refuted :
  exists tr s, exec client 0 no_listeners tr s /\ well_typed tr /\
    exists p n d t, tr = p ++ [(n, EvClRecv 1 d); (n, EvRet 1 OStatus (RErr EParse))] /\
      looks_like (recv_buffer d) (RTunReq t) /\ queued tr = [].
Proof. exact status_steals. Qed.
(** At most one datagram is taken: the call returns with it, and only
    get_connection_status and the monitor's disconnect take any. *)
Theorem C68_one_at_most_partial : forall c start ls tr s p n t d q,
  exec c start ls tr s -> tr = p ++ (n, EvClRecv t d) :: q ->
  exists o r q', q = (n, EvRet t o r) :: q' /\ (o = OStatus \/ o = OMDisconnect).
Proof. exact taken_returns. Qed.
Example C68_example : exists p q d, session = p ++ (130000, EvClRecv 3 d) :: (130000, EvRet 3 OStatus (RStatus {| ss_chan := 9; ss_status := 0 |})) :: q.
Proof. exists (firstn 47 session). eexists _, _. vm_compute. reflexivity. Qed.

(** ** C71 *)
Theorem C71_not_premature : forall c start ls tr s p n t o q,
  exec c start ls tr s -> tr = p ++ (n, EvRet t o (RErr ETimeout)) :: q ->
  ((exists a, o = ORead a) \/ (exists a v b, o = OWrite a v b)) /\
  exists body, in_call t o p body /\ Forall (fun x => fst x + 10000 <= n) body /\
    exists n2 d, In (n2, EvSend (Cl t) d) body.
Proof. exact timeout_not_premature. Qed.
Theorem C71_available : forall c start ls tr s t o body n2 d,
  exec c start ls tr s -> s_rx_alive s = true -> in_call t o tr body ->
  (exists a, o = ORead a) \/ (exists a v b, o = OWrite a v b) ->
  In (n2, EvSend (Cl t) d) body -> Forall (fun x => fst x + 10000 <= s_now s) body ->
  exists s', step c s (LTimeout t) = Some (s', [EvRet t o (RErr ETimeout)]).
Proof. exact timeout_available. Qed.
Example C71_example :
  nth_error session 42 = Some (130000, EvRet 1 (ORead other) (RErr ETimeout)) /\
  map fst (call_events 1 (skipn 39 (firstn 42 session))) = [120000; 120000; 120000].
Proof. vm_compute. repeat split. Qed.

(** ** C72 *)
Theorem C72_read_bounded_refuted : forall k,
  exists tr s, exec client 0 no_listeners tr s /\ well_typed tr /\
    exists p n d q, tr = p ++ (n, EvSend (Cl 1) d) :: q /\ in_call 1 (ORead lamp) p [(0, EvSeq 1 0)] /\
      forallb (fun e => negb (call_end 1 e)) (evs q) = true /\ n + k <= s_now s.
Proof. exact busy_for_ever. Qed.

(** ** C77 *)
Theorem C77_cancel_enabled : forall c start ls tr s t o body,
  exec c start ls tr s -> s_rx_alive s = true -> in_call t o tr body ->
  exists s', step c s (LCancel t) = Some (s', [EvCancel t o]).
Proof. exact cancel_enabled. Qed.
Theorem C77_cancel_effect : forall c start ls tr s t s' es,
  exec c start ls tr s -> step c s (LCancel t) = Some (s', es) ->
  s_conn s' = s_conn s /\ s_rxq s' = s_rxq s /\ s_inbox s' = s_inbox s /\ s_bg s' = s_bg s /\
  s_onconn s' = s_onconn s /\ s_listeners s' = s_listeners s /\ s_hb s' = s_hb s /\ s_now s' = s_now s /\
  s_rx_alive s' = s_rx_alive s /\
  (forall u, u <> t -> s_clients s' u = s_clients s u) /\ s_clients s' t = CIdle /\ s_tlock s' <> Some t /\
  (forall u, u <> t -> s_tlock s = Some u -> s_tlock s' = Some u) /\
  (s_tlock s = None \/ s_tlock s = Some t -> s_tlock s' = None).
Proof. exact cancel_effect. Qed.
(** A read waiting for its answer is dropped; the next call gets the connection. *)
Example C77_example :
  map snd (skipn 7 (trace_of client no_listeners
    (connect_with 7 ++ call4 1 (ORead lamp) ++ [LInvoke 2 (ORead other); LCancel 1] ++ repeat (LCl 2 true) 2))) =
  [EvInvoke 2 (ORead other); EvCancel 1 (ORead lamp); EvSeq 2 1].
Proof. vm_compute. reflexivity. Qed.

(** ** C78 *)
Theorem C78_holder_is_live : forall c start ls tr s u,
  exec c start ls tr s -> s_tlock s = Some u -> s_rx_alive s = true /\ exists o body, in_call u o tr body.
Proof. intros c start ls tr s u H L. split; [exact (lock_alive _ _ _ _ _ _ H L)|exact (lock_live _ _ _ _ _ _ H L)]. Qed.
(** Alone, and with no datagram arriving, the call ends and frees the connection. *)
Theorem C78_holder_can_end : forall c start ls tr s u o body,
  exec c start ls tr s -> s_tlock s = Some u -> in_call u o tr body ->
  (exists a, o = ORead a) \/ (exists a v b, o = OWrite a v b) \/ (exists a, o = OSolicit a) \/ (exists a v b, o = OMWrite a v b) ->
  c_mode c = MClient \/ cd_locked s = false ->
  exists sched s' tr', forallb (own u) sched = true /\ run c s sched = Some (s', tr') /\
    s_clients s' u = CIdle /\ s_tlock s' = None.
Proof.
  intros c start ls tr s u o body H L I O M. eapply holder_can_end; eauto.
  - destruct O as [(?&->)|[(?&?&?&->)|[(?&->)|(?&?&?&->)]]]; reflexivity.
  - destruct M as [M|M]; [exact (client_not_locked _ _ _ _ _ H M)|exact M].
Qed.
Example C78_example :
  match run client (init_sys 0 no_listeners) (connect_with 7 ++ call4 1 (ORead lamp)) with
  | Some (s, tr) => s_tlock s = Some 1%nat /\
      match run client s [LTime 10000; LTimeout 1] with
      | Some (s', tr') => s_tlock s' = None /\ evs tr' = [EvRet 1 (ORead lamp) (RErr ETimeout)]
      | None => False
      end
  | None => False
  end.
Proof. vm_compute. repeat split. Qed.
