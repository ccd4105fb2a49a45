(** Properties C88-C104: what the device's answers lead to, and what the
    client does when they are missing, late or meant for someone else. *)
From Verif Require Import Base Addresses Apdu Tunneling Emi Core Transport Wire Spec TraceSpec TraceSpec2
  TransportBase TransportInv TransportCalls TransportBgThm TransportBgThm3 TransportRuns TransportRuns2
  TransportLive TransportLive2 TransportRecover TransportWire TransportOrder TransportReads.
Open Scope N_scope.

(** ** C88 *)
Theorem C88_confirmed_write_refuted :
  exists tr s, exec client 0 no_listeners tr s /\ well_typed tr /\
    exists p n1 q n2 m n3, tr = p ++ (n1, EvSend (Cl 1) (tunnel_datagram 7 0 (telegram (OWrite lamp [1] false)))) :: q ++
        [(n2, EvEnq m); (n3, EvDeq 1 (hd m (queued q))); (n3, EvRet 1 (OWrite lamp [1] false) (RErr EUnexpected))] /\
      is_con m /\ ce_service m = ldata_bytes 0xbc 0xe0 0x1101 (addr_to_u16 lamp) 2 apci_group_write [1] /\ n3 = n1.
Proof. exact confirmed_write_fails. Qed.
(** It holds when the confirmation is the next message in the queue. *)
Theorem C88_confirmation_next_partial : forall c start ls tr s t a v b body n2 d m rest,
  exec c start ls tr s -> s_rx_alive s = true -> in_call t (OWrite a v b) tr body -> In (n2, EvSend (Cl t) d) body ->
  queued tr = taken tr ++ m :: rest -> is_con m ->
  exists s', step c s (LCl t true) = Some (s', [EvDeq t m; EvRet t (OWrite a v b) RUnit]).
Proof. exact write_served. Qed.
(** From the wire: nothing else waiting, the confirmation arrives. *)
Theorem C88_confirmation_arrives_partial : forall c start ls tr s t a v b body n2 d0 chan seq is c1 c2 src dst len apci data,
  exec c start ls tr s -> s_rx_alive s = true -> s_bg s = BRecv -> arrived tr = consumed tr -> queued tr = taken tr ->
  in_call t (OWrite a v b) tr body -> In (n2, EvSend (Cl t) d0) body ->
  byte chan -> byte seq -> indication_octets 0x2e is c1 c2 src dst len apci data ->
  let d := tunnel_datagram chan seq (cemi_bytes 0x2e is (ldata_bytes c1 c2 src dst len apci data)) in
  exists s' m, run c s [LArrive d; LBg true; LBg true; LBg true; LCl t true] =
    Some (s', stamp (s_now s) [EvArrive d; EvBgRecv d; EvSend Bg (ack_datagram chan seq); EvEnq m; EvDeq t m;
                               EvRet t (OWrite a v b) RUnit]).
Proof. exact write_answered. Qed.
(** A complete session, from the first datagram to the result. *)
Theorem C88_session_partial : forall p start ls t a v small g ch ep seq is c1 c2 src dst len apci data,
  sendable (OWrite a v small) -> bytes g -> grants g ch ep -> byte ch -> byte seq ->
  indication_octets 0x2e is c1 c2 src dst len apci data ->
  let d := tunnel_datagram ch seq (cemi_bytes 0x2e is (ldata_bytes c1 c2 src dst len apci data)) in
  exists s m, run {| c_mode := MClient; c_prof := p |} (init_sys start ls)
      ([LBg true; LBg true; LArrive g; LBg true; LBg true] ++ (LInvoke t (OWrite a v small) :: repeat (LCl t true) 4) ++
       [LArrive d; LBg true; LBg true; LBg true; LCl t true]) =
    Some (s, stamp start
      [EvSend Bg connection_datagram; EvArrive g; EvConnRecv g; EvConnected {| cd_chan := ch; cd_ep := ep; cd_seq := 0 |};
       EvInvoke t (OWrite a v small); EvSeq t 0; EvSend (Cl t) (tunnel_datagram ch 0 (telegram (OWrite a v small)));
       EvArrive d; EvBgRecv d; EvSend Bg (ack_datagram ch seq); EvEnq m; EvDeq t m;
       EvRet t (OWrite a v small) RUnit]).
Proof. exact write_session. Qed.
Lemma gateway_grants : grants (granting 7) 7 gateway.
Proof.
  exists 20, 0x1101, (repeat 0 80). split; [split; vm_compute; congruence|]. split; [reflexivity|]. split; [reflexivity|].
  split; [reflexivity|]. split; [repeat constructor|]. split; reflexivity.
Qed.
Example C88_example :
  sendable (OWrite lamp [1; 2] false) /\ bytes (granting 7) /\ grants (granting 7) 7 gateway /\
  indication_octets 0x2e [(3, [1; 2])] 0xbc 0xe0 0x1101 0x0901 3 0x80 [1; 2].
Proof.
  split; [split; [repeat split; reflexivity|split; [cbn; repeat constructor|discriminate]]|].
  split; [vm_compute; repeat constructor|]. split; [exact gateway_grants|].
  unfold indication_octets. vm_compute. repeat split; repeat constructor; auto; discriminate.
Qed.

(** ** C89 *)
Theorem C89_answer_queued : forall c start ls tr s t a body n2 d ms m i rest,
  exec c start ls tr s -> Forall bytes (arrived tr) -> s_rx_alive s = true ->
  in_call t (ORead a) tr body -> In (n2, EvSend (Cl t) d) body ->
  queued tr = taken tr ++ ms ++ m :: rest -> Forall (not_for a) ms ->
  is_ind m -> indication_of m i -> ld_dest (li_data i) = addr_to_u16 a ->
  exists s' tr', run c s (repeat (LCl t true) (S (length ms))) = Some (s', tr') /\
    evs tr' = map (EvDeq t) (ms ++ [m]) ++ [EvRet t (ORead a) (RBytes (li_value i))].
Proof. exact read_served. Qed.
Theorem C89_answer_arrives : forall c start ls tr s t a body n2 d0 chan seq is c1 c2 src len apci data,
  exec c start ls tr s -> s_rx_alive s = true -> s_bg s = BRecv -> arrived tr = consumed tr -> queued tr = taken tr ->
  in_call t (ORead a) tr body -> In (n2, EvSend (Cl t) d0) body ->
  byte chan -> byte seq -> indication_octets 0x29 is c1 c2 src (addr_to_u16 a) len apci data ->
  let d := tunnel_datagram chan seq (cemi_bytes 0x29 is (ldata_bytes c1 c2 src (addr_to_u16 a) len apci data)) in
  exists s' m, run c s [LArrive d; LBg true; LBg true; LBg true; LCl t true] =
    Some (s', stamp (s_now s) [EvArrive d; EvBgRecv d; EvSend Bg (ack_datagram chan seq); EvEnq m; EvDeq t m;
                               EvRet t (ORead a) (RBytes (short_or_long len apci data))]).
Proof. exact read_answered. Qed.
Theorem C89_session : forall p start ls t a g ch ep seq is c1 c2 src len apci data,
  wf_addr a -> bytes g -> grants g ch ep -> byte ch -> byte seq ->
  indication_octets 0x29 is c1 c2 src (addr_to_u16 a) len apci data ->
  let d := tunnel_datagram ch seq (cemi_bytes 0x29 is (ldata_bytes c1 c2 src (addr_to_u16 a) len apci data)) in
  exists s m, run {| c_mode := MClient; c_prof := p |} (init_sys start ls)
      ([LBg true; LBg true; LArrive g; LBg true; LBg true] ++ (LInvoke t (ORead a) :: repeat (LCl t true) 4) ++
       [LArrive d; LBg true; LBg true; LBg true; LCl t true]) =
    Some (s, stamp start
      [EvSend Bg connection_datagram; EvArrive g; EvConnRecv g; EvConnected {| cd_chan := ch; cd_ep := ep; cd_seq := 0 |};
       EvInvoke t (ORead a); EvSeq t 0; EvSend (Cl t) (tunnel_datagram ch 0 (telegram (ORead a)));
       EvArrive d; EvBgRecv d; EvSend Bg (ack_datagram ch seq); EvEnq m; EvDeq t m;
       EvRet t (ORead a) (RBytes (short_or_long len apci data))]).
Proof. exact read_session. Qed.
(** The monitor's [next_msg]. *)
Theorem C89_monitor : forall c start ls tr s t body chan seq code is c1 c2 src dst len apci data,
  exec c start ls tr s -> s_rx_alive s = true -> s_bg s = BRecv -> arrived tr = consumed tr -> queued tr = taken tr ->
  in_call t ONextMsg tr body -> s_tlock s = None ->
  byte chan -> byte seq -> indication_octets code is c1 c2 src dst len apci data -> code = 0x29 \/ code = 0x2b ->
  let d := tunnel_datagram chan seq (cemi_bytes code is (ldata_bytes c1 c2 src dst len apci data)) in
  exists sched s' m i, forallb (own t) sched = true /\
    run c s (sched ++ [LArrive d; LBg true; LBg true; LBg true; LCl t true]) =
    Some (s', stamp (s_now s) [EvArrive d; EvBgRecv d; EvSend Bg (ack_datagram chan seq); EvEnq m; EvDeq t m;
                               EvRet t ONextMsg (RInd i)]) /\
    indication_of m i /\ ld_dest (li_data i) = dst /\ ld_src (li_data i) = src /\ li_value i = short_or_long len apci data.
Proof. exact next_answered. Qed.
Example C89_example :
  indication_octets 0x29 [] 0xbc 0xe0 0x1105 (addr_to_u16 lamp) 2 0x40 [5] /\ short_or_long 2 0x40 [5] = [5] /\
  (exists s, exec client 0 no_listeners (trace_of client no_listeners (connect_with 7 ++ call4 1 (ORead lamp))) s /\
     s_rx_alive s = true /\ s_bg s = BRecv) /\
  in_call 1 (ORead lamp) (trace_of client no_listeners (connect_with 7 ++ call4 1 (ORead lamp)))
    [(0, EvSeq 1 0); (0, EvSend (Cl 1) (tunnel_datagram 7 0 (telegram (ORead lamp))))].
Proof.
  split; [unfold indication_octets; vm_compute; repeat split; repeat constructor; auto; discriminate|].
  split; [reflexivity|]. split.
  - eexists. split; [eapply (run_exec _ _ _ (connect_with 7 ++ call4 1 (ORead lamp))); vm_compute; reflexivity|]. split; reflexivity.
  - exists [], 0. split; [vm_compute; reflexivity|]. intros x [<-|[<-|[]]]; split; reflexivity || discriminate.
Qed.

(** ** C90 *)
Theorem C90_only_answers_refuted :
  exists tr s, exec client 0 no_listeners tr s /\ well_typed tr /\
    exists p n m, tr = p ++ [(n, EvDeq 1 m); (n, EvRet 1 (ORead lamp) (RBytes [0]))] /\ queued tr = [m] /\ is_ind m /\
      ce_service m = ldata_bytes 0xbc 0xe0 0x1105 (addr_to_u16 lamp) 1 apci_group_read [].
Proof. exact reads_a_question. Qed.

(** ** C91 *)
Theorem C91_is_connected : forall c start ls tr s p n t r q,
  exec c start ls tr s -> tr = p ++ (n, EvRet t OIsConnected r) :: q -> r = RBool (connected_now p).
Proof. exact isconn_result. Qed.
Example C91_example :
  (exists n, nth_error monitor_session 31 = Some (n, EvRet 3 OIsConnected (RBool true))) /\
  connected_now (firstn 31 monitor_session) = true /\ connected_now (firstn 3 monitor_session) = false /\
  evs (trace_of monitor no_listeners [LInvoke 1 OIsConnected; LCl 1 true; LCl 1 true]) =
    [EvInvoke 1 OIsConnected; EvRet 1 OIsConnected (RBool false)].
Proof. vm_compute. repeat split. eexists. reflexivity. Qed.

(** ** C92 *)
Theorem C92_own_channel_refuted :
  (exists tr s, exec client 0 no_listeners tr s /\ well_typed tr /\
     exists p n d, tr = p ++ [(n, EvBgRecv d); (n, EvCleared)] /\
       In (EvConnected {| cd_chan := 7; cd_ep := gateway; cd_seq := 0 |}) (evs p) /\ connected_now p = true /\
       looks_like (recv_buffer d) (RConnState {| ss_chan := 9; ss_status := 0x21 |})) /\
  (exists tr s, exec client 0 no_listeners tr s /\ well_typed tr /\
     exists p n d, tr = p ++ [(n, EvBgRecv d); (n, EvBgEnd)] /\
       In (EvConnected {| cd_chan := 7; cd_ep := gateway; cd_seq := 0 |}) (evs p) /\ connected_now p = true /\
       looks_like (recv_buffer d) (RDiscResp {| ds_chan := 9; ds_status := 0x21 |})).
Proof. exact (conj foreign_state foreign_disconnect). Qed.
(** It holds for good connection-state responses: they change nothing, whatever the channel. *)
Theorem C92_good_state_partial : forall c s d st,
  s_bg s = BRecv /\ s_inbox s = [] -> bytes d -> looks_like (recv_buffer d) (RConnState st) -> ss_status st = 0 ->
  run c s [LArrive d; LBg true] = Some (s, [(s_now s, EvArrive d); (s_now s, EvBgRecv d)]).
Proof. exact good_state_ignored. Qed.

(** ** C93 *)
Theorem C93_refusal_reported_refuted :
  exists tr s, exec client 0 no_listeners tr s /\ well_typed tr /\
    exists p n1 q n2 v d a, tr = p ++ (n1, EvSend (Cl 1) (tunnel_datagram 7 0 (telegram (ORead lamp)))) :: q ++
        [(n2, EvRet 1 (ORead lamp) (RBytes v))] /\
      In (EvBgRecv d) (evs q) /\ looks_like (recv_buffer d) (RTunAck a) /\ ta_chan a = 7 /\ ta_seq a = 0 /\ ta_status a = 0x29.
Proof. exact refused_read. Qed.
Theorem C93_missing_reported_refuted :
  exists tr s, exec monitor 0 no_listeners tr s /\ well_typed tr /\
    exists p n1, tr = p ++ [(n1, EvSend (Cl 1) (tunnel_datagram 7 1 (telegram (OMWrite lamp [1] true)))); (n1, EvRet 1 (OMWrite lamp [1] true) RUnit)] /\
      arrived tr = [granting 7].
Proof. exact unacknowledged_write. Qed.
(** An acknowledgement, positive or negative, never changes anything. *)
Theorem C93_ack_without_effect : forall c s d a,
  s_bg s = BRecv /\ s_inbox s = [] -> bytes d -> looks_like (recv_buffer d) (RTunAck a) ->
  run c s [LArrive d; LBg true] = Some (s, [(s_now s, EvArrive d); (s_now s, EvBgRecv d)]).
Proof. exact ack_ignored. Qed.
Example C93_example : looks_like (recv_buffer (ack_answer 7 3 0x29)) (RTunAck {| ta_chan := 7; ta_seq := 3; ta_status := 0x29 |}) /\
  bytes (ack_answer 7 3 0x29).
Proof. split; [apply ack_looks|vm_compute; repeat constructor]. Qed.

(** ** C94 *)
Theorem C94_no_gaps_refuted :
  exists tr s, exec client 0 no_listeners tr s /\ well_typed tr /\ issued tr = [0; 1] /\ transmitted tr = [1] /\
    length (filter is_connected_event (evs tr)) = 1%nat.
Proof. exact skipped_number. Qed.
(** The numbers that are sent are sent in the order in which they were issued. *)
Theorem C94_in_order_partial : forall c start ls tr s, exec c start ls tr s -> sublist (transmitted tr) (issued tr).
Proof. exact transmitted_in_order. Qed.
Example C94_example : transmitted session = [0; 1; 0] /\ issued session = [0; 1; 0].
Proof. vm_compute. repeat split. Qed.

(** ** C95 *)
Theorem C95_in_order : forall c start ls tr s,
  exec c start ls tr s -> Forall bytes (arrived tr) ->
  exists ds, sublist ds (received tr) /\ Forall2 carries ds (queued tr).
Proof. exact delivered_in_order. Qed.
Example C95_example : length (queued session) = 3%nat /\ (3 < length (received session))%nat.
Proof. vm_compute. repeat constructor. Qed.

(** ** C96 *)
Theorem C96_patience : forall c s s1 sched s' tr n2 ok,
  step c s (LBg true) = Some (s1, [EvSend Bg connection_datagram]) ->
  run c s1 sched = Some (s', tr) -> forallb no_recv_error sched = true -> forallb (fun e => negb (is_conn_recv e)) (evs tr) = true ->
  In (n2, send_event ok Bg connection_datagram) tr -> s_now s + 40000 <= n2.
Proof. exact connect_patience. Qed.
Theorem C96_retry : forall c s s1 ok,
  step c s (LBg true) = Some (s1, [EvSend Bg connection_datagram]) ->
  exists s2, run c s1 [LTime 30000; LBgTimeout; LTime 10000; LBg true; LBg ok] =
    Some (s2, [(s_now s1 + 30000 + 10000, send_event ok Bg connection_datagram)]).
Proof. exact connect_retries. Qed.
Example C96_example :
  exists s s1 s2, run client (init_sys 5 no_listeners) [LBg true] = Some (s, []) /\
    step client s (LBg true) = Some (s1, [EvSend Bg connection_datagram]) /\
    run client s1 [LTime 30000; LBgTimeout; LTime 10000; LBg true; LBg true] = Some (s2, [(40005, EvSend Bg connection_datagram)]).
Proof. eexists _, _, _. split; [reflexivity|]. split; vm_compute; reflexivity. Qed.

(** ** C97 *)
Theorem C97_recovers : forall c start ls tr s g ch ep,
  exec c start ls tr s -> ~ task_stopped tr -> bytes g -> grants g ch ep ->
  exists sched s' tr', forallb (helpful g) sched = true /\ run c s sched = Some (s', tr') /\ s_bg s' = BRecv /\
    connected_now (tr ++ tr') = true.
Proof. exact recovery. Qed.
Example C97_example :
  bytes (granting 7) /\ grants (granting 7) 7 gateway /\ ~ task_stopped (firstn 27 session) /\ connected_now (firstn 5 session) = true.
Proof.
  split; [vm_compute; repeat constructor|]. split; [exact gateway_grants|]. split; [|vm_compute; reflexivity].
  intros [H|H]; vm_compute in H; intuition discriminate.
Qed.

(** ** C98 *)
Theorem C98_refusal_reported_refuted :
  exists tr s, exec monitor 0 no_listeners tr s /\ well_typed tr /\
    exists p n d f n2, tr = p ++ [(n, EvBgRecv d); (n, EvSend Bg (ack_datagram 7 0)); (n2, EvInvoke 1 OIsConnected); (n2, EvRet 1 OIsConnected (RBool true))] /\
      looks_like (recv_buffer d) (RFeature f) /\ fr_chan f = 7 /\ fr_feature f = InfoServiceEnable /\ fr_status f <> 0.
Proof. exact refused_feature. Qed.
(** A feature response is acknowledged and otherwise without effect. *)
Theorem C98_only_acknowledged : forall c s d f,
  s_bg s = BRecv /\ s_inbox s = [] -> bytes d -> looks_like (recv_buffer d) (RFeature f) ->
  run c s [LArrive d; LBg true; LBg true] =
    Some (s, [(s_now s, EvArrive d); (s_now s, EvBgRecv d); (s_now s, EvSend Bg (ack_datagram (fr_chan f) (fr_seq f)))]).
Proof. exact feature_acked. Qed.
Example C98_example : bytes (feature_answer 7 0 0x21 0) /\ exists f, looks_like (recv_buffer (feature_answer 7 0 0x21 0)) (RFeature f).
Proof. split; [vm_compute; repeat constructor|]. eexists. apply feature_looks. Qed.

(** ** C99 *)
(** Any number of attempts, all at time 0. *)
Theorem C99_monitor_spaced_refuted : forall k, exists tr s, exec monitor 0 no_listeners tr s /\ Forall bytes (arrived tr) /\
  length (filter (fun e => match e with EvSend Bg d => service d =? 0x0205 | _ => false end) (evs tr)) = k /\ Forall (fun x => fst x = 0) tr.
Proof. exact storm. Qed.
(** It holds as long as the feature request that follows a granted connection can be sent. *)
Theorem C99_spaced_partial : forall c start ls tr s p n1 ok1 m n2 ok2 q,
  exec c start ls tr s ->
  tr = p ++ (n1, send_event ok1 Bg connection_datagram) :: m ++ (n2, send_event ok2 Bg connection_datagram) :: q ->
  no_connected m -> forallb (fun e => negb (feature_failed e)) (evs m) = true -> n1 + 10000 <= n2.
Proof. exact monitor_attempts_spaced. Qed.
Example C99_example :
  trace_of monitor no_listeners [LBg true; LBg true; LArrive [1]; LBg true; LTime 10000; LBg true; LBg true] =
    [(0, EvSend Bg connection_datagram); (0, EvArrive [1]); (0, EvConnRecv [1]); (10000, EvSend Bg connection_datagram)].
Proof. vm_compute. reflexivity. Qed.

(** ** C100 *)
Theorem C100_second_grant_refuted :
  exists tr s, exec client 0 no_listeners tr s /\ well_typed tr /\
    exists p n, tr = p ++ [(n, EvArrive (granting 7)); (n, EvBgRecv (granting 7)); (n, EvCleared)] /\
      In (EvConnRecv (granting 7)) (evs p) /\ connected_now p = true.
Proof. exact duplicate_grant. Qed.
(** Every connect response that grants a channel is an error in the receive loop (with C57: the connection is dropped). *)
Theorem C100_always_dropped : forall d ch ep, bytes d -> grants d ch ep -> connection_error d.
Proof. exact grant_is_error. Qed.

(** ** C101 *)
Theorem C101_channel_freed_refuted :
  exists tr s, exec client 0 no_listeners tr s /\ well_typed tr /\
    exists a n cd b n2 cd2, tr = a ++ (n, EvConnected cd) :: b ++ [(n2, EvConnected cd2)] /\ cd_chan cd = 7 /\ cd_chan cd2 = 9 /\
      ~ In (EvSend Bg (disconnect_datagram 7 gateway)) (evs tr) /\ (forall t, ~ In (EvSend (Cl t) (disconnect_datagram 7 gateway)) (evs tr)).
Proof. exact leaked_channel. Qed.
(** The task never asks the device to free a channel; only the calls do (C55). *)
Theorem C101_task_never_frees : forall c start ls tr s ok x,
  exec c start ls tr s -> Forall bytes (arrived tr) -> In (send_event ok Bg x) (evs tr) -> service x <> 0x0209.
Proof. exact task_never_frees. Qed.

(** ** C102 *)
Theorem C102_others_skipped_refuted :
  exists tr s, exec client 0 no_listeners tr s /\ well_typed tr /\
    exists p n d n2, tr = p ++ [(n, EvSend Bg connection_datagram); (n, EvConnRecv d); (n, EvArrive (granting 9)); (n2, EvSend Bg connection_datagram)] /\
      (exists t, looks_like (recv_buffer d) (RTunReq t)) /\ In (EvArrive d) (evs p) /\ n2 = n + 10000.
Proof. exact stale_spoils. Qed.
(** The first datagram taken after a connection request decides. *)
Theorem C102_first_decides : forall c start ls tr s a d e b,
  exec c start ls tr s -> Forall bytes (arrived tr) -> bg_events tr = a ++ EvConnRecv d :: e :: b ->
  (exists ch ep, grants d ch ep /\
     match c_mode c with
     | MClient => e = EvConnected {| cd_chan := ch; cd_ep := ep; cd_seq := 0 |}
     | MMonitor => exists ok, e = send_event ok Bg (feature_datagram ch)
     end) \/
  ((forall ch ep, ~ grants d ch ep) /\ exists ok, e = send_event ok Bg connection_datagram).
Proof. exact conn_recv_next. Qed.
Example C102_example : exists d e, nth_error (bg_events session) 1 = Some (EvConnRecv d) /\ nth_error (bg_events session) 2 = Some e.
Proof. eexists _, _. vm_compute. split; reflexivity. Qed.

(** ** C103 *)
Theorem C103_next_beat : forall c start ls tr s dt ok,
  exec c start ls tr s -> Forall bytes (arrived tr) -> s_bg s = BRecv -> 60000 <= dt ->
  exists cd s', s_conn s = Some cd /\ run c s [LTime dt; LTick; LBg ok] =
    Some (s', [(s_now s + dt, EvTick); (s_now s + dt, send_event ok Bg (state_datagram (cd_chan cd) (cd_ep cd)))]).
Proof. exact beat_possible. Qed.
Example C103_example :
  exists s, exec client 0 no_listeners (trace_of client no_listeners (connect_with 7)) s /\ s_bg s = BRecv.
Proof. eexists. split; [eapply (run_exec _ _ _ (connect_with 7)); vm_compute; reflexivity|reflexivity]. Qed.

(** ** C104 *)
Theorem C104_reason : forall c start ls sched s tr p n q,
  run c (init_sys start ls) sched = Some (s, tr) -> forallb no_recv_error sched = true -> Forall bytes (arrived tr) ->
  tr = p ++ (n, EvCleared) :: q -> gives_up (negb (s_rx_alive s)) (bg_events p).
Proof. exact cleared_reason. Qed.
Definition refused_schedule : list label := connect_with 7 ++ [LArrive (state_answer 7 0x21); LBg true; LBg true].
Example C104_example :
  forallb no_recv_error refused_schedule = true /\ runs client no_listeners refused_schedule = true /\
  nth_error (bg_events (trace_of client no_listeners refused_schedule)) 4 = Some EvCleared /\
  gives_up false (firstn 4 (bg_events (trace_of client no_listeners refused_schedule))).
Proof.
  split; [reflexivity|]. split; [vm_compute; reflexivity|]. split; [vm_compute; reflexivity|].
  left. exists (firstn 3 (bg_events (trace_of client no_listeners refused_schedule))), (state_answer 7 0x21). split; [vm_compute; reflexivity|].
  left. eexists. split; [apply state_looks|discriminate].
Qed.
