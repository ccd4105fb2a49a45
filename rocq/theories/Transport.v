(** Model of src/transport/udp.rs and src/transport/udp_monitor.rs.

    A labelled transition system.  Every [.await] of the background task and of
    the API calls is a point where other tasks may run; what happens between two
    awaits is one step.  The label says who moves and how the environment
    answers (send fails or not, a timer fires, a datagram arrives), so every
    schedule is a list of labels.  Each step also returns the events an observer
    sees (datagrams on the wire, messages entering and leaving the channel,
    calls and returns). *)
From Verif Require Import Base Addresses Apdu Emi Tunneling Core.
Open Scope N_scope.

(** ** Datagram dispatch *)
(** udp.rs:91-98. *)
Inductive response :=
| RTunReq (r : tunneling_request)
| RTunAck (a : tunneling_ack)
| RFeature (f : feature_resp)
| RConnState (s : connstate_response)
| RDiscResp (r : disconnect_response)
| RDiscReq (r : disconnect_request).

Definition rmap {A B} (f : A -> B) (x : res A) : res B :=
  match x with Ok a => Ok (f a) | Err => Err | Panic => Panic end.

(** udp.rs:323-368. *)
Definition parse_response (resp : list N) : res response :=
  match resp with
  | _ :: _ :: a :: b :: _ =>
      if (a =? 0x04) && (b =? 0x20) then rmap RTunReq (run_on tunneling_request_from_packet resp)
      else if (a =? 0x04) && (b =? 0x21) then rmap RTunAck (run_on tunneling_ack_from_packet resp)
      else if (a =? 0x04) && (b =? 0x23) then rmap RFeature (run_on feature_resp_from_packet resp)
      else if (a =? 0x02) && (b =? 0x0a) then rmap RDiscResp (run_on disconnect_response_from_packet resp)
      else if (a =? 0x02) && (b =? 0x08) then rmap RConnState (run_on connstate_response_from_packet resp)
      else if (a =? 0x02) && (b =? 0x09) then rmap RDiscReq (run_on disconnect_request_from_packet resp)
      else Err
  | _ => Err
  end.

(** [let mut data = vec![0; 100]; socket.recv(&mut data)] (udp.rs:227, 391, 409;
    udp_monitor.rs:234): the buffer after receiving datagram [d].  The bytes
    beyond 100 are discarded by the operating system. *)
Definition recv_buffer (d : list N) : list N := firstn 100 d ++ repeat 0 (100 - length d).

(** ** State *)
(** Which of the two transports: udp.rs ([UdpClient]) or udp_monitor.rs ([UdpMonitor]). *)
Inductive mode := MClient | MMonitor.
Record cfg := { c_mode : mode; c_prof : profile }.

(** udp.rs:26-30, udp_monitor.rs:38-42. *)
Record conn_data := { cd_chan : N; cd_ep : hpai; cd_seq : N }.
(** udp.rs:33-39 starts at 0; udp_monitor.rs:45-51 starts at 1. *)
Definition first_seq (m : mode) : N := match m with MClient => 0 | MMonitor => 1 end.
Definition conn_of (m : mode) (r : connection_response) : conn_data :=
  {| cd_chan := cr_chan r; cd_ep := cr_endpoint r; cd_seq := first_seq m |}.

(** Public API calls: [UdpClient] (udp.rs:498-566) and [UdpMonitor]
    (udp_monitor.rs:270-349). *)
Inductive op :=
| ORead (a : knx_address)
| OWrite (a : knx_address) (v : list N) (small : bool)
| OStatus
| ODisconnect
| ONextMsg
| OSolicit (a : knx_address)
| OMWrite (a : knx_address) (v : list N) (small : bool)
| OMDisconnect
| OIsConnected
| OAddListener (l : nat).
Definition op_mode (o : op) : mode :=
  match o with
  | ORead _ | OWrite _ _ _ | OStatus | ODisconnect => MClient
  | _ => MMonitor
  end.

Inductive api_err := EDisconnected | ESend | ETimeout | EClosed | EBadCemi | EUnexpected | EParse | ERecv.
Inductive api_result :=
| RUnit
| RBytes (v : list N)
| RStatus (s : connstate_response)
| RInd (i : ldata_ind)
| RU8 (b : N)
| RBool (b : bool)
| RErr (e : api_err).

(** Where the background task is suspended. *)
Inductive bg_pc :=
| BCheck                                   (* udp.rs:138-142 top of 'main *)
| BConnSend                                (* udp.rs:385-387 *)
| BConnWait (deadline : N)                 (* udp.rs:392 timeout(30 s, recv) *)
| BConnSleep (deadline : N)                (* udp.rs:380 sleep(10 s) *)
| BMonEnable (r : connection_response)     (* udp_monitor.rs:104, 248-255 *)
| BStore (r : connection_response)         (* udp.rs:148-149 *)
| BNotify (todo active : list nat)         (* udp_monitor.rs:112-119 *)
| BRecv                                    (* udp.rs:153-154, 410 select! / recv *)
| BAck (chan seq : N) (k : option (list N))(* udp.rs:417-418, 438-440 *)
| BEnq (c : cemi)                          (* udp.rs:431 *)
| BDiscSend (r : disconnect_request)       (* udp.rs:459-460 *)
| BBeat                                    (* udp.rs:163-178 *)
| BClear                                   (* udp.rs:182-183 *)
| BEnded                                   (* udp.rs:185 *)
| BPanicked.

(** Where an API call is suspended.  [CIdle]: no call in progress. *)
Inductive client_pc :=
| CIdle
| CLock (o : op)                           (* self.transport.lock().await *)
| CSeq (o : op) (pkt : list N)             (* get_next_sequence_nr *)
| CChan (o : op) (pkt : list N) (seq : N)  (* get_communication_channel_id in tunnel_req *)
| CChan2 (o : op)                          (* get_communication_channel_id elsewhere *)
| CEp (o : op) (chan : N)                  (* get_control_endpoint *)
| CSend (o : op) (pkt : list N)            (* socket.send *)
| CWaitQ (o : op) (deadline : N)           (* rx.recv *)
| CWaitSock (o : op)                       (* socket.recv called directly by the API *)
| CConnChk                                 (* udp_monitor.rs:198-200 *)
| CAddL (l : nat).                         (* udp_monitor.rs:169-171 *)

(** A [mpsc::Receiver<()>] owned by the user whose sender was registered with
    [add_on_connect]: capacity, messages waiting, not yet dropped. *)
Record listener := { li_cap : nat; li_count : nat; li_alive : bool }.

Record sys := {
  s_now : N;                       (* milliseconds *)
  s_conn : option conn_data;       (* connection_data *)
  s_rxq : list cemi;               (* mpsc channel of capacity 100, oldest first *)
  s_rx_alive : bool;               (* the client handle (hence the Receiver) exists *)
  s_inbox : list (list N);         (* datagrams waiting in the socket, oldest first *)
  s_bg : bg_pc;
  s_hb : N;                        (* next deadline of the heart_beat interval *)
  s_tlock : option nat;            (* holder of the transport mutex *)
  s_clients : nat -> client_pc;
  s_listeners : nat -> listener;
  s_onconn : list nat              (* on_connection *)
}.

Definition upd {A} (f : nat -> A) (i : nat) (x : A) : nat -> A :=
  fun j => if Nat.eqb j i then x else f j.

Definition set_now s v := Build_sys v (s_conn s) (s_rxq s) (s_rx_alive s) (s_inbox s) (s_bg s) (s_hb s) (s_tlock s) (s_clients s) (s_listeners s) (s_onconn s).
Definition set_conn s v := Build_sys (s_now s) v (s_rxq s) (s_rx_alive s) (s_inbox s) (s_bg s) (s_hb s) (s_tlock s) (s_clients s) (s_listeners s) (s_onconn s).
Definition set_rxq s v := Build_sys (s_now s) (s_conn s) v (s_rx_alive s) (s_inbox s) (s_bg s) (s_hb s) (s_tlock s) (s_clients s) (s_listeners s) (s_onconn s).
Definition set_rx_alive s v := Build_sys (s_now s) (s_conn s) (s_rxq s) v (s_inbox s) (s_bg s) (s_hb s) (s_tlock s) (s_clients s) (s_listeners s) (s_onconn s).
Definition set_inbox s v := Build_sys (s_now s) (s_conn s) (s_rxq s) (s_rx_alive s) v (s_bg s) (s_hb s) (s_tlock s) (s_clients s) (s_listeners s) (s_onconn s).
Definition set_bg s v := Build_sys (s_now s) (s_conn s) (s_rxq s) (s_rx_alive s) (s_inbox s) v (s_hb s) (s_tlock s) (s_clients s) (s_listeners s) (s_onconn s).
Definition set_hb s v := Build_sys (s_now s) (s_conn s) (s_rxq s) (s_rx_alive s) (s_inbox s) (s_bg s) v (s_tlock s) (s_clients s) (s_listeners s) (s_onconn s).
Definition set_tlock s v := Build_sys (s_now s) (s_conn s) (s_rxq s) (s_rx_alive s) (s_inbox s) (s_bg s) (s_hb s) v (s_clients s) (s_listeners s) (s_onconn s).
Definition set_client s t v := Build_sys (s_now s) (s_conn s) (s_rxq s) (s_rx_alive s) (s_inbox s) (s_bg s) (s_hb s) (s_tlock s) (upd (s_clients s) t v) (s_listeners s) (s_onconn s).
Definition set_listener s l v := Build_sys (s_now s) (s_conn s) (s_rxq s) (s_rx_alive s) (s_inbox s) (s_bg s) (s_hb s) (s_tlock s) (s_clients s) (upd (s_listeners s) l v) (s_onconn s).
Definition set_onconn s v := Build_sys (s_now s) (s_conn s) (s_rxq s) (s_rx_alive s) (s_inbox s) (s_bg s) (s_hb s) (s_tlock s) (s_clients s) (s_listeners s) v.

(** State right after [UdpTransport::connect] / [UdpMonitorTransport::connect]
    returned (udp.rs:107-194): the task is spawned, nothing sent yet.  The
    interval's first tick is due immediately: [start] is the instant in which the
    spawned task first runs and creates it (udp.rs:133, udp_monitor.rs:90).  [ls] are the user's channels. *)
Definition init_sys (start : N) (ls : nat -> listener) : sys := {|
  s_now := start; s_conn := None; s_rxq := []; s_rx_alive := true; s_inbox := [];
  s_bg := BCheck; s_hb := start; s_tlock := None; s_clients := fun _ => CIdle;
  s_listeners := ls; s_onconn := [] |}.

(** ** Labels and events *)
Inductive label :=
| LTime (dt : N)                 (* time passes *)
| LArrive (d : list N)           (* a datagram arrives at the socket *)
| LBg (ok : bool)                (* the background task runs to its next await; [ok]: its send succeeds *)
| LBgRecvErr                     (* the background task's recv returns an error *)
| LBgTimeout                     (* its connection timeout fires *)
| LTick                          (* select! takes the heart-beat branch *)
| LInvoke (t : nat) (o : op)     (* user task t calls the API *)
| LCl (t : nat) (ok : bool)      (* the call of t runs to its next await *)
| LSockErr (t : nat)             (* its direct socket.recv returns an error *)
| LTimeout (t : nat)             (* its 10 s timeout fires *)
| LDbg (t : nat)                 (* udp.rs:264: the argument of debug! is evaluated and fails *)
| LCancel (t : nat)              (* the user drops the future *)
| LListenerTake (l : nat)        (* the user receives from its on-connect channel *)
| LListenerDrop (l : nat)        (* the user drops it *)
| LDropHandle.                   (* the user drops the client *)

Inductive who := Bg | Cl (t : nat).
Inductive event :=
| EvArrive (d : list N)
| EvConnRecv (d : list N)               (* datagram consumed while connecting *)
| EvBgRecv (d : list N)                 (* datagram consumed by the receive loop *)
| EvClRecv (t : nat) (d : list N)       (* datagram consumed by an API call *)
| EvSend (w : who) (d : list N)
| EvSendFail (w : who) (d : list N)
| EvConnected (c : conn_data)
| EvCleared
| EvSeq (t : nat) (n : N)
| EvEnq (c : cemi)
| EvLost (c : cemi)                     (* acknowledged message dropped by cancellation *)
| EvDeq (t : nat) (c : cemi)
| EvTick
| EvNotify (l : nat)
| EvInvoke (t : nat) (o : op)
| EvRet (t : nat) (o : op) (r : api_result)
| EvPanic (t : nat) (o : op)
| EvCancel (t : nat) (o : op)
| EvBgEnd
| EvBgPanic.

(** ** Background task *)
Definition ms_heart_beat : N := 60000.
Definition ms_connect : N := 30000.
Definition ms_retry : N := 10000.
Definition ms_api : N := 10000.
Definition channel_cap : nat := 100.

(** tokio [Interval] with [MissedTickBehavior::Delay]: a tick more than 5 ms
    late pushes the next deadline to one period from now. *)
Definition next_tick (deadline now : N) : N :=
  if deadline + 5 <? now then now + ms_heart_beat else deadline + ms_heart_beat.

(** udp.rs:384-405, after [recv]: the connection if the buffer holds a
    connection response with status 0. *)
Definition accept_connection (d : list N) : option connection_response :=
  match run_on connection_response_from_packet (recv_buffer d) with
  | Ok r => if cr_status r =? 0 then Some r else None
  | _ => None
  end.

(** What the receive loop does with one datagram (udp.rs:412-466):
    the next suspension point. *)
Definition dispatch (d : list N) : bg_pc :=
  match d with
  | [] => BRecv
  | _ =>
      match parse_response (recv_buffer d) with
      | Panic => BPanicked
      | Err => BClear
      | Ok (RTunReq r) => BAck (tr_chan r) (tr_seq r) (Some (tr_cemi r))
      | Ok (RTunAck _) => BRecv
      | Ok (RFeature f) => BAck (fr_chan f) (fr_seq f) None
      | Ok (RConnState r) => if ss_status r =? 0 then BRecv else BClear
      | Ok (RDiscResp _) => BEnded
      | Ok (RDiscReq r) => BDiscSend r
      end
  end.

(** Event emitted when the task stops. *)
Definition stop_events (b : bg_pc) : list event :=
  match b with BEnded => [EvBgEnd] | BPanicked => [EvBgPanic] | _ => [] end.

Definition send_event (ok : bool) (w : who) (d : list N) : event :=
  if ok then EvSend w d else EvSendFail w d.

(** After the acknowledgement was sent (udp.rs:422-435): parse the cEMI. *)
Definition after_ack (p : profile) (k : option (list N)) : bg_pc :=
  match k with
  | None => BRecv
  | Some bs =>
      match run_on (cemi_from_packet p) bs with
      | Ok c => BEnq c
      | Err => BRecv
      | Panic => BPanicked
      end
  end.

(** One step of the background task with send outcome [ok]. *)
Definition bg_step (c : cfg) (s : sys) (ok : bool) : option (sys * list event) :=
  match s_bg s with
  | BCheck =>
      Some (set_bg s (match s_conn s with None => BConnSend | Some _ => BRecv end), [])
  | BConnSend =>
      let d := connection_request_packet connection_request_tunnel in
      Some (set_bg s (if ok then BConnWait (s_now s + ms_connect)
                      else BConnSleep (s_now s + ms_retry)),
            [send_event ok Bg d])
  | BConnWait _ =>
      match s_inbox s with
      | [] => None
      | d :: rest =>
          let b := match accept_connection d with
                   | Some r => match c_mode c with MClient => BStore r | MMonitor => BMonEnable r end
                   | None => BConnSleep (s_now s + ms_retry)
                   end in
          Some (set_bg (set_inbox s rest) b, [EvConnRecv d])
      end
  | BConnSleep deadline =>
      if deadline <=? s_now s then Some (set_bg s BConnSend, []) else None
  | BMonEnable r =>
      let d := feature_set_packet {| fs_feature := InfoServiceEnable; fs_value := 1;
                                     fs_chan := cr_chan r; fs_seq := 0 |} in
      Some (set_bg s (if ok then BStore r else BCheck), [send_event ok Bg d])
  | BStore r =>
      let cd := conn_of (c_mode c) r in
      (* udp_monitor.rs:107-111: the list is locked right after the data is stored, here in the
         same step; an add_on_connect in between would only come before the store instead *)
      let b := match c_mode c with MClient => BRecv | MMonitor => BNotify (s_onconn s) [] end in
      Some (set_bg (set_conn s (Some cd)) b, [EvConnected cd])
  | BNotify [] active => Some (set_bg (set_onconn s active) BRecv, [])
  | BNotify (l :: todo) active =>
      let r := s_listeners s l in
      if li_alive r then
        if Nat.ltb (li_count r) (li_cap r) then
          Some (set_bg (set_listener s l {| li_cap := li_cap r; li_count := S (li_count r); li_alive := true |})
                       (BNotify todo (active ++ [l])),
                [EvNotify l])
        else None
      else Some (set_bg s (BNotify todo active), [])
  | BRecv =>
      match s_inbox s with
      | [] => None
      | d :: rest =>
          let b := dispatch d in
          Some (set_bg (set_inbox s rest) b, EvBgRecv d :: stop_events b)
      end
  | BAck chan seq k =>
      let d := tunneling_ack_packet {| ta_chan := chan; ta_seq := seq; ta_status := 0 |} in
      let b := if ok then after_ack (c_prof c) k else BClear in
      Some (set_bg s b, send_event ok Bg d :: stop_events b)
  | BEnq m =>
      if s_rx_alive s then
        if Nat.ltb (length (s_rxq s)) channel_cap then
          Some (set_bg (set_rxq s (s_rxq s ++ [m])) BRecv, [EvEnq m])
        else None
      else Some (set_bg s BClear, [])
  | BDiscSend r =>
      let d := disconnect_response_packet (disconnect_response_of_request r) in
      Some (set_bg s BEnded, [send_event ok Bg d; EvBgEnd])
  | BBeat =>
      match s_conn s with
      | Some cd =>
          let d := connstate_request_packet {| sq_chan := cd_chan cd; sq_endpoint := cd_ep cd |} in
          Some (set_bg s (if ok then BRecv else BClear), [send_event ok Bg d])
      | None => Some (set_bg s BClear, [])
      end
  | BClear => Some (set_bg (set_conn s None) BCheck, [EvCleared])
  | BEnded => None
  | BPanicked => None
  end.

(** The background task's [socket.recv] returns [Err] (udp.rs:392-397: only the
    elapsed timeout is checked, the zeroed buffer then fails to parse;
    udp.rs:410: the error is returned). *)
Definition bg_recv_err (s : sys) : option (sys * list event) :=
  match s_bg s with
  | BConnWait _ => Some (set_bg s (BConnSleep (s_now s + ms_retry)), [])
  | BRecv => Some (set_bg s BClear, [])
  | _ => None
  end.

(** udp.rs:392: the 30 s timeout. *)
Definition bg_timeout (s : sys) : option (sys * list event) :=
  match s_bg s with
  | BConnWait deadline =>
      if deadline <=? s_now s then Some (set_bg s (BConnSleep (s_now s + ms_retry)), []) else None
  | _ => None
  end.

(** udp.rs:153-163: the heart-beat branch wins the select!; the receive future
    is dropped at whatever await it was suspended. *)
Definition bg_tick (s : sys) : option (sys * list event) :=
  let go evs :=
    if s_hb s <=? s_now s
    then Some (set_bg (set_hb s (next_tick (s_hb s) (s_now s))) BBeat, EvTick :: evs)
    else None in
  match s_bg s with
  | BRecv => go []
  | BAck _ _ _ => go []
  | BEnq m => go [EvLost m]
  | BDiscSend _ => go []
  | _ => None
  end.

(** Has the task (and with it the only [Sender]) gone? *)
Definition bg_gone (s : sys) : bool :=
  match s_bg s with BEnded | BPanicked => true | _ => false end.
(** The connection_data mutex is held across an await only while notifying
    (udp_monitor.rs:109-119).  The heart beat also holds it across its send
    (udp.rs:165-171) but that is a single step here. *)
Definition cd_locked (s : sys) : bool :=
  match s_bg s with BNotify _ _ => true | _ => false end.

(** ** API calls *)
(** Release the transport mutex if [t] holds it (guard drop). *)
Definition unlock (s : sys) (t : nat) : sys :=
  match s_tlock s with
  | Some u => if Nat.eqb u t then set_tlock s None else s
  | None => s
  end.
(** The call of [t] returns [r]. *)
Definition finish (s : sys) (t : nat) (o : op) (r : api_result) (evs : list event) :=
  Some (set_client (unlock s t) t CIdle, evs ++ [EvRet t o r]).
(** The call of [t] panics. *)
Definition crash (s : sys) (t : nat) (o : op) (evs : list event) :=
  Some (set_client (unlock s t) t CIdle, evs ++ [EvPanic t o]).
Definition goto (s : sys) (t : nat) (pc : client_pc) (evs : list event) :=
  Some (set_client s t pc, evs).

(** The cEMI frame of a group read / write (udp.rs:507-513, 541-547;
    udp_monitor.rs:326-332, 340-346). *)
Definition op_apdu (o : op) : res apdu :=
  match o with
  | OWrite _ v small | OMWrite _ v small => group_value_write v small
  | _ => Ok group_value_read
  end.
Definition op_addr (o : op) : knx_address :=
  match o with
  | ORead a | OWrite a _ _ | OSolicit a | OMWrite a _ _ => a
  | _ => group_1_level 0
  end.
Definition op_cemi (p : profile) (o : op) : res (list N) :=
  bind (op_apdu o) (fun a => ldata_req_packet p (ldata_req_new (op_addr o) (t_data_group a))).

(** Start of a call: [APDU::group_value_write] runs before the mutex is taken
    and may panic on [data[0]]. *)
Definition invoke (c : cfg) (s : sys) (t : nat) (o : op) : option (sys * list event) :=
  match s_clients s t, c_mode c, op_mode o with
  | CIdle, MClient, MClient | CIdle, MMonitor, MMonitor =>
      match op_apdu o with
      | Panic => Some (s, [EvInvoke t o; EvPanic t o])
      | _ => Some (set_client s t (CLock o), [EvInvoke t o])
      end
  | _, _, _ => None
  end.

(** The transport mutex has been acquired. *)
Definition after_lock (c : cfg) (s : sys) (t : nat) (o : op) : option (sys * list event) :=
  match o with
  | ORead _ | OWrite _ _ _ | OSolicit _ | OMWrite _ _ _ =>
      match op_cemi (c_prof c) o with
      | Ok pkt => goto s t (CSeq o pkt) []
      | _ => crash s t o []
      end
  | OStatus | ODisconnect | OMDisconnect => goto s t (CChan2 o) []
  | ONextMsg => goto (unlock s t) t (CWaitQ o 0) []   (* udp_monitor.rs:289; calls waiting at the same time are
      served one after the other (rx is behind a mutex, :291), here any of them may take the next message *)
  | OIsConnected => goto s t CConnChk []
  | OAddListener l => goto s t (CAddL l) []
  end.

(** A message [m] came out of the channel for the call [o] of [t]
    (udp.rs:516-531, 551-560, 268-269; udp_monitor.rs:291-318). *)
Definition on_message (s : sys) (t : nat) (o : op) (deadline : N) (m : cemi) : option (sys * list event) :=
  let again := goto s t (CWaitQ o (s_now s + ms_api)) [EvDeq t m] in
  let done r := finish s t o r [EvDeq t m] in
  match o with
  | ORead a =>
      if ce_code m =? code_LDataCon then again
      else if ce_code m =? code_LDataInd then
        match ldata_ind_from_cemi m with
        | Ok i => if ld_dest (li_data i) =? addr_to_u16 a then done (RBytes (li_value i)) else again
        | _ => done (RErr EBadCemi)
        end
      else again
  | OWrite _ _ _ =>
      if ce_code m =? code_LDataCon then done RUnit else done (RErr EUnexpected)
  | ODisconnect => done RUnit
  | ONextMsg =>
      if ce_code m =? code_LDataCon then again
      else if (ce_code m =? code_LDataInd) || (ce_code m =? code_LBusmonInd) then
        match ldata_ind_from_cemi m with
        | Ok i => done (RInd i)
        | _ => done (RErr EBadCemi)
        end
      else again
  | _ => None
  end.

(** A datagram [d] was received directly by the call [o]
    (udp.rs:227-233; udp_monitor.rs:234-244). *)
Definition on_datagram (s : sys) (t : nat) (o : op) (d : list N) : option (sys * list event) :=
  match o with
  | OStatus =>
      finish s t o (match run_on connstate_response_from_packet (recv_buffer d) with
                    | Ok r => RStatus r | _ => RErr EParse end) [EvClRecv t d]
  | OMDisconnect =>
      finish s t o (match run_on disconnect_response_from_packet (recv_buffer d) with
                    | Ok r => RU8 (ds_status r) | _ => RErr EParse end) [EvClRecv t d]
  | _ => None
  end.

(** One step of the call of [t] with send outcome [ok]. *)
Definition cl_step (c : cfg) (s : sys) (t : nat) (ok : bool) : option (sys * list event) :=
  match s_clients s t with
  | CIdle => None
  | CLock o =>
      match s_tlock s with
      | None => after_lock c (set_tlock s (Some t)) t o
      | Some _ => None
      end
  | CSeq o pkt =>
      if cd_locked s then None else
      match s_conn s with
      | None => finish s t o (RErr EDisconnected) []
      | Some cd =>
          goto (set_conn s (Some {| cd_chan := cd_chan cd; cd_ep := cd_ep cd;
                                    cd_seq := (cd_seq cd + 1) mod 256 |}))
               t (CChan o pkt (cd_seq cd)) [EvSeq t (cd_seq cd)]
      end
  | CChan o pkt seq =>
      if cd_locked s then None else
      match s_conn s with
      | None => finish s t o (RErr EDisconnected) []
      | Some cd =>
          match tunneling_request_packet (c_prof c)
                  {| tr_chan := cd_chan cd; tr_seq := seq; tr_cemi := pkt |} with
          | Ok bs => goto s t (CSend o bs) []
          | _ => crash s t o []
          end
      end
  | CChan2 o =>
      if cd_locked s then None else
      match s_conn s with
      | None => finish s t o (RErr EDisconnected) []
      | Some cd => goto s t (CEp o (cd_chan cd)) []
      end
  | CEp o chan =>
      if cd_locked s then None else
      match s_conn s with
      | None => finish s t o (RErr EDisconnected) []
      | Some cd =>
          let bs := match o with
                    | OStatus => connstate_request_packet {| sq_chan := chan; sq_endpoint := cd_ep cd |}
                    | _ => disconnect_request_packet {| dq_chan := chan; dq_endpoint := cd_ep cd |}
                    end in
          goto s t (CSend o bs) []
      end
  | CSend o bs =>
      let ev := send_event ok (Cl t) bs in
      match o with
      | ORead _ | OWrite _ _ _ =>
          if ok then goto s t (CWaitQ o (s_now s + ms_api)) [ev]
          else finish s t o (RErr ESend) [ev]
      | OSolicit _ | OMWrite _ _ _ =>
          finish s t o (if ok then RUnit else RErr ESend) [ev]
      | OStatus => if ok then goto s t (CWaitSock o) [ev] else finish s t o (RErr ESend) [ev]
      | ODisconnect => if ok then goto s t (CWaitQ o 0) [ev] else crash s t o [ev]
      | OMDisconnect => if ok then goto s t (CWaitSock o) [ev] else crash s t o [ev]
      | _ => None
      end
  | CWaitQ o deadline =>
      match s_rxq s with
      | m :: q => on_message (set_rxq s q) t o deadline m
      | [] => if bg_gone s then finish s t o (RErr EClosed) [] else None
      end
  | CWaitSock o =>
      match s_inbox s with
      | d :: rest => on_datagram (set_inbox s rest) t o d
      | [] => None
      end
  | CConnChk =>
      if cd_locked s then None else
      finish s t OIsConnected (RBool (match s_conn s with Some _ => true | None => false end)) []
  | CAddL l =>
      (* on_connection is locked by the background task while it notifies *)
      if cd_locked s then None else
      finish (set_onconn s (s_onconn s ++ [l])) t (OAddListener l) RUnit []
  end.

(** udp.rs:228-230: error result; udp_monitor.rs:235: [expect] panics. *)
Definition cl_sock_err (s : sys) (t : nat) : option (sys * list event) :=
  match s_clients s t with
  | CWaitSock OStatus => finish s t OStatus (RErr ERecv) []
  | CWaitSock o => crash s t o []
  | _ => None
  end.

(** udp.rs:516, 551: [timeout(10 s, rx.recv())]. *)
Definition cl_timeout (s : sys) (t : nat) : option (sys * list event) :=
  match s_clients s t with
  | CWaitQ o deadline =>
      match o with
      | ORead _ | OWrite _ _ _ =>
          if deadline <=? s_now s then finish s t o (RErr ETimeout) [] else None
      | _ => None
      end
  | _ => None
  end.

(** udp.rs:264: with debug logging enabled the channel id is read once more. *)
Definition cl_dbg (s : sys) (t : nat) : option (sys * list event) :=
  match s_clients s t with
  | CSend ODisconnect _ =>
      match s_conn s with
      | None => finish s t ODisconnect (RErr EDisconnected) []
      | Some _ => None
      end
  | _ => None
  end.

(** The operation a suspended call is running. *)
Definition pc_op (pc : client_pc) : option op :=
  match pc with
  | CIdle => None
  | CLock o | CSeq o _ | CChan o _ _ | CChan2 o | CEp o _ | CSend o _ | CWaitQ o _ | CWaitSock o => Some o
  | CConnChk => Some OIsConnected
  | CAddL l => Some (OAddListener l)
  end.

(** The user drops the future of the call (e.g. an outer timeout): guards are
    released, nothing else is undone. *)
Definition cl_cancel (s : sys) (t : nat) : option (sys * list event) :=
  match pc_op (s_clients s t) with
  | Some o => Some (set_client (unlock s t) t CIdle, [EvCancel t o])
  | None => None
  end.

(** ** The whole system *)
Definition step (c : cfg) (s : sys) (l : label) : option (sys * list event) :=
  match l with
  | LTime dt => Some (set_now s (s_now s + dt), [])
  | LArrive d => Some (set_inbox s (s_inbox s ++ [d]), [EvArrive d])
  | LBg ok => bg_step c s ok
  | LBgRecvErr => bg_recv_err s
  | LBgTimeout => bg_timeout s
  | LTick => bg_tick s
  | LInvoke t o => if s_rx_alive s then invoke c s t o else None
  | LCl t ok => if s_rx_alive s then cl_step c s t ok else None
  | LSockErr t => if s_rx_alive s then cl_sock_err s t else None
  | LTimeout t => if s_rx_alive s then cl_timeout s t else None
  | LDbg t => if s_rx_alive s then cl_dbg s t else None
  | LCancel t => if s_rx_alive s then cl_cancel s t else None
  | LListenerTake l =>
      let r := s_listeners s l in
      match li_count r with
      | O => None
      | S n => Some (set_listener s l {| li_cap := li_cap r; li_count := n; li_alive := li_alive r |}, [])
      end
  | LListenerDrop l =>
      let r := s_listeners s l in
      Some (set_listener s l {| li_cap := li_cap r; li_count := li_count r; li_alive := false |}, [])
  | LDropHandle =>
      (* Dropping the handle needs no call in progress; calls still recorded as
         suspended are treated as dropped with it (no call step is enabled any more). *)
      match s_tlock s with
      | None => Some (set_rx_alive s false, [])
      | Some _ => None
      end
  end.

(** Execute a schedule; events are stamped with the time at which they happen. *)
Definition stamp (n : N) (evs : list event) : list (N * event) := map (fun e => (n, e)) evs.
Fixpoint run (c : cfg) (s : sys) (ls : list label) : option (sys * list (N * event)) :=
  match ls with
  | [] => Some (s, [])
  | l :: ls' =>
      match step c s l with
      | None => None
      | Some (s', evs) =>
          match run c s' ls' with
          | None => None
          | Some (s'', tr) => Some (s'', stamp (s_now s) evs ++ tr)
          end
      end
  end.

(** [exec c start ls tr s]: some schedule leads from the initial state to [s]
    with trace [tr]. *)
Inductive exec (c : cfg) (start : N) (ls : nat -> listener) : list (N * event) -> sys -> Prop :=
| exec_init : exec c start ls [] (init_sys start ls)
| exec_step tr s l s' evs :
    exec c start ls tr s -> step c s l = Some (s', evs) ->
    exec c start ls (tr ++ stamp (s_now s) evs) s'.
