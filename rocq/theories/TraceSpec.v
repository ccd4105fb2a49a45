(** Specification, third part: observations on traces.  Every definition here
    only looks at the events of a trace, never at the state of the model. *)
From Verif Require Import Base Addresses Tunneling Emi Core Transport Wire Spec.
Open Scope N_scope.

Definition trace := list (N * event).
Definition evs (tr : trace) : list event := map snd tr.

(** ** Who took part in an event *)
(** Events of the background task. *)
Definition bg_event (e : event) : bool :=
  match e with
  | EvConnRecv _ | EvBgRecv _ | EvSend Bg _ | EvSendFail Bg _ | EvConnected _ | EvCleared
  | EvEnq _ | EvLost _ | EvTick | EvNotify _ | EvBgEnd | EvBgPanic => true
  | _ => false
  end.
(** Events of the calls made by user task [t]. *)
Definition call_event (t : nat) (e : event) : bool :=
  match e with
  | EvClRecv u _ | EvSend (Cl u) _ | EvSendFail (Cl u) _ | EvSeq u _ | EvDeq u _
  | EvInvoke u _ | EvRet u _ _ | EvPanic u _ | EvCancel u _ => Nat.eqb u t
  | _ => false
  end.
(** The call of [t] is over: it returned, panicked or was dropped. *)
Definition call_end (t : nat) (e : event) : bool :=
  match e with EvRet u _ _ | EvPanic u _ | EvCancel u _ => Nat.eqb u t | _ => false end.
Definition is_connected_event (e : event) : bool :=
  match e with EvConnected _ => true | _ => false end.

Definition bg_events (tr : trace) : list event := filter bg_event (evs tr).
Definition call_events (t : nat) (tr : trace) : trace := filter (fun x => call_event t (snd x)) tr.

(** ** What went through the queue and the socket, in order *)
Definition queued (tr : trace) : list cemi :=
  flat_map (fun x => match snd x with EvEnq m => [m] | _ => [] end) tr.
Definition taken (tr : trace) : list cemi :=
  flat_map (fun x => match snd x with EvDeq _ m => [m] | _ => [] end) tr.
Definition arrived (tr : trace) : list (list N) :=
  flat_map (fun x => match snd x with EvArrive d => [d] | _ => [] end) tr.
Definition consumed (tr : trace) : list (list N) :=
  flat_map (fun x => match snd x with EvConnRecv d | EvBgRecv d | EvClRecv _ d => [d] | _ => [] end) tr.
(** Sequence numbers handed out to calls. *)
Definition issued (tr : trace) : list N :=
  flat_map (fun x => match snd x with EvSeq _ n => [n] | _ => [] end) tr.
(** Sequence numbers [first], [first]+1, ... modulo 256. *)
Definition consecutive (first : N) (k : nat) : list N :=
  map (fun i => (first + N.of_nat i) mod 256) (seq 0 k).

(** ** Datagrams *)
(** What the device wrote when it granted channel [chan] and endpoint [ep]. *)
Definition grants (d : list N) (chan : N) (ep : hpai) : Prop :=
  exists size n rest, 8 <= size < 65536 /\ n < 65536 /\
    recv_buffer d = [0x06; 0x10] ++ word 0x0206 ++ word size ++ [chan; 0]
      ++ hpai_bytes (hp_code ep) (hp_ip ep) (hp_port ep) ++ [4; 4] ++ word n ++ rest /\
    wf_hpai ep.
Definition connection_datagram : list N :=
  frame 0x0205 (hpai_bytes 1 [0;0;0;0] 0 ++ hpai_bytes 1 [0;0;0;0] 0 ++ [4; 4; 0x02; 0]).
Definition feature_datagram (chan : N) : list N := frame 0x0424 [4; chan; 0; 0; 0x08; 0; 1].
Definition ack_datagram (chan seq : N) : list N := frame 0x0421 [4; chan; seq; 0].
Definition state_datagram (chan : N) (ep : hpai) : list N :=
  frame 0x0207 ([chan; 0] ++ hpai_bytes (hp_code ep) (hp_ip ep) (hp_port ep)).
Definition disconnect_datagram (chan : N) (ep : hpai) : list N :=
  frame 0x0209 ([chan; 0] ++ hpai_bytes (hp_code ep) (hp_ip ep) (hp_port ep)).
Definition tunnel_datagram (chan seq : N) (telegram : list N) : list N :=
  frame 0x0420 ([4; chan; seq; 0] ++ telegram).
(** The telegram of a call: L_Data.req, low priority, broadcast, to a group. *)
Definition telegram (o : op) : list N :=
  match o with
  | ORead a | OSolicit a =>
      cemi_bytes 0x11 [] (ldata_bytes 0xbc 0xe0 0 (addr_to_u16 a) 1 apci_group_read [])
  | OWrite a v false | OMWrite a v false =>
      cemi_bytes 0x11 [] (ldata_bytes 0xbc 0xe0 0 (addr_to_u16 a) ((1 + N.of_nat (length v)) mod 256) apci_group_write v)
  | OWrite a v true | OMWrite a v true =>
      cemi_bytes 0x11 [] (ldata_bytes 0xbc 0xe0 0 (addr_to_u16 a) 1 (apci_group_write + hd 0 v mod 64) [])
  | _ => []
  end.
(** Arguments within the types (u8/u16 fields) and the value below the size
    limit of a datagram. *)
Definition wf_op (o : op) : Prop :=
  match o with
  | ORead a | OSolicit a => wf_addr a
  | OWrite a v _ | OMWrite a v _ => wf_addr a /\ N.of_nat (length v) <= 65000
  | _ => True
  end.
(** The datagrams that arrived are octets and all calls have such arguments. *)
Definition well_typed (tr : trace) : Prop :=
  Forall bytes (arrived tr) /\ forall t o, In (EvInvoke t o) (evs tr) -> wf_op o.
(** The events [body] of the call [o] that task [t] is in, according to [tr]:
    everything of [t] since its last invocation. *)
Definition in_call (t : nat) (o : op) (tr body : trace) : Prop :=
  exists h n, call_events t tr = h ++ (n, EvInvoke t o) :: body /\
    forall x, In x body -> call_end t (snd x) = false /\ forall o', snd x <> EvInvoke t o'.

(** Task [t] sends (or tries to send) a datagram. *)
Definition is_send (t : nat) (e : event) : bool :=
  match e with EvSend (Cl u) _ | EvSendFail (Cl u) _ => Nat.eqb u t | _ => false end.
Definition sends (t : nat) (tr : trace) : list event := filter (is_send t) (evs tr).
(** [d] is the datagram prescribed by the arguments of [o], for some channel,
    sequence number and endpoint. *)
Definition encodes (o : op) (d : list N) : Prop :=
  match o with
  | ORead _ | OWrite _ _ _ | OSolicit _ | OMWrite _ _ _ => exists chan seq, d = tunnel_datagram chan seq (telegram o)
  | OStatus => exists chan ep, d = state_datagram chan ep
  | ODisconnect | OMDisconnect => exists chan ep, d = disconnect_datagram chan ep
  | _ => False
  end.
Definition success (r : api_result) : Prop := match r with RErr _ => False | _ => True end.

(** ** Messages in a datagram *)
(** The octets [bs], filled up with zeros if too short, are the message [m]. *)
Definition cemi_octets (bs : list N) (m : cemi) : Prop :=
  exists size n, bs ++ repeat 0 n =
      [ce_code m; size] ++ infos_bytes (map info_pair (ce_infos m)) ++ ce_service m /\
    (n <> 0%nat -> ce_service m = []).
(** An additional-information element whose end lies beyond 8 bits. *)
Definition info_overflow (bs : list N) : Prop :=
  exists code size is ty k rest,
    bs = [code; size] ++ infos_bytes is ++ [ty; k] ++ rest /\
    N.of_nat (length (infos_bytes is)) < size /\
    256 <= N.of_nat (length (infos_bytes is)) + 2 + k.

(** ** Outcomes of calls *)
(** The message [m] reads as the indication [i] (03.06.03, 4.1.5.3; a value
    that is cut short is filled up with zeros). *)
Definition indication_of (m : cemi) (i : ldata_ind) : Prop :=
  exists c1 c2 src dst len apci data,
    src < 65536 /\ dst < 65536 /\ apci < 65536 /\
    ce_service m = ldata_bytes c1 c2 src dst len apci data /\
    i = {| li_cemi := m;
           li_data := {| ld_src := src; ld_dest := dst; ld_frame_type := N.testbit c1 7;
                         ld_repetition := N.testbit c1 5; ld_system_broadcast := N.testbit c1 4;
                         ld_ack_request := N.testbit c1 1 |};
           li_value := if len <=? 1 then [apci mod 64] else take_padded (N.to_nat (len - 1)) data |}.
(** Message codes: L_Data.ind, L_Data.con, L_Busmon.ind. *)
Definition is_ind (m : cemi) : Prop := ce_code m = 0x29.
Definition is_con (m : cemi) : Prop := ce_code m = 0x2e.
Definition is_busmon (m : cemi) : Prop := ce_code m = 0x2b.
(** Task [t] takes these messages from the queue, at these times. *)
Definition takes (t : nat) (ms : list (N * cemi)) : trace := map (fun x => (fst x, EvDeq t (snd x))) ms.
(** A read of [a] has no use for [m]: no indication, or one for another address. *)
Definition not_for (a : knx_address) (m : cemi) : Prop :=
  is_ind m -> exists i, indication_of m i /\ ld_dest (li_data i) <> addr_to_u16 a.
(** next_msg has no use for [m]. *)
Definition not_indication (m : cemi) : Prop := ~ is_ind m /\ ~ is_busmon m.
Definition task_stopped (tr : trace) : Prop := In EvBgEnd (evs tr) \/ In EvBgPanic (evs tr).
(** What a write that returned [r] at time [n] did since its invocation. *)
Definition write_outcome (t : nat) (p : trace) (n : N) (r : api_result) (body : trace) : Prop :=
  match r with
  | RUnit => exists n1 seq n2 d n3 m,
      body = [(n1, EvSeq t seq); (n2, EvSend (Cl t) d); (n3, EvDeq t m)] /\ is_con m
  | RErr EUnexpected => exists n1 seq n2 d n3 m,
      body = [(n1, EvSeq t seq); (n2, EvSend (Cl t) d); (n3, EvDeq t m)] /\ ~ is_con m
  | RErr ETimeout => exists n1 seq n2 d, body = [(n1, EvSeq t seq); (n2, EvSend (Cl t) d)] /\ n2 + 10000 <= n
  | RErr EClosed => (exists n1 seq n2 d, body = [(n1, EvSeq t seq); (n2, EvSend (Cl t) d)]) /\
      queued p = taken p /\ task_stopped p
  | RErr ESend => exists n1 seq n2 d, body = [(n1, EvSeq t seq); (n2, EvSendFail (Cl t) d)]
  | RErr EDisconnected => body = [] \/ exists n1 seq, body = [(n1, EvSeq t seq)]
  | _ => False
  end.

(** What a next_msg that returned [r] did since its invocation. *)
Definition next_outcome (t : nat) (p : trace) (r : api_result) (body : trace) : Prop :=
  match r with
  | RInd i => exists ms n3 m, body = takes t (ms ++ [(n3, m)]) /\ Forall not_indication (map snd ms) /\
      (is_ind m \/ is_busmon m) /\ indication_of m i
  | RErr EBadCemi => exists ms n3 m, body = takes t (ms ++ [(n3, m)]) /\ Forall not_indication (map snd ms) /\
      (is_ind m \/ is_busmon m) /\ (length (ce_service m) < 9)%nat
  | RErr EClosed => exists ms, body = takes t ms /\ Forall not_indication (map snd ms) /\
      queued p = taken p /\ task_stopped p
  | _ => False
  end.
(** What can happen before the first connection. *)
Definition before_event (e : event) : Prop :=
  match e with
  | EvRet _ o r => r = RErr EDisconnected \/ (o = OIsConnected /\ r = RBool false) \/ (exists l, o = OAddListener l /\ r = RUnit)
  | EvClRecv _ _ | EvSend (Cl _) _ | EvSendFail (Cl _) _ | EvSeq _ _ | EvDeq _ _ => False
  | _ => True
  end.

(** ** Connections *)
Definition no_connected (tr : trace) : Prop := forallb (fun x => negb (is_connected_event (snd x))) tr = true.
(** The service identifier of a datagram. *)
Definition service (d : list N) : N := nth 2 d 0 * 256 + nth 3 d 0.
(** Listeners registered so far, in order. *)
Definition registered (tr : trace) : list nat :=
  flat_map (fun x => match snd x with EvRet _ (OAddListener l) RUnit => [l] | _ => [] end) tr.
(** [ys] is [xs] without some of the elements that are not alive. *)
Inductive kept (alive : nat -> bool) : list nat -> list nat -> Prop :=
| kept_nil : kept alive [] []
| kept_keep x xs ys : kept alive xs ys -> kept alive (x :: xs) (x :: ys)
| kept_drop x xs ys : alive x = false -> kept alive xs ys -> kept alive (x :: xs) ys.

(** ** Kinds of events *)
(** Events only a call holding the connection can cause. *)
Definition exclusive (m : mode) (u : nat) (e : event) : bool :=
  match e with
  | EvSend (Cl v) _ | EvSendFail (Cl v) _ | EvSeq v _ | EvClRecv v _ => Nat.eqb v u
  | EvDeq v _ => match m with MClient => Nat.eqb v u | MMonitor => false end
  | _ => false
  end.
(** No connection is made. *)
Definition no_conn_ev (b : list event) : Prop := forall e, In e b -> is_connected_event e = false.
(** A heart beat. *)
Definition heartbeat (e : event) : bool :=
  match e with EvSend Bg d => service d =? 0x0207 | _ => false end.
(** Calls that need the connection data. *)
Definition needs_connection (e : event) : bool :=
  match e with EvSeq _ _ | EvRet _ OIsConnected _ | EvRet _ (OAddListener _) _ => true | _ => false end.

(** ** Kinds of schedules *)
(** Nothing arrives and no send or receive of the task fails. *)
Definition undisturbed (l : label) : bool :=
  match l with LArrive _ | LBg false | LBgRecvErr => false | _ => true end.
(** The owner of listener [x] neither receives from it nor drops it. *)
Definition leaves_alone (x : nat) (l : label) : bool :=
  match l with LListenerTake y | LListenerDrop y => negb (Nat.eqb y x) | _ => true end.
(** Nothing arrives, and the call of [t] is neither dropped nor told of a socket error. *)
Definition lets_wait (t : nat) (l : label) : bool :=
  match l with LArrive _ => false | LSockErr u | LCancel u => negb (Nat.eqb u t) | _ => true end.
(** Only time passes and the call of [u] runs, without send failures. *)
Definition own (u : nat) (l : label) : bool :=
  match l with LTime _ => true | LCl t ok => Nat.eqb t u && ok | LTimeout t => Nat.eqb t u | _ => false end.

(** ** More outcomes *)
(** What a disconnect of the client that returned [r] did since its invocation. *)
Definition disconnect_outcome (t : nat) (p : trace) (r : api_result) (body : trace) : Prop :=
  match r with
  | RUnit => exists n2 d n3 m, body = [(n2, EvSend (Cl t) d); (n3, EvDeq t m)]
  | RErr EClosed => (exists n2 d, body = [(n2, EvSend (Cl t) d)]) /\ queued p = taken p /\ task_stopped p
  | RErr EDisconnected => body = []
  | _ => False
  end.
(** The first datagram received by the call itself decides. *)
Definition status_outcome (t : nat) (r : api_result) (body : trace) : Prop :=
  match r with
  | RStatus st => exists n2 d n3 x, body = [(n2, EvSend (Cl t) d); (n3, EvClRecv t x)] /\
      looks_like (recv_buffer x) (RConnState st)
  | RErr EParse => exists n2 d n3 x, body = [(n2, EvSend (Cl t) d); (n3, EvClRecv t x)] /\
      forall st, ~ looks_like (recv_buffer x) (RConnState st)
  | RErr ERecv => exists n2 d, body = [(n2, EvSend (Cl t) d)]
  | RErr ESend => exists n2 d, body = [(n2, EvSendFail (Cl t) d)]
  | RErr EDisconnected => body = []
  | _ => False
  end.
Definition monitor_disconnect_outcome (t : nat) (r : api_result) (body : trace) : Prop :=
  match r with
  | RU8 b => exists n2 d n3 x chan, body = [(n2, EvSend (Cl t) d); (n3, EvClRecv t x)] /\
      looks_like (recv_buffer x) (RDiscResp {| ds_chan := chan; ds_status := b |})
  | RErr EParse => exists n2 d n3 x, body = [(n2, EvSend (Cl t) d); (n3, EvClRecv t x)] /\
      forall st, ~ looks_like (recv_buffer x) (RDiscResp st)
  | RErr EDisconnected => body = []
  | _ => False
  end.

(** ** Errors on the connection *)
(** A connection-state response with an error, or a datagram that is none of
    the expected messages (and not the tunnelling request that stops the task). *)
Definition connection_error (d : list N) : Prop :=
  (exists st, looks_like (recv_buffer d) (RConnState st) /\ ss_status st <> 0) \/
  (d <> [] /\ (forall r, ~ looks_like (recv_buffer d) r) /\
   forall size chan seq pad rest, size < 10 ->
     recv_buffer d <> [0x06; 0x10] ++ word 0x0420 ++ word size ++ [4; chan; seq; pad] ++ rest).
