(** Specification, fourth part: more observations on traces. *)
From Verif Require Import Base Addresses Tunneling Emi Core Transport Wire Spec TraceSpec.
Open Scope N_scope.

(** Is there a connection, according to the events? *)
Definition connected_now (tr : trace) : bool :=
  fold_left (fun b x => match snd x with EvConnected _ => true | EvCleared => false | _ => b end) tr false.

(** The sequence numbers of the tunnelling requests that were really sent by calls. *)
Definition transmitted (tr : trace) : list N :=
  flat_map (fun x => match snd x with
                     | EvSend (Cl _) d => if service d =? 0x0420 then [nth 8 d 0] else []
                     | _ => []
                     end) tr.
(** [xs] is [ys] without some elements. *)
Inductive sublist {A} : list A -> list A -> Prop :=
| sub_nil : sublist [] []
| sub_keep x xs ys : sublist xs ys -> sublist (x :: xs) (x :: ys)
| sub_skip x xs ys : sublist xs ys -> sublist xs (x :: ys).

(** No receive error is reported to the task. *)
Definition no_recv_error (l : label) : bool := match l with LBgRecvErr => false | _ => true end.
(** A datagram taken while connecting. *)
Definition is_conn_recv (e : event) : bool := match e with EvConnRecv _ => true | _ => false end.

(** ** Telegrams of a device *)
(** The octets of a telegram that fits into the receive buffer: message code,
    additional information, L_Data fields. *)
Definition indication_octets (code : N) (is : list (N * list N)) (c1 c2 src dst len apci : N) (data : list N) : Prop :=
  byte code /\ Forall (fun i => known_info (fst i) /\ bytes (snd i)) is /\ byte c1 /\ byte c2 /\ src < 65536 /\ dst < 65536 /\
  byte len /\ apci < 65536 /\ bytes data /\
  (length (cemi_bytes code is (ldata_bytes c1 c2 src dst len apci data)) <= 90)%nat.
(** The value such a telegram carries. *)
Definition short_or_long (len apci : N) (data : list N) : list N :=
  if len <=? 1 then [apci mod 64] else take_padded (N.to_nat (len - 1)) data.
(** Calls whose request fits into one telegram: addresses within the types, at
    most 253 octets, a short value not empty. *)
Definition sendable (o : op) : Prop :=
  match o with
  | ORead a | OSolicit a => wf_addr a
  | OWrite a v small | OMWrite a v small => wf_addr a /\ (length v <= 253)%nat /\ (small = true -> v <> [])
  | _ => False
  end.
(** Nothing fails, nobody but the task moves, the only datagram that arrives is
    [g], and the user at most drops on-connect channels. *)
Definition helpful (g : list N) (l : label) : bool :=
  match l with
  | LTime _ | LBg true | LTick | LListenerDrop _ => true
  | LArrive d => if list_eq_dec N.eq_dec d g then true else false
  | _ => false
  end.
(** The datagrams the receive loop took, in order. *)
Definition received (tr : trace) : list (list N) :=
  flat_map (fun x => match snd x with EvBgRecv d => [d] | _ => [] end) tr.
(** Datagram [d] is a tunnelling request that carries the message [m]. *)
Definition carries (d : list N) (m : cemi) : Prop :=
  exists t, looks_like (recv_buffer d) (RTunReq t) /\ cemi_octets (tr_cemi t) m.
(** The request that enables the monitor's info service could not be sent. *)
Definition feature_failed (e : event) : bool :=
  match e with EvSendFail Bg d => service d =? 0x0424 | _ => false end.
(** What a read of [a] that returned [r] at time [n] did since its invocation. *)
Definition read_outcome (t : nat) (a : knx_address) (p : trace) (n : N) (r : api_result) (body : trace) : Prop :=
  match r with
  | RBytes v => exists n1 seq n2 d ms n3 m i,
      body = [(n1, EvSeq t seq); (n2, EvSend (Cl t) d)] ++ takes t (ms ++ [(n3, m)]) /\ Forall (not_for a) (map snd ms) /\
      is_ind m /\ indication_of m i /\ ld_dest (li_data i) = addr_to_u16 a /\ v = li_value i
  | RErr EBadCemi => exists n1 seq n2 d ms n3 m,
      body = [(n1, EvSeq t seq); (n2, EvSend (Cl t) d)] ++ takes t (ms ++ [(n3, m)]) /\ Forall (not_for a) (map snd ms) /\
      is_ind m /\ (length (ce_service m) < 9)%nat
  | RErr ETimeout => exists n1 seq n2 d ms,
      body = [(n1, EvSeq t seq); (n2, EvSend (Cl t) d)] ++ takes t ms /\ Forall (not_for a) (map snd ms) /\
      last (map fst ms) n2 + 10000 <= n
  | RErr EClosed => exists n1 seq n2 d ms,
      body = [(n1, EvSeq t seq); (n2, EvSend (Cl t) d)] ++ takes t ms /\ Forall (not_for a) (map snd ms) /\
      queued p = taken p /\ task_stopped p
  | RErr ESend => exists n1 seq n2 d, body = [(n1, EvSeq t seq); (n2, EvSendFail (Cl t) d)]
  | RErr EDisconnected => body = [] \/ exists n1 seq, body = [(n1, EvSeq t seq)]
  | _ => False
  end.
(** What the task did just before giving the connection up: it received an
    error, an acknowledgement or a heart beat could not be sent, or a message
    was acknowledged that nobody can receive any more. *)
Definition gives_up (dropped : bool) (a : list event) : Prop :=
  (exists a' d, a = a' ++ [EvBgRecv d] /\ connection_error d) \/
  (exists a' d ch seq, a = a' ++ [EvBgRecv d; EvSendFail Bg (ack_datagram ch seq)]) \/
  (exists a' x, a = a' ++ [EvTick; EvSendFail Bg x] /\ service x = 0x0207) \/
  (exists a' m x, a = a' ++ [EvTick; EvLost m; EvSendFail Bg x] /\ service x = 0x0207) \/
  (dropped = true /\ exists a' d t, a = a' ++ [EvBgRecv d; EvSend Bg (ack_datagram (tr_chan t) (tr_seq t))] /\ looks_like (recv_buffer d) (RTunReq t)).
(** Datagrams that cannot stop the task: no disconnect response, no tunnelling
    request with a total length below 10, and (debug build) no additional
    information running past 8 bits. *)
Definition harmless (p : profile) (d : list N) : Prop :=
  (forall r, ~ looks_like (recv_buffer d) (RDiscResp r)) /\
  (forall size chan seq pad rest, size < 10 -> recv_buffer d <> [0x06; 0x10] ++ word 0x0420 ++ word size ++ [4; chan; seq; pad] ++ rest) /\
  (p = Debug -> forall t, looks_like (recv_buffer d) (RTunReq t) -> ~ info_overflow (tr_cemi t)).
(** Datagrams of a device that keeps the connection: nothing at all, or a
    tunnelling request (in the debug build with additional information within 8
    bits), acknowledgement, feature response, or state response without error. *)
Definition welcome (p : profile) (d : list N) : Prop :=
  d = [] \/
  exists r, looks_like (recv_buffer d) r /\
    match r with
    | RTunReq t => p = Debug -> ~ info_overflow (tr_cemi t)
    | RTunAck _ | RFeature _ => True
    | RConnState st => ss_status st = 0
    | RDiscResp _ | RDiscReq _ => False
    end.
(** How often a connection was made. *)
Definition connections (tr : trace) : nat :=
  length (filter (fun x => match snd x with EvConnected _ => true | _ => false end) tr).
