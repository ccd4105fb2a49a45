(** Datagrams that answer a call.  Used by PropsAnswer.v. *)
From Verif Require Import Base Addresses Apdu Tunneling Emi Core Transport Wire Spec TraceSpec TraceSpec2 PromptSpec.
Open Scope N_scope.

(** The call [o], waiting for a message from the bus, ends with [r] when it gets
    the one in the datagram [d]: a read with the value of a telegram to its
    address, a write with success if it is a confirmation and with an error
    otherwise, a disconnect with success. *)
Inductive answered : op -> list N -> api_result -> Prop :=
| answered_read a chan seq is c1 c2 src len apci data :
    byte chan -> byte seq -> indication_octets 0x29 is c1 c2 src (addr_to_u16 a) len apci data ->
    answered (ORead a) (tunnel_datagram chan seq (cemi_bytes 0x29 is (ldata_bytes c1 c2 src (addr_to_u16 a) len apci data)))
      (RBytes (short_or_long len apci data))
| answered_write a v small chan seq is c1 c2 src dst len apci data :
    byte chan -> byte seq -> indication_octets 0x2e is c1 c2 src dst len apci data ->
    answered (OWrite a v small) (tunnel_datagram chan seq (cemi_bytes 0x2e is (ldata_bytes c1 c2 src dst len apci data))) RUnit
| spoilt_write a v small chan seq code is c1 c2 src dst len apci data :
    byte chan -> byte seq -> indication_octets code is c1 c2 src dst len apci data -> code <> 0x2e ->
    answered (OWrite a v small) (tunnel_datagram chan seq (cemi_bytes code is (ldata_bytes c1 c2 src dst len apci data))) (RErr EUnexpected)
| answered_disconnect chan seq code is c1 c2 src dst len apci data :
    byte chan -> byte seq -> indication_octets code is c1 c2 src dst len apci data ->
    answered ODisconnect (tunnel_datagram chan seq (cemi_bytes code is (ldata_bytes c1 c2 src dst len apci data))) RUnit.
(** Nothing of the kind happens at the instant [n]. *)
Definition not_at (n : N) (e : event) (tr : trace) : Prop := ~ In (n, e) tr.

(** Prompt executions in which the task's socket reports no error. *)
Inductive steady (c : cfg) (start : N) (ls : nat -> listener) : trace -> sys -> Prop :=
| steady_init : steady c start ls [] (init_sys start ls)
| steady_step tr s l s' es :
    steady c start ls tr s -> step c s l = Some (s', es) ->
    (forall dt, l = LTime dt -> lets_pass c s dt) -> l <> LBgRecvErr ->
    steady c start ls (tr ++ stamp (s_now s) es) s'.
(** After [p] there is no connection, since the instant [k]: the client has just
    been made or has just given up its connection. *)
Definition lost_at (start k : N) (p : trace) : Prop := (p = [] /\ k = start) \/ exists p', p = p' ++ [(k, EvCleared)].
(** The task's sends succeed. *)
Definition task_sends (tr : trace) : Prop := forall d, ~ In (EvSendFail Bg d) (evs tr).
(** What the task sends or tries to send. *)
Definition task_tries (tr : trace) : trace :=
  filter (fun x => match snd x with EvSend Bg _ | EvSendFail Bg _ => true | _ => false end) tr.
(** Connection requests one after the other from the instant [k] on: 40 s after a
    request (30 s of waiting for an answer and 10 s of rest) or 10 s after a failed
    attempt comes the next, which is due at the second argument. *)
Inductive cadence (k : N) : trace -> N -> Prop :=
| cadence_start : cadence k [] k
| cadence_sent l n : cadence k l n -> cadence k (l ++ [(n, EvSend Bg connection_datagram)]) (n + 40000)
| cadence_failed l n : cadence k l n -> cadence k (l ++ [(n, EvSendFail Bg connection_datagram)]) (n + 10000).
