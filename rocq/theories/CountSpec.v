(** Counting events.  Used by PropsCount.v. *)
From Verif Require Import Base Addresses Apdu Tunneling Emi Core Transport Wire Spec TraceSpec TraceSpec2.
Open Scope N_scope.

(** How many events of this kind there are. *)
Definition count (f : event -> bool) (tr : trace) : N := N.of_nat (length (filter (fun x => f (snd x)) tr)).
(** The task sends a datagram, or tries to. *)
Definition task_sends (e : event) : bool := match e with EvSend Bg _ | EvSendFail Bg _ => true | _ => false end.
(** ... an acknowledgement or the answer to a disconnect request. *)
Definition answers (e : event) : bool :=
  match e with EvSend Bg d | EvSendFail Bg d => (service d =? 0x0421) || (service d =? 0x020a) | _ => false end.
(** ... a connection request. *)
Definition asks (e : event) : bool := match e with EvSend Bg d | EvSendFail Bg d => service d =? 0x0205 | _ => false end.
(** ... a heart beat. *)
Definition beats (e : event) : bool := match e with EvSend Bg d | EvSendFail Bg d => service d =? 0x0207 | _ => false end.
(** ... the request that enables the monitor's info service. *)
Definition enables (e : event) : bool := match e with EvSend Bg d | EvSendFail Bg d => service d =? 0x0424 | _ => false end.
Definition ticks (e : event) : bool := match e with EvTick => true | _ => false end.
Definition drops (e : event) : bool := match e with EvLost _ => true | _ => false end.
(** The task takes a datagram off the socket. *)
Definition task_takes (e : event) : bool := match e with EvConnRecv _ | EvBgRecv _ => true | _ => false end.
Definition takes_connecting (e : event) : bool := match e with EvConnRecv _ => true | _ => false end.
Definition takes_receiving (e : event) : bool := match e with EvBgRecv _ => true | _ => false end.
(** An acknowledgement could not be sent. *)
Definition ack_failed (e : event) : bool := match e with EvSendFail Bg d => service d =? 0x0421 | _ => false end.
(** Datagrams chosen by [f] that the receive loop took. *)
Definition takes_chosen (f : list N -> bool) (e : event) : bool := match e with EvBgRecv d => f d | _ => false end.
(** The datagram is a tunnelling request with a message that can be decoded. *)
Definition has_message (p : profile) (d : list N) : Prop :=
  exists t m, looks_like (recv_buffer d) (RTunReq t) /\ run_on (cemi_from_packet p) (tr_cemi t) = Ok m.
(** Task [t] makes a call. *)
Definition calls (t : nat) (e : event) : bool := match e with EvInvoke u _ => Nat.eqb u t | _ => false end.
