(** Model of [UdpTransport::search] (udp.rs:274-320). *)
From Verif Require Import Base Core.

(** What the select! of udp.rs:298-317 can produce. *)
Inductive search_event :=
| SRecv (d : list N)      (* socket.recv succeeded with datagram d *)
| SRecvErr                (* socket.recv failed *)
| SElapsed.               (* the sleep, restarted on every iteration, fired *)

(** [socket.recv(&mut buffer)] into the buffer allocated once at line 294: the
    datagram overwrites a prefix, the bytes after it keep their old contents. *)
Definition overwrite (buffer d : list N) : list N :=
  firstn (length buffer) d ++ skipn (length d) buffer.

(** udp.rs:297-319.  [None]: the events ran out, the call is still waiting. *)
Fixpoint search_loop (p : profile) (buffer : list N) (responses : list search_response)
         (evs : list search_event) : option (res (list search_response)) :=
  match evs with
  | [] => None
  | SElapsed :: _ => Some (Ok responses)
  | SRecvErr :: _ => Some Err
  | SRecv d :: evs' =>
      let buffer' := overwrite buffer d in
      match run_on (search_response_from_packet p) buffer' with
      | Ok r => search_loop p buffer' (responses ++ [r]) evs'
      | Err => Some Err
      | Panic => Some Panic
      end
  end.

Definition search (p : profile) (evs : list search_event) : option (res (list search_response)) :=
  search_loop p (repeat 0 100) [] evs.

(** The time of the events: the loop is entered at [now], the datagrams arrive
    at the given times, and [sleep(timeout)] is created afresh on every turn
    (udp.rs:297-317), so it measures the time since the previous datagram.  When
    both are ready at once either may be chosen.  [timeline timeout now arrivals
    evs fin]: these are the events up to the end of the loop at [fin], when no
    datagram makes it fail earlier.  Simplification: handling a datagram takes no
    time. *)
Inductive timeline (timeout : N) : N -> list (N * list N) -> list search_event -> N -> Prop :=
| tl_quiet now arrivals :
    (forall t d, hd_error arrivals = Some (t, d) -> now + timeout <= t) ->
    timeline timeout now arrivals [SElapsed] (now + timeout)
| tl_recv now t d arrivals evs fin :
    now <= t <= now + timeout ->
    timeline timeout t arrivals evs fin ->
    timeline timeout now ((t, d) :: arrivals) (SRecv d :: evs) fin.

(** What the operating system answers before the loop: [bind] (udp.rs:276-279),
    [local_addr] (udp.rs:281-285) and [send_to] (udp.rs:289-292). *)
Inductive local_address := LocalV4 (ip : list N) (port : N) | LocalV6 | LocalErr.
Record search_env := {
  se_bind : bool;
  se_local : local_address;
  se_send : bool;
  se_events : list search_event;         (* the turns of the loop *)
}.
(** udp.rs:274-320, the whole call: its result and the datagrams it sent, with
    the address and port they were sent to (core.rs:31, 33).  The socket is
    bound to 0.0.0.0:0 (udp.rs:275); the address it then reports is [se_local].
    A failed send panics ([expect], udp.rs:292). *)
Definition search_call (p : profile) (e : search_env)
  : option (res (list search_response)) * list (list N * N * list N) :=
  if negb (se_bind e) then (Some Err, [])
  else match se_local e with
       | LocalV6 | LocalErr => (Some Err, [])
       | LocalV4 ip port =>
           let req := search_request_packet (search_request_unicast ip port) in
           if se_send e then (search p (se_events e), [([224; 0; 23; 12], 3671, req)])
           else (Some Panic, [])
       end.
