(** [UdpClient::connect] and [UdpMonitor::connect] (src/transport/udp.rs,
    udp_monitor.rs). *)
From Verif Require Import Base Transport Messages.
Open Scope N_scope.

(** What the operating system answers: [None] for success, otherwise the [Debug]
    text of its error.  Resolving the address is part of [socket.connect], so a
    name that does not resolve is an error of [co_connect]. *)
Record connect_env := { co_bind : option string; co_connect : option string }.

(** [UdpTransport::connect] (udp.rs:107-119, 189-193) and
    [UdpMonitorTransport::connect] (udp_monitor.rs:62-74, 161-166); the [connect]
    of [UdpClient] (udp.rs:476-483) and of [UdpMonitor] (udp_monitor.rs:262-268,
    282-286) pass its result on.  The local address is a constant that always
    parses (udp.rs:108).  [start] is the instant in which the spawned task first
    runs.  Not modelled: the address itself, log output. *)
Definition connect_call (e : connect_env) (start : N) (ls : nat -> listener) : mres sys :=
  match co_bind e with
  | Some t => MErr ("Unable to get local address " ++ t)%string
  | None => match co_connect e with
            | Some t => MErr ("Unable to connect with target " ++ t)%string
            | None => MOk (init_sys start ls)
            end
  end.
