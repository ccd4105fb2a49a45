(** Requests for the connection's state and answers to them. *)
From Verif Require Import Base Transport Wire Spec TraceSpec CountSpec.
Open Scope N_scope.

(** A request for the state went out, whoever sent it. *)
Definition asks_state (e : event) : bool := match e with EvSend _ d => service d =? 0x0207 | _ => false end.
(** An answer to one reached the socket. *)
Definition tells_state (e : event) : bool := match e with EvArrive d => service (recv_buffer d) =? 0x0208 | _ => false end.
Definition asked (tr : trace) : nat := length (filter asks_state (evs tr)).
Definition told (tr : trace) : nat := length (filter tells_state (evs tr)).
(** The device tells its state only when asked. *)
Definition only_answers (tr : trace) : Prop := forall a b, tr = a ++ b -> (told a <= asked a)%nat.
