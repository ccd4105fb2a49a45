(** Specification for C167: what a datagram of the gateway is to be
    acknowledged with. *)
From Verif Require Import Base Tunneling Core Transport Wire Spec TraceSpec.
Open Scope N_scope.

Definition ack_of (r : response) : option (list N) :=
  match r with
  | RTunReq t => Some (ack_datagram (tr_chan t) (tr_seq t))
  | RFeature f => Some (ack_datagram (fr_chan f) (fr_seq f))
  | _ => None
  end.
