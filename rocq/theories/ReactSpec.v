(** Specification for C127: the next thing the background task does after it
    took a datagram from the socket. *)
From Verif Require Import Base Tunneling Core Transport Wire Spec TraceSpec.
Open Scope N_scope.

(** The datagram is acknowledged, unless the heart beat is due first. *)
Definition acked (ch seq : N) (e : event) : Prop :=
  (exists ok, e = send_event ok Bg (ack_datagram ch seq)) \/ e = EvTick.
(** No reaction: the task goes on to the heart beat, to the next datagram or to
    an error reported by the socket. *)
Definition ignored (e : event) : Prop := e = EvTick \/ e = EvCleared \/ exists d, e = EvBgRecv d.
(** [e] is the next event of the task and [b] are the ones after it. *)
Definition reaction (r : response) (e : event) (b : list event) : Prop :=
  match r with
  | RTunReq t => acked (tr_chan t) (tr_seq t) e
  | RFeature f => acked (fr_chan f) (fr_seq f) e
  | RTunAck _ => ignored e
  | RConnState x => if ss_status x =? 0 then ignored e else e = EvCleared
  | RDiscResp _ => e = EvBgEnd /\ b = []
  | RDiscReq _ => False
  end.
