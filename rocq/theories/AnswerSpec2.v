(** Vocabulary for what the monitor does when the machine is fast enough.  Used by
    PropsAnswer2.v. *)
From Verif Require Import Base Addresses Tunneling Emi Core Transport Wire Spec TraceSpec TraceSpec2 PromptSpec SessionSpec MonitorSpec.
Open Scope N_scope.

(** Nobody calls disconnect, the one call of the monitor that waits for the gateway
    with the transport locked. *)
Definition no_disconnects (tr : trace) : Prop := forall t, never (EvInvoke t OMDisconnect) tr.
(** The call was made in the instant [n] and is not over. *)
Definition made_at (n : N) (t : nat) (o : op) (tr body : trace) : Prop :=
  exists h, call_events t tr = h ++ (n, EvInvoke t o) :: body.
