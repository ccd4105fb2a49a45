(** Continuations in which everybody cooperates.  Used by PropsRescue.v. *)
From Verif Require Import Base Addresses Apdu Tunneling Emi Core Transport Wire Spec TraceSpec.
Open Scope N_scope.

(** Time passes, datagrams arrive, task and calls go on without send failures,
    timers fire, owners empty or close their on-connect channels.  No call is
    made or dropped, the client is not dropped, the socket reports no error. *)
Definition cooperative (l : label) : bool :=
  match l with
  | LTime _ | LArrive _ | LBg true | LBgTimeout | LTick | LCl _ true | LTimeout _ | LListenerTake _ | LListenerDrop _ => true
  | _ => false
  end.
(** The call of [t] returns (or panics). *)
Definition comes_back (t : nat) (e : event) : bool :=
  match e with EvRet u _ _ | EvPanic u _ => Nat.eqb u t | _ => false end.
