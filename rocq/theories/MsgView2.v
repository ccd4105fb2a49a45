(** What the theorems about error texts observe of the decoders of Messages2.v. *)
From Verif Require Import Base Addresses Core Emi Messages Messages2.
Open Scope N_scope.

(** The text of an error. *)
Definition text_of {A} (x : mres A) : option string := match x with MErr t => Some t | _ => None end.
Definition ttext {A} (x : tres A) : option (list N) := match x with TErr t => Some t | TOk _ => None end.
(** The result without it. *)
Definition terase {A} (x : tres A) : res A := match x with TOk a => Ok a | TErr _ => Err end.
Definition value_of {A} (x : mres (A * list N)) : res A := match x with MOk (a, _) => Ok a | MErr _ => Err | MPanic => Panic end.
