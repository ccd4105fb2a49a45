(** A mutex that serves the calls in the order of their requests, as tokio's
    does.  Used by PropsFifo.v. *)
From Verif Require Import Base Addresses Apdu Tunneling Emi Core Transport Wire Spec TraceSpec LiveSpec PromptSpec.
Open Scope N_scope.

(** The calls in progress, in the order in which they were made. *)
Definition step_in_line (w : list nat) (e : event) : list nat :=
  match e with
  | EvInvoke t _ => w ++ [t]
  | EvRet t _ _ | EvPanic t _ | EvCancel t _ => filter (fun u => negb (Nat.eqb u t)) w
  | _ => w
  end.
Definition line (tr : trace) : list nat := fold_left step_in_line (evs tr) [].
(** [t] waits for the transport mutex. *)
Definition in_queue (s : sys) (t : nat) : bool := match s_clients s t with CLock _ => true | _ => false end.
(** The mutex is given to nobody but the call that has waited longest. *)
Definition next_in_line (tr : trace) (s : sys) (l : label) : Prop :=
  forall t ok, l = LCl t ok -> in_queue s t = true -> find (in_queue s) (line tr) = Some t.

(** Prompt executions with such a mutex. *)
Inductive orderly (c : cfg) (start : N) (ls : nat -> listener) : trace -> sys -> Prop :=
| orderly_init : orderly c start ls [] (init_sys start ls)
| orderly_step tr s l s' es :
    orderly c start ls tr s -> step c s l = Some (s', es) -> next_in_line tr s l ->
    (forall dt, l = LTime dt -> lets_pass c s dt) ->
    orderly c start ls (tr ++ stamp (s_now s) es) s'.
(** Endless executions with such a mutex. *)
Definition served_in_order (tr0 : trace) (st : nat -> sys) (lb : nat -> label) (es : nat -> list event) : Prop :=
  forall i, next_in_line (upto tr0 st es i) (st i) (lb i).
(** All calls are reads and writes of group values. *)
Definition only_transfers (tr : trace) : Prop := forall t o, In (EvInvoke t o) (evs tr) -> is_transfer o.
