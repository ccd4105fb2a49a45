(** Executions on a machine that is fast enough: no time passes while the
    program has something to do.  Used by PropsPrompt.v. *)
From Verif Require Import Base Addresses Apdu Tunneling Emi Core Transport Wire Spec TraceSpec TraceSpec2.
Open Scope N_scope.

(** What the program does by itself once it is polled: its task and its calls
    go on, its timers fire. *)
Definition own_step (l : label) : Prop :=
  match l with LBg _ | LBgTimeout | LTick | LCl _ _ | LTimeout _ => True | _ => False end.
(** Nothing is left to do: the program waits for the network, the user or a timer. *)
Definition at_rest (c : cfg) (s : sys) : Prop := forall l, own_step l -> step c s l = None.
(** It is at rest during the next [dt] milliseconds, the last instant excluded. *)
Definition lets_pass (c : cfg) (s : sys) (dt : N) : Prop :=
  forall d, d < dt -> at_rest c (set_now s (s_now s + d)).

(** An execution in which time passes only while the program is at rest; the
    network and the user do as they like. *)
Inductive prompt (c : cfg) (start : N) (ls : nat -> listener) : trace -> sys -> Prop :=
| prompt_init : prompt c start ls [] (init_sys start ls)
| prompt_step tr s l s' es :
    prompt c start ls tr s -> step c s l = Some (s', es) ->
    (forall dt, l = LTime dt -> lets_pass c s dt) ->
    prompt c start ls (tr ++ stamp (s_now s) es) s'.

(** How many messages the calls of [t] took, in these events. *)
Definition messages_taken (t : nat) (tr : trace) : N :=
  N.of_nat (length (filter (fun x => match snd x with EvDeq u _ => Nat.eqb u t | _ => false end) tr)).
(** All calls are made by [t]. *)
Definition only_caller (t : nat) (tr : trace) : Prop := forall u o, In (EvInvoke u o) (evs tr) -> u = t.
(** Every on-connect channel registered and not dropped has room for a notification. *)
Definition has_room (tr : trace) (s : sys) : Prop :=
  forall x, In x (registered tr) -> li_alive (s_listeners s x) = true -> (li_count (s_listeners s x) < li_cap (s_listeners s x))%nat.
(** A prompt execution in which the user attends to these channels: whenever time
    passes they have room.  (The client has no such channels.) *)
Inductive attended (c : cfg) (start : N) (ls : nat -> listener) : trace -> sys -> Prop :=
| attended_init : attended c start ls [] (init_sys start ls)
| attended_step tr s l s' es :
    attended c start ls tr s -> step c s l = Some (s', es) ->
    (forall dt, l = LTime dt -> lets_pass c s dt /\ has_room tr s) ->
    attended c start ls (tr ++ stamp (s_now s) es) s'.
(** No such event. *)
Definition never (e : event) (tr : trace) : Prop := ~ In e (evs tr).
