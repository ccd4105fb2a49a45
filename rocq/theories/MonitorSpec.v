(** Specification of what the monitor shows of the bus. *)
From Verif Require Import Base Addresses Tunneling Emi Core Transport Wire Spec TraceSpec TraceSpec2 SessionSpec.
Open Scope N_scope.

(** Messages next_msg is there for: L_Data.ind and L_Busmon.ind. *)
Definition bus_message (m : cemi) : bool := (ce_code m =? 0x29) || (ce_code m =? 0x2b).
(** The result [r] of next_msg shows the message [m]. *)
Definition shown (m : cemi) (r : api_result) : Prop :=
  match r with
  | RInd i => indication_of m i
  | RErr EBadCemi => (length (ce_service m) < 9)%nat
  | _ => False
  end.
(** The results of all next_msg calls, in order, without those of a closed
    transport. *)
Definition delivery (e : event) : list api_result :=
  match e with
  | EvRet _ ONextMsg (RErr EClosed) => []
  | EvRet _ ONextMsg r => [r]
  | _ => []
  end.
Definition deliveries (tr : trace) : list api_result := flat_map (fun x => delivery (snd x)) tr.

(** Steps of a caller that does nothing but call next_msg. *)
Definition fetching (t : nat) (l : label) : Prop := l = LInvoke t ONextMsg \/ l = LCl t true.
Definition bus_tele (y : tele) : bool := (te_code y =? 0x29) || (te_code y =? 0x2b).
(** Telegrams that arrive before the caller looks for them. *)
Definition batch_ok (ys : list tele) : Prop := Forall te_ok ys /\ (length ys <= 100)%nat.
(** The result [r] shows the telegram [y]. *)
Definition tele_shown (y : tele) (r : api_result) : Prop :=
  exists i, r = RInd i /\ te_message y (li_cemi i) /\ ld_src (li_data i) = te_src y /\ ld_dest (li_data i) = te_dst y /\
    li_value i = short_or_long (te_len y) (te_apci y) (te_data y).
(** The device sends, the background task works, task [t] calls next_msg. *)
Definition monitor_step (t : nat) (l : label) : Prop :=
  fetching t l \/ l = LBg true \/ exists d, l = LArrive d.

(** Endless executions (see LiveSpec.v): bus messages are queued again and again. *)
Definition keep_coming (es : nat -> list event) : Prop :=
  forall i, exists j m, (i <= j)%nat /\ In (EvEnq m) (es j) /\ bus_message m = true.
(** Some call of next_msg ends, at step [i] or later. *)
Definition next_msg_ends (u : nat) (e : event) : Prop := e = EvCancel u ONextMsg \/ exists r, e = EvRet u ONextMsg r.
Definition some_next_msg_ends (es : nat -> list event) (i : nat) : Prop :=
  exists j u e, (i <= j)%nat /\ In e (es j) /\ next_msg_ends u e.
