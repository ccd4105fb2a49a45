(** What it means for an endless execution to be fair.  Used by PropsFair.v. *)
From Verif Require Import Base Addresses Apdu Tunneling Emi Core Transport Wire Spec TraceSpec TraceSpec2.
Open Scope N_scope.

(** An execution that never stops: from a state reached with the trace [tr0],
    step [i] takes [st i] to [st (S i)] and shows the events [es i]. *)
Record endless (c : cfg) (start : N) (ls : nat -> listener) (tr0 : trace)
    (st : nat -> sys) (lb : nat -> label) (es : nat -> list event) : Prop := {
  en_start : exec c start ls tr0 (st 0%nat);
  en_step : forall i, step c (st i) (lb i) = Some (st (S i), es i)
}.
(** The trace up to step [i]. *)
Fixpoint upto (tr0 : trace) (st : nat -> sys) (es : nat -> list event) (i : nat) : trace :=
  match i with
  | O => tr0
  | S k => upto tr0 st es k ++ stamp (s_now (st k)) (es k)
  end.

(** The clock passes every instant. *)
Definition time_passes (st : nat -> sys) : Prop := forall n, exists i, n <= s_now (st i).

(** The task of a call is polled and gets on. *)
Definition proceeds (t : nat) (l : label) : Prop := (exists ok, l = LCl t ok) \/ l = LTimeout t.
Definition can_proceed (c : cfg) (s : sys) (t : nat) : Prop := exists l, proceeds t l /\ step c s l <> None.
(** No call is left alone for ever while it could get on: again and again it
    either gets on or has to wait. *)
Definition polled (c : cfg) (st : nat -> sys) (lb : nat -> label) (t : nat) : Prop :=
  forall i, exists j, (i <= j)%nat /\ (proceeds t (lb j) \/ ~ can_proceed c (st j) t).
(** The same for the background task. *)
Definition bg_proceeds (l : label) : Prop := (exists ok, l = LBg ok) \/ l = LBgTimeout \/ l = LTick.
Definition bg_polled (c : cfg) (st : nat -> sys) (lb : nat -> label) : Prop :=
  forall i, exists j, (i <= j)%nat /\ (bg_proceeds (lb j) \/ forall l, bg_proceeds l -> step c (st j) l = None).

(** Step [i] gives the transport mutex to a waiting call. *)
Definition hands_over (st : nat -> sys) (lb : nat -> label) (i : nat) : bool :=
  match lb i with
  | LCl t _ => match s_clients (st i) t with CLock _ => true | _ => false end
  | _ => false
  end.
(** A queue for the mutex: while a call waits for it, the mutex is given away
    only a limited number of times.  (tokio's mutex serves the calls in the
    order of their requests: the limit is the number of calls ahead.) *)
Definition queue_for_mutex (st : nat -> sys) (lb : nat -> label) : Prop :=
  forall t o i, s_clients (st i) t = CLock o ->
  exists n, forall d, (n < length (filter (hands_over st lb) (seq i d)))%nat ->
    exists k ok, (i <= k < i + d)%nat /\ (lb k = LCl t ok \/ lb k = LCancel t).

(** The user keeps the handle. *)
Definition handle_kept (st : nat -> sys) : Prop := forall i, s_rx_alive (st i) = true.

(** Time goes by, every task is polled, the mutex is fair, the handle is kept. *)
Record fair (c : cfg) (st : nat -> sys) (lb : nat -> label) : Prop := {
  fair_time : time_passes st;
  fair_calls : forall t, polled c st lb t;
  fair_bg : bg_polled c st lb;
  fair_mutex : queue_for_mutex st lb;
  fair_kept : handle_kept st
}.

(** Every call ever made is one of [ok]. *)
Definition only_calls (ok : op -> Prop) (tr0 : trace) (st : nat -> sys) (es : nat -> list event) : Prop :=
  forall i t o, In (EvInvoke t o) (evs (upto tr0 st es i)) -> ok o.
(** From step [i0] on no bus message is queued any more. *)
Definition falls_silent (es : nat -> list event) (i0 : nat) : Prop :=
  forall i m, (i0 <= i)%nat -> ~ In (EvEnq m) (es i).
(** The call that [t] is in after [i] steps ends (returns, panics or is cancelled). *)
Definition is_over (es : nat -> list event) (t i : nat) : Prop :=
  exists j e, (i <= j)%nat /\ In e (es j) /\ call_end t e = true.

(** Operations that wait for nobody but a bounded time. *)
Definition is_write (o : op) : Prop := match o with OWrite _ _ _ => True | _ => False end.
Definition is_transfer (o : op) : Prop := match o with OWrite _ _ _ | ORead _ => True | _ => False end.
Definition is_monitor_call (o : op) : Prop :=
  match o with OSolicit _ | OMWrite _ _ _ | ONextMsg | OIsConnected | OAddListener _ => True | _ => False end.

(** The same trace [D] milliseconds later. *)
Definition later (D : N) (tr : trace) : trace := map (fun x => (fst x + D, snd x)) tr.

(** The heart-beat branch of the select is not passed over for ever while it is ready. *)
Definition tick_polled (c : cfg) (st : nat -> sys) (lb : nat -> label) : Prop :=
  forall i, exists j, (i <= j)%nat /\ (lb j = LTick \/ step c (st j) LTick = None).
(** [e] is an attempt to ask for a connection. *)
Definition asks_for_connection (e : event) : Prop := e = EvSend Bg connection_datagram \/ e = EvSendFail Bg connection_datagram.

(** From step [i0] on the network and the gateway can be relied upon: the
    task's sends and receives do not fail, it sees a waiting datagram before it
    times out (tokio's timeout polls the receive first), while there is no
    connection only connect responses granting one arrive, and each connection
    request is answered, some time. *)
Record willing (tr0 : trace) (st : nat -> sys) (lb : nat -> label) (es : nat -> list event) (i0 : nat) : Prop := {
  wi_sent : forall i d, (i0 <= i)%nat -> ~ In (EvSendFail Bg d) (es i);
  wi_received : forall i, (i0 <= i)%nat -> lb i <> LBgRecvErr;
  wi_seen : forall i, (i0 <= i)%nat -> lb i = LBgTimeout -> s_inbox (st i) = [];
  wi_only : forall i d, (i0 <= i)%nat -> connected_now (upto tr0 st es i) = false -> In (EvArrive d) (es i) ->
    bytes d /\ exists ch ep, grants d ch ep;
  wi_answers : forall i, (i0 <= i)%nat -> In (EvSend Bg connection_datagram) (es i) ->
    exists j d, (i <= j)%nat /\ In (EvArrive d) (es j)
}.

(** Step [j] begins with the task at its socket and a datagram waiting for it. *)
Definition ready (st : nat -> sys) (j : nat) : bool :=
  match s_bg (st j), s_inbox (st j) with
  | (BRecv | BConnWait _), _ :: _ => true
  | _, _ => false
  end.
(** Step [j] takes a datagram off the socket. *)
Definition takes (es : nat -> list event) (j : nat) : bool :=
  existsb (fun e => match e with EvConnRecv _ | EvBgRecv _ | EvClRecv _ _ => true | _ => false end) (es j).
(** Waiting datagrams are passed over only a limited number of times: neither the
    timer branch of the select (which tokio chooses at random) nor the connection
    timeout wins for ever. *)
Definition socket_served (st : nat -> sys) (es : nat -> list event) : Prop :=
  forall i, exists n, forall d, (n < length (filter (ready st) (seq i d)))%nat ->
    exists k, (i <= k < i + d)%nat /\ takes es k = true.
(** From step [i0] on the task's sends succeed. *)
Definition sends_succeed (es : nat -> list event) (i0 : nat) : Prop :=
  forall i d, (i0 <= i)%nat -> ~ In (EvSendFail Bg d) (es i).
(** From step [i0] on the channels of the listeners have room when they are notified. *)
Definition listeners_have_room (st : nat -> sys) (i0 : nat) : Prop :=
  forall i l todo active, (i0 <= i)%nat -> s_bg (st i) = BNotify (l :: todo) active ->
    li_alive (s_listeners (st i) l) = true -> (li_count (s_listeners (st i) l) < li_cap (s_listeners (st i) l))%nat.
(** Every lock serves the calls that wait for it in turn (tokio's mutexes are
    queues): a call gets on or, from some moment on, cannot. *)
Definition served (c : cfg) (st : nat -> sys) (lb : nat -> label) (t : nat) : Prop :=
  forall i, (exists j, (i <= j)%nat /\ proceeds t (lb j)) \/
            (exists j, (i <= j)%nat /\ forall k, (j <= k)%nat -> ~ can_proceed c (st k) t).
