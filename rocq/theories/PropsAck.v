(** Property C167: when a tunnelling request is acknowledged.  Specification in
    AckSpec.v, proofs in TransportAck.v. *)
From Verif Require Import Base Addresses Tunneling Emi Core Transport Wire Spec TraceSpec TraceSpec2 LiveSpec PromptSpec AckSpec
  TransportBase TransportRuns PromptRuns TransportAck.
From Coq Require Import Lia.
Open Scope N_scope.

(** ** C167 *)
(** Full property, refuted: a gateway waits a second for the acknowledgement of a
    request; here it comes later, although nothing but the queue of unread
    messages keeps the task from its work. *)
Theorem C167_full_refuted :
  ~ (forall c start ls tr s p n d q t, attended c start ls tr s -> Forall bytes (arrived tr) ->
       tr = p ++ (n, EvArrive d) :: q -> n + 1000 < s_now s -> connected_now p = true -> never EvCleared q -> never EvTick q ->
       (forall u, never (EvClRecv u d) q) -> ~ task_stopped tr -> looks_like (recv_buffer d) (RTunReq t) ->
       exists ok k, k <= n + 1000 /\ In (k, send_event ok Bg (ack_datagram (tr_chan t) (tr_seq t))) q).
Proof. exact not_within_a_second. Qed.
(** While fewer than 100 messages are unread, the acknowledgement is sent in the
    instant in which the datagram arrives ([q] is the rest of that instant),
    unless the heart beat is due or the connection is given up in this very
    instant, or a call takes the datagram. *)
Theorem C167_at_once_partial : forall c start ls tr s p n d q rest r a,
  attended c start ls tr s -> Forall bytes (arrived tr) ->
  tr = p ++ (n, EvArrive d) :: q ++ rest -> Forall (fun x => fst x = n) q -> Forall (fun x => n < fst x) rest -> n < s_now s ->
  connected_now p = true -> never EvCleared q -> never EvTick q -> (forall t, never (EvClRecv t d) q) ->
  ~ task_stopped (p ++ (n, EvArrive d) :: q) ->
  (length (queued (p ++ (n, EvArrive d) :: q)) < length (taken (p ++ (n, EvArrive d) :: q)) + 100)%nat ->
  looks_like (recv_buffer d) r -> ack_of r = Some a ->
  exists ok, In (n, send_event ok Bg a) q.
Proof. exact acked_in_time. Qed.
(** With 100 unread messages and one more acknowledged, the task does nothing at
    all until a call takes a message, the user drops the client or the heart beat
    is due: it acknowledges no request and answers no disconnect request. *)
Theorem C167_full_queue : forall c start ls tr s a d t m sched s' tr',
  exec c start ls tr s -> Forall bytes (arrived tr) ->
  bg_events tr = a ++ [EvBgRecv d; EvSend Bg (ack_datagram (tr_chan t) (tr_seq t))] ->
  looks_like (recv_buffer d) (RTunReq t) -> run_on (cemi_from_packet (c_prof c)) (tr_cemi t) = Ok m ->
  length (queued tr) = (length (taken tr) + 100)%nat ->
  run c s sched = Some (s', tr') -> s_rx_alive s' = true -> taken tr' = [] -> never EvTick tr' ->
  bg_events tr' = [].
Proof. exact full_blocks. Qed.
(** A telegram that arrives 5 s after connecting is acknowledged there and then. *)
Example C167_example : exists tr s p q rest,
  attended client 0 no_listeners tr s /\ tr = p ++ (5000, EvArrive (chatter 0)) :: q ++ rest /\
  s_now s = 6000 /\ connected_now p = true /\ q = [(5000, EvBgRecv (chatter 0)); (5000, EvSend Bg (ack_datagram 7 0)); nth 2 q (0, EvTick)] /\ rest = [] /\
  looks_like (recv_buffer (chatter 0)) (RTunReq {| tr_chan := 7; tr_seq := 0; tr_cemi := group_ind 0x0902 [9] |}).
Proof.
  pose (sched := prompt_connect ++ [LTime 5000] ++ deliver (chatter 0) ++ [LTime 1000]).
  destruct (run client (init_sys 0 no_listeners) sched) as [[s tr]|] eqn:R; [|vm_compute in R; discriminate R].
  exists tr, s, (firstn (length tr - 4) tr), (skipn (length tr - 3) tr), [].
  split; [eapply (run_attended _ _ _ [] sched); [exact R|vm_compute; reflexivity|vm_compute; reflexivity]|].
  vm_compute in R. injection R as <- <-.
  split; [reflexivity|]. split; [reflexivity|]. split; [reflexivity|]. split; [reflexivity|]. split; [reflexivity|].
  apply (tunnelled_looks 7 0 (group_ind 0x0902 [9])). cbn. lia.
Qed.
(** The queue is filled by 100 telegrams; 59,999 ms later the last one that
    arrived has not been taken from the socket. *)
Example C167_late : exists tr s p,
  attended client 0 no_listeners tr s /\ Forall bytes (arrived tr) /\ tr = p ++ [(0, EvArrive (chatter 101))] /\ s_now s = 59999 /\
  connected_now p = true /\ ~ task_stopped tr.
Proof. exact late. Qed.
Definition flooded_trace : trace := trace_of client no_listeners flood.
Example C167_full_example :
  length (queued flooded_trace) = (length (taken flooded_trace) + 100)%nat /\
  bg_events flooded_trace = firstn (length (bg_events flooded_trace) - 2) (bg_events flooded_trace) ++
    [EvBgRecv (chatter 100); EvSend Bg (ack_datagram 7 100)] /\
  looks_like (recv_buffer (chatter 100)) (RTunReq {| tr_chan := 7; tr_seq := 100; tr_cemi := group_ind 0x0902 [9] |}) /\
  exists m, run_on (cemi_from_packet (c_prof client)) (group_ind 0x0902 [9]) = Ok m.
Proof.
  split; [vm_compute; reflexivity|]. split; [vm_compute; reflexivity|].
  split; [apply (tunnelled_looks 7 100 (group_ind 0x0902 [9])); cbn; lia|eexists; vm_compute; reflexivity].
Qed.
