(** Property C150: calls that wait for the mutex are served in order, and in time.
    [orderly] and [served_in_order] (FifoSpec.v) say what the mutex does; proofs in
    TransportFifo.v, examples in FifoRuns.v. *)
From Verif Require Import Base Addresses Apdu Tunneling Emi Core Transport Wire Spec TraceSpec TraceSpec2 LiveSpec PromptSpec FifoSpec
  TransportRuns TransportFair TransportFifo LiveRuns PromptRuns FifoRuns.
Open Scope N_scope.

(** ** C150 *)
(** A call waits ten seconds for each call made before it and not over yet, ten for
    itself and ten for each bus message taken by reads in the mean time. *)
Theorem C150_in_time : forall c start ls tr s p n t o q,
  orderly c start ls tr s -> c_mode c = MClient -> s_rx_alive s = true -> only_transfers tr ->
  tr = p ++ (n, EvInvoke t o) :: q -> (forall x, In x q -> call_end t (snd x) = false) ->
  s_now s <= n + 10000 * (1 + N.of_nat (length (line p))) + 10000 * N.of_nat (length (taken q)).
Proof. exact served_in_time. Qed.
Theorem C150_writes_in_time : forall c start ls tr s p n t o q,
  orderly c start ls tr s -> c_mode c = MClient -> s_rx_alive s = true -> (forall u w, In (EvInvoke u w) (evs tr) -> is_write w) ->
  tr = p ++ (n, EvInvoke t o) :: q -> (forall x, In x q -> call_end t (snd x) = false) ->
  s_now s <= n + 10000 * (1 + N.of_nat (length (line p))).
Proof. exact write_served_in_time. Qed.
(** The bound is met: the third of three writes waits thirty seconds. *)
Example C150_example :
  exists tr s p q, orderly client 0 no_listeners tr s /\ s_rx_alive s = true /\
    (forall u w, In (EvInvoke u w) (evs tr) -> is_write w) /\
    tr = p ++ (0, EvInvoke 3 (OWrite lamp [0] true)) :: q /\ forallb (fun x => negb (call_end 3 (snd x))) q = true /\
    line p = [1%nat; 2%nat] /\ s_now s = 30000.
Proof.
  eexists _, _, (trace_of client no_listeners (removelast (three_calls (OWrite lamp [1] true) (OWrite other [0] true) (OWrite lamp [0] true)))), _.
  split; [eapply (run_orderly client 0 no_listeners [1%nat; 2%nat; 3%nat] thirty_seconds); vm_compute; reflexivity|].
  split; [reflexivity|]. split.
  - intros u o I. vm_compute in I. repeat (destruct I as [I|I]; [try discriminate I; injection I as _ <-; exact Logic.I|]). destruct I.
  - split; [vm_compute; reflexivity|]. split; [vm_compute; reflexivity|]. split; [vm_compute; reflexivity|reflexivity].
Qed.
(** Nearly met by a read that takes a message for another address. *)
Example C150_read_example :
  exists tr s p q, orderly client 0 no_listeners tr s /\ s_rx_alive s = true /\ only_transfers tr /\
    tr = p ++ (0, EvInvoke 2 (ORead lamp)) :: q /\ forallb (fun x => negb (call_end 2 (snd x))) q = true /\
    line p = [1%nat] /\ length (taken q) = 1%nat /\ s_now s = 29999.
Proof.
  eexists _, _, (trace_of client no_listeners (prompt_connect ++ [LInvoke 1 (OWrite lamp [1] true)])), _.
  split; [eapply (run_orderly client 0 no_listeners [1%nat; 2%nat] write_and_read); vm_compute; reflexivity|].
  split; [reflexivity|]. split.
  - intros u o I. vm_compute in I. repeat (destruct I as [I|I]; [try discriminate I; injection I as _ <-; exact Logic.I|]). destruct I.
  - split; [vm_compute; reflexivity|]. split; [vm_compute; reflexivity|]. split; [vm_compute; reflexivity|split; [vm_compute; reflexivity|reflexivity]].
Qed.
(** Serving in order is fair. *)
Theorem C150_order_is_fair : forall c start ls tr0 st lb es,
  endless c start ls tr0 st lb es -> served_in_order tr0 st lb es -> queue_for_mutex st lb.
Proof. exact order_is_fair. Qed.
(** So every write ends, with such a mutex. *)
Theorem C150_writes_end : forall c start ls tr0 st lb es,
  endless c start ls tr0 st lb es -> time_passes st -> (forall t, polled c st lb t) -> bg_polled c st lb -> handle_kept st ->
  served_in_order tr0 st lb es -> only_calls is_write tr0 st es ->
  forall i t o body, in_call t o (upto tr0 st es i) body -> is_over es t i.
Proof.
  intros c start ls tr0 st lb es E T P B K F H. apply (transfers_end c start ls tr0 st lb es E); [|left; exact H].
  constructor; try assumption. exact (order_is_fair c start ls tr0 st lb es E F).
Qed.
(** Two tasks that write without end; again and again both wait and the first comer gets the mutex. *)
Example C150_endless_example :
  exists tr0 st lb es,
    endless client 0 no_listeners tr0 st lb es /\ time_passes st /\ (forall t, polled client st lb t) /\ bg_polled client st lb /\ handle_kept st /\
    served_in_order tr0 st lb es /\ only_calls is_write tr0 st es /\
    forall n, exists i, (n <= i)%nat /\ in_queue (st i) 1 = true /\ in_queue (st i) 2 = true /\ lb i = LCl 1 true.
Proof. exact writes_in_order. Qed.
