(** Property C149.  Proofs in TransportRescue.v. *)
From Verif Require Import Base Addresses Apdu Tunneling Emi Core Transport Wire Spec TraceSpec TraceSpec2 RescueSpec TransportBase TransportRuns TransportRescue.
Open Scope N_scope.

(** ** C149 *)
Theorem C149_rescue : forall c start ls tr s t o body,
  exec c start ls tr s -> s_rx_alive s = true -> in_call t o tr body ->
  exists sched s' q, forallb cooperative sched = true /\ run c s sched = Some (s', q) /\ exec c start ls (tr ++ q) s' /\
    exists n e, In (n, e) q /\ comes_back t e = true.
Proof. exact rescue_all. Qed.
(** The connection can be had again as well, unless the task is over. *)
Theorem C149_reconnects : forall c start ls tr s,
  exec c start ls tr s -> exists sched s' q, forallb cooperative sched = true /\ run c s sched = Some (s', q) /\
    (bg_gone s' = true \/ connected_now (tr ++ q) = true /\ arrived (tr ++ q) = consumed (tr ++ q)).
Proof. exact reconnects. Qed.
(** Task 2 waits for task 1, whose answer the background task has taken. *)
Definition robbed_schedule : list label :=
  connect_with 7 ++ [LInvoke 1 OStatus; LInvoke 2 (OWrite lamp [1] true)] ++ repeat (LCl 1 true) 4 ++ [LArrive (state_answer 7 0); LBg true].
Example C149_example :
  exists tr s, exec client 0 no_listeners tr s /\ s_rx_alive s = true /\ in_call 2 (OWrite lamp [1] true) tr [] /\
    step client s (LCl 1 true) = None /\ step client s (LCl 2 true) = None /\
    exists s' q, run client s ([LArrive []] ++ repeat (LCl 1 true) 1 ++ repeat (LCl 2 true) 4 ++ [LTime 10000; LTimeout 2]) = Some (s', q) /\
      In (10000, EvRet 2 (OWrite lamp [1] true) (RErr ETimeout)) q.
Proof.
  execution robbed_schedule. split; [vm_compute; reflexivity|]. split; [exists [], 0; split; [vm_compute; reflexivity|intros x []]|].
  split; [vm_compute; reflexivity|]. split; [vm_compute; reflexivity|].
  eexists _, _. split; [vm_compute; reflexivity|]. cbn [In]. tauto.
Qed.
