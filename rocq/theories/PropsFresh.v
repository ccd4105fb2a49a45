(** Property C168: from when the state returned by a status query is.  Proofs in
    TransportFresh.v. *)
From Verif Require Import Base Addresses Tunneling Emi Core Transport Wire Spec TraceSpec TraceSpec2 LiveSpec PromptSpec
  TransportBase TransportRuns PromptRuns TransportAck TransportFresh.
From Coq Require Import Lia.
Open Scope N_scope.

(** ** C168 *)
(** Full property, refuted: the state may have arrived long before the request
    was sent. *)
Theorem C168_fresh_refuted :
  ~ (forall c start ls tr s p m t x r body n req, attended c start ls tr s -> Forall bytes (arrived tr) ->
       tr = p ++ (m, EvRet t OStatus (RStatus x)) :: r -> in_call t OStatus p body -> In (n, EvSend (Cl t) req) body ->
       never EvCleared tr -> ~ task_stopped tr ->
       exists k d, In (k, EvArrive d) p /\ n <= k /\ looks_like (recv_buffer d) (RConnState x)).
Proof. exact stale_answer. Qed.
(** True if just before the instant [n] of the request ([b] is what happened
    before it) there was a connection and fewer than 100 messages were unread. *)
Theorem C168_fresh_partial : forall c start ls tr s p m t x r body n req b q,
  attended c start ls tr s -> Forall bytes (arrived tr) -> tr = p ++ (m, EvRet t OStatus (RStatus x)) :: r ->
  in_call t OStatus p body -> In (n, EvSend (Cl t) req) body ->
  tr = b ++ q -> Forall (fun x => fst x < n) b -> Forall (fun x => n <= fst x) q ->
  connected_now b = true -> ~ task_stopped b -> (length (queued b) < length (taken b) + 100)%nat ->
  exists k d, In (k, EvArrive d) p /\ n <= k /\ looks_like (recv_buffer d) (RConnState x).
Proof. exact status_is_fresh. Qed.
(** A query 5 s after connecting, answered 2 s later. *)
Definition fresh : list label :=
  prompt_connect ++ [LTime 5000; LInvoke 1 OStatus] ++ repeat (LCl 1 true) 4 ++ [LTime 2000; LArrive (state_answer 7 0); LCl 1 true].
Example C168_example : exists tr s p b q,
  attended client 0 no_listeners tr s /\ tr = p ++ [(7000, EvRet 1 OStatus (RStatus {| ss_chan := 7; ss_status := 0 |}))] /\
  in_call 1 OStatus p [(5000, EvSend (Cl 1) (state_datagram 7 gateway)); (7000, EvClRecv 1 (state_answer 7 0))] /\
  tr = b ++ q /\ forallb (fun x => fst x <? 5000) b = true /\ forallb (fun x => 5000 <=? fst x) q = true /\ connected_now b = true /\
  queued b = [] /\ In (7000, EvArrive (state_answer 7 0)) p.
Proof.
  destruct (run client (init_sys 0 no_listeners) fresh) as [[s tr]|] eqn:R; [|vm_compute in R; discriminate R].
  exists tr, s, (firstn 10 tr), (firstn 6 tr), (skipn 6 tr).
  split; [eapply (run_attended _ _ _ [1%nat] fresh); [exact R|vm_compute; reflexivity|vm_compute; reflexivity]|].
  vm_compute in R. injection R as <- <-. split; [reflexivity|]. split.
  { exists [], 5000. split; [reflexivity|]. intros x [<-|[<-|[]]]; (split; [reflexivity|discriminate]). }
  split; [reflexivity|]. split; [reflexivity|]. split; [reflexivity|]. split; [reflexivity|]. split; [reflexivity|].
  do 8 right. left. reflexivity.
Qed.
(** The stale one: 101 telegrams nobody read keep the task from the socket, the
    state that arrived at 0 is returned by the query made at 30 s. *)
Example C168_stale_example :
  stale_trace = stale_before ++ [(30000, EvRet 1 OStatus (RStatus stale_state))] /\
  nth_error (arrived stale_trace) 102 = Some (state_answer 7 0) /\ forallb early stale_trace = true.
Proof. split; [exact stale_ends|]. split; [vm_compute; reflexivity|exact stale_early]. Qed.
