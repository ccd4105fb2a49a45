(** Property C170: whether a status query gets the answer to its own request.
    Proofs in TransportOwn.v. *)
From Verif Require Import Base Addresses Tunneling Emi Core Transport Wire Spec TraceSpec TraceSpec2 LiveSpec PromptSpec CountSpec OwnSpec
  TransportBase TransportRuns PromptRuns TransportAck TransportFresh TransportOwn.
From Coq Require Import Lia.
Open Scope N_scope.

(** ** C170 *)
(** A device that answers in order has answered the request of the query once it
    has given as many answers as there were requests.  Full property, refuted: the
    query takes the answer to a heart beat that is under way. *)
Theorem C170_own_answer_refuted :
  ~ (forall c start ls tr s p m t x r body, attended c start ls tr s -> Forall bytes (arrived tr) -> only_answers tr ->
       tr = p ++ (m, EvRet t OStatus (RStatus x)) :: r -> in_call t OStatus p body ->
       never EvCleared tr -> ~ task_stopped tr -> (asked p <= told p)%nat).
Proof. exact another_answer. Qed.
(** True if just before the instant [n] of the request ([b] is what happened
    before it) all requests were answered, there was a connection and fewer than
    100 messages were unread, and the query's is the only request since. *)
Theorem C170_own_answer_partial : forall c start ls tr s p m t x r body n req b q,
  attended c start ls tr s -> Forall bytes (arrived tr) -> tr = p ++ (m, EvRet t OStatus (RStatus x)) :: r ->
  in_call t OStatus p body -> In (n, EvSend (Cl t) req) body ->
  tr = b ++ q -> Forall (fun x => fst x < n) b -> Forall (fun x => n <= fst x) q ->
  connected_now b = true -> ~ task_stopped b -> (length (queued b) < length (taken b) + 100)%nat ->
  (asked b <= told b)%nat -> asked p = S (asked b) -> (asked p <= told p)%nat.
Proof. exact own_answer. Qed.
(** A heart beat answered at 0, a query 5 s later, answered after 2 s. *)
Definition in_turn : list label :=
  prompt_connect ++ [LArrive (state_answer 7 0); LBg true; LTime 5000; LInvoke 1 OStatus] ++ repeat (LCl 1 true) 4 ++
  [LTime 2000; LArrive (state_answer 7 0x21); LCl 1 true].
Definition bad : connstate_response := {| ss_chan := 7; ss_status := 0x21 |}.
Example C170_example : exists tr s p b q,
  attended client 0 no_listeners tr s /\ tr = p ++ [(7000, EvRet 1 OStatus (RStatus bad))] /\
  in_call 1 OStatus p [(5000, EvSend (Cl 1) (state_datagram 7 gateway)); (7000, EvClRecv 1 (state_answer 7 0x21))] /\
  tr = b ++ q /\ forallb (fun x => fst x <? 5000) b = true /\ forallb (fun x => 5000 <=? fst x) q = true /\ connected_now b = true /\
  queued b = [] /\ asked b = 1%nat /\ told b = 1%nat /\ asked p = 2%nat /\ told p = 2%nat.
Proof.
  destruct (run client (init_sys 0 no_listeners) in_turn) as [[s tr]|] eqn:R; [|vm_compute in R; discriminate R].
  exists tr, s, (firstn 12 tr), (firstn 8 tr), (skipn 8 tr).
  split; [eapply (run_attended _ _ _ [1%nat] in_turn); [exact R|vm_compute; reflexivity|vm_compute; reflexivity]|].
  vm_compute in R. injection R as <- <-. split; [reflexivity|]. split.
  { exists [], 5000. split; [reflexivity|]. intros x [<-|[<-|[]]]; (split; [reflexivity|discriminate]). }
  repeat split; reflexivity.
Qed.
(** The overtaken one: at 10 ms the query returns the answer to the heart beat; the
    device's answer to the query says something else. *)
Example C170_overtaken :
  skipn 6 overtaken_trace =
    [(5, EvInvoke 1 OStatus); (5, EvSend (Cl 1) (state_datagram 7 gateway));
     (10, EvArrive (state_answer 7 0)); (10, EvClRecv 1 (state_answer 7 0)); (10, EvRet 1 OStatus (RStatus good));
     (15, EvArrive (state_answer 7 0x21)); (15, EvBgRecv (state_answer 7 0x21))] /\
  firstn 2 (rev (firstn 6 overtaken_trace)) = [(0, EvSend Bg (state_datagram 7 gateway)); (0, EvTick)].
Proof. split; vm_compute; reflexivity. Qed.
