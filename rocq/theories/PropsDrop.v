(** Property C171: when the connection is renewed after an error of the gateway.
    Proofs in TransportDrop.v. *)
From Verif Require Import Base Addresses Tunneling Emi Core Transport Wire Spec TraceSpec TraceSpec2 LiveSpec PromptSpec
  TransportBase TransportRuns PromptRuns TransportAck TransportFresh TransportDrop.
From Coq Require Import Lia.
Open Scope N_scope.

(** ** C171 *)
(** Full property, refuted: an hour after an error of the gateway the connection may
    not have been given up. *)
Theorem C171_renewed_refuted :
  ~ (forall c start ls tr s p n d q, attended c start ls tr s -> Forall bytes (arrived tr) ->
       tr = p ++ (n, EvArrive d) :: q -> n + 3600000 < s_now s -> connected_now p = true -> ~ task_stopped tr ->
       queued tr = [] -> connection_error d -> In EvCleared (evs q)).
Proof. exact not_dropped. Qed.
(** Unless a call takes the datagram, the connection is given up and a new one is
    asked for in the instant in which it arrives ([q] is the rest of that instant),
    while fewer than 100 messages are unread. *)
Theorem C171_at_once_partial : forall c start ls tr s p n d q rest,
  attended c start ls tr s -> Forall bytes (arrived tr) ->
  tr = p ++ (n, EvArrive d) :: q ++ rest -> Forall (fun x => fst x = n) q -> Forall (fun x => n < fst x) rest -> n < s_now s ->
  connected_now p = true -> (forall t, never (EvClRecv t d) q) ->
  ~ task_stopped (p ++ (n, EvArrive d) :: q) ->
  (length (queued (p ++ (n, EvArrive d) :: q)) < length (taken (p ++ (n, EvArrive d) :: q)) + 100)%nat ->
  connection_error d ->
  In (n, EvCleared) q /\ exists ok, In (n, send_event ok Bg connection_datagram) q.
Proof. exact dropped_at_once. Qed.
(** The same bad state, 7 s after connecting, without and with a status query that
    waits for it. *)
Definition heeded : list label :=
  prompt_connect ++ [LTime 7000; LArrive (state_answer 7 0x21)] ++ repeat (LBg true) 4 ++ [LTime 1000].
Example C171_example : exists tr s p q,
  attended client 0 no_listeners tr s /\ tr = p ++ (7000, EvArrive (state_answer 7 0x21)) :: q ++ [] /\ s_now s = 8000 /\ connected_now p = true /\
  connection_error (state_answer 7 0x21) /\
  q = [(7000, EvBgRecv (state_answer 7 0x21)); (7000, EvCleared); (7000, EvSend Bg connection_datagram)].
Proof.
  destruct (run client (init_sys 0 no_listeners) heeded) as [[s tr]|] eqn:R; [|vm_compute in R; discriminate R].
  exists tr, s, (firstn (length tr - 4) tr), (skipn (length tr - 3) tr).
  split; [eapply (run_attended _ _ _ [] heeded); [exact R|vm_compute; reflexivity|vm_compute; reflexivity]|].
  vm_compute in R. injection R as <- <-.
  split; [reflexivity|]. split; [reflexivity|]. split; [reflexivity|].
  split; [left; eexists; split; [apply state_looks|discriminate]|reflexivity].
Qed.
Example C171_ignored :
  firstn 3 (skipn 10 ignored_trace) =
    [(7000, EvArrive (state_answer 7 0x21)); (7000, EvClRecv 1 (state_answer 7 0x21));
     (7000, EvRet 1 OStatus (RStatus {| ss_chan := 7; ss_status := 0x21 |}))] /\
  connected_now ignored_trace = true /\
  forallb (fun x => match snd x with EvTick => true | EvSend Bg d => (nth 3 d 0 =? 7) | _ => false end) (skipn 13 ignored_trace) = true /\
  length (skipn 13 ignored_trace) = 122%nat.
Proof. repeat split; vm_compute; reflexivity. Qed.
