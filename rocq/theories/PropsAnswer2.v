(** Properties C162 and C163: the monitor when the machine is fast enough.
    Vocabulary in PromptSpec.v, AnswerSpec.v and AnswerSpec2.v, proofs in
    TransportAnswer2.v. *)
From Verif Require Import Base Addresses Apdu Tunneling Emi Core Transport Wire Spec TraceSpec TraceSpec2 PromptSpec AnswerSpec SessionSpec MonitorSpec AnswerSpec2
  TransportRuns TransportPrompt PromptRuns TransportAnswer2 PropsSession PropsPrompt.
From Coq Require Import Lia.
Open Scope N_scope.

(** ** C162 *)
(** A call of next_msg has been waiting; a telegram of the bus arrives.  By the time
    the clock moves on a call of next_msg (there may be several) has returned it. *)
Theorem C162_shown_at_once : forall c start ls tr s p n ch y q t body,
  attended c start ls tr s -> c_mode c = MMonitor -> s_rx_alive s = true -> no_disconnects tr ->
  byte ch -> te_ok y -> bus_tele y = true ->
  tr = p ++ (n, EvArrive (te_datagram ch y)) :: q -> n < s_now s ->
  Forall (fun x => fst x < n) p -> connected_now p = true -> in_call t ONextMsg p body ->
  not_at n EvTick q -> not_at n EvCleared q -> not_at n (EvCancel t ONextMsg) q ->
  exists u r, In (n, EvRet u ONextMsg r) q /\ tele_shown y r.
Proof. exact shown_at_once. Qed.
Definition two_wait : list label :=
  registered_connect ++ [LListenerTake 0; LTick; LBg true] ++
  [LInvoke 1 ONextMsg; LCl 1 true; LInvoke 2 ONextMsg; LCl 2 true].
Definition shown_run : list label :=
  two_wait ++ [LTime 5000] ++ [LArrive (te_datagram 7 (heard 0 0x29 0x0901 [9])); LInvoke 3 (OMWrite other [1] true)] ++
  repeat (LBg true) 3 ++ [LCl 3 true; LCl 2 true; LCl 3 true; LCl 3 true; LCl 3 true; LTime 1].
Example C162_example :
  exists tr s p q body i, attended monitor 0 one_free tr s /\ s_rx_alive s = true /\ registered tr = [0%nat] /\ no_disconnects tr /\ s_now s = 5001 /\
    te_ok (heard 0 0x29 0x0901 [9]) /\ bus_tele (heard 0 0x29 0x0901 [9]) = true /\
    tr = p ++ (5000, EvArrive (te_datagram 7 (heard 0 0x29 0x0901 [9]))) :: q /\
    Forall (fun x => fst x < 5000) p /\ connected_now p = true /\ in_call 1 ONextMsg p body /\
    not_at 5000 EvTick q /\ not_at 5000 EvCleared q /\ not_at 5000 (EvCancel 1 ONextMsg) q /\
    In (5000, EvRet 2 ONextMsg (RInd i)) q /\ li_value i = [9] /\
    In (5000, EvRet 3 (OMWrite other [1] true) RUnit) q.
Proof.
  eexists _, _, (trace_of monitor one_free two_wait), _, [], _.
  split; [eapply (run_attended monitor 0 one_free [0%nat; 1%nat; 2%nat; 3%nat] shown_run); vm_compute; reflexivity|].
  split; [reflexivity|].
  split; [vm_compute; reflexivity|].
  split; [intros t I; vm_compute in I; repeat (destruct I as [I|I]; [discriminate I|]); destruct I|].
  split; [reflexivity|].
  split; [apply heard_ok; [reflexivity|reflexivity|reflexivity|repeat constructor|cbn; lia]|].
  split; [reflexivity|]. split; [vm_compute; reflexivity|].
  split; [vm_compute; repeat constructor|]. split; [vm_compute; reflexivity|].
  split; [exists [], 0; split; [vm_compute; reflexivity|intros x []]|].
  repeat split; try (intro I; vm_compute in I; repeat (destruct I as [I|I]; [discriminate I|]); destruct I).
  - do 5 right. left. reflexivity.
  - reflexivity.
  - do 8 right. left. reflexivity.
Qed.

(** ** C163 *)
(** No call of the monitor but next_msg (and disconnect) outlasts the instant in
    which it was made. *)
Theorem C163_calls_at_once : forall c start ls tr s,
  attended c start ls tr s -> c_mode c = MMonitor -> s_rx_alive s = true -> no_disconnects tr ->
  forall t o body, in_call t o tr body -> o <> ONextMsg -> made_at (s_now s) t o tr body.
Proof. exact calls_at_once. Qed.
(** The client's calls do wait: a read lasts until its answer or its timeout. *)
Example C163_example :
  (exists tr s, attended monitor 0 one_free tr s /\ s_rx_alive s = true /\ s_now s = 5000 /\ registered tr = [0%nat] /\ no_disconnects tr /\
    in_call 3 (OMWrite other [1] true) tr [] /\ In (5000, EvInvoke 3 (OMWrite other [1] true)) tr) /\
  (exists tr s body, prompt client 0 no_listeners tr s /\ s_now s = 6000 /\ in_call 1 (ORead lamp) tr body /\ ~ made_at (s_now s) 1 (ORead lamp) tr body).
Proof.
  split.
  - eexists _, _.
    split; [eapply (run_attended monitor 0 one_free [0%nat; 1%nat; 2%nat; 3%nat] (two_wait ++ [LTime 5000; LInvoke 3 (OMWrite other [1] true); LCl 3 true])); vm_compute; reflexivity|].
    split; [reflexivity|]. split; [reflexivity|].
    split; [vm_compute; reflexivity|].
    split; [intros t I; vm_compute in I; repeat (destruct I as [I|I]; [discriminate I|]); destruct I|].
    split; [exists [], 5000; split; [vm_compute; reflexivity|intros x []]|]. vm_compute. do 12 right. left. reflexivity.
  - eexists _, _, _.
    split; [eapply (run_prompt client 0 no_listeners [1%nat] (prompt_connect ++ call4 1 (ORead lamp) ++ [LTime 6000])); vm_compute; reflexivity|].
    split; [reflexivity|]. split.
    + exists [], 0. split; [vm_compute; reflexivity|].
      intros x Hx. cbn in Hx. repeat (destruct Hx as [Hx|Hx]; [subst x; split; [reflexivity|discriminate]|]). destruct Hx.
    + intros (h&E). vm_compute in E. repeat (destruct h as [|? h]; [discriminate E|injection E as _ E]). destruct h; discriminate E.
Qed.
