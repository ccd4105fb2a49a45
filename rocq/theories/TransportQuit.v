(** What a monitor does after a successful disconnect. *)
From Verif Require Import Base Addresses Tunneling Emi Core Transport Wire Spec TraceSpec TraceSpec2 LiveSpec PromptSpec
  TransportBase TransportInv TransportMore TransportMore2 TransportRecover TransportRuns TransportPrompt TransportPrompt2 PromptRuns TransportAck TransportFresh.
From Coq Require Import Lia.
Open Scope N_scope.

Lemma tick_or_not (q : trace) : In EvTick (evs q) \/ never EvTick q.
Proof.
  unfold never. induction q as [|[k e] q IH]; [right; intros []|].
  destruct IH as [I|I]; [left; right; exact I|].
  destruct e; try (left; left; reflexivity); right; (intros [X|X]; [discriminate X|exact (I X)]).
Qed.
Lemma beats_on c start ls tr s p n t x q :
  attended c start ls tr s -> ~ task_stopped tr -> tr = p ++ (n, EvRet t OMDisconnect (RU8 x)) :: q ->
  connected_now p = true -> never EvCleared q -> n + 60000 < s_now s -> In EvTick (evs q).
Proof.
  intros HA NS E C NC L. destruct (tick_or_not q) as [I|NT]; [exact I|]. exfalso.
  assert (s_now s <= n + 60000); [|lia]. eapply beat_in_time; try eassumption. rewrite connected_app. cbn. exact C.
Qed.
Lemma still_there c start ls tr s p n t x q u m r z :
  exec c start ls tr s -> tr = p ++ (n, EvRet t OMDisconnect (RU8 x)) :: q ++ (m, EvRet u OIsConnected r) :: z ->
  connected_now p = true -> never EvCleared q -> r = RBool true.
Proof.
  intros H E C NC.
  change (p ++ (n, EvRet t OMDisconnect (RU8 x)) :: q ++ (m, EvRet u OIsConnected r) :: z)
    with (p ++ ((n, EvRet t OMDisconnect (RU8 x)) :: q) ++ (m, EvRet u OIsConnected r) :: z) in E.
  rewrite app_assoc in E. rewrite (isconn_result _ _ _ _ _ _ _ _ _ _ H E). f_equal.
  apply connected_stays; [|exact NC]. rewrite connected_app. cbn. exact C.
Qed.

(** A disconnect answered in the instant, a minute, and a look. *)
Definition quit : list label :=
  monitor_connect 7 ++ [LBg true; LTick; LBg true; LTime 5000] ++ call4 1 OMDisconnect ++ [LArrive (disconnect_answer 7); LCl 1 true] ++
  [LTime 55000; LTick; LBg true; LInvoke 2 OIsConnected; LCl 2 true; LCl 2 true; LTime 10000].
Definition quit_trace : trace := trace_of monitor no_listeners quit.
Definition monitor_after (sched : list label) : sys :=
  match run monitor (init_sys 0 no_listeners) sched with Some (s, _) => s | None => init_sys 0 no_listeners end.
Lemma run_monitor sched : nonempty (trace_of monitor no_listeners sched) = true ->
  run monitor (init_sys 0 no_listeners) sched = Some (monitor_after sched, trace_of monitor no_listeners sched).
Proof. unfold monitor_after, trace_of. destruct (run _ _ _) as [[s tr]|]; [reflexivity|discriminate]. Qed.
Lemma quit_attended : exists s, attended monitor 0 no_listeners quit_trace s /\ s_now s = 70000.
Proof.
  exists (monitor_after quit). split; [|vm_compute; reflexivity]. eapply (run_attended _ _ _ [1%nat; 2%nat] quit).
  - apply run_monitor. vm_compute. reflexivity.
  - vm_compute. reflexivity.
  - vm_compute. reflexivity.
Qed.
Definition quit_rest : list (N * event) :=
  [(60000, EvTick); (60000, EvSend Bg (state_datagram 7 gateway)); (60000, EvInvoke 2 OIsConnected); (60000, EvRet 2 OIsConnected (RBool true))].
Lemma quit_split : exists p, quit_trace = p ++ (5000, EvRet 1 OMDisconnect (RU8 0)) :: quit_rest.
Proof. exists (firstn (length quit_trace - 5) quit_trace). vm_compute. reflexivity. Qed.
Lemma quit_octets : Forall bytes (arrived quit_trace).
Proof. octets. Qed.
Lemma not_gone :
  ~ (forall c start ls tr s p n t q, attended c start ls tr s -> Forall bytes (arrived tr) ->
       tr = p ++ (n, EvRet t OMDisconnect (RU8 0)) :: q -> forall d, ~ In (EvSend Bg d) (evs q)) /\
  ~ (forall c start ls tr s p n t q u, attended c start ls tr s -> Forall bytes (arrived tr) ->
       tr = p ++ (n, EvRet t OMDisconnect (RU8 0)) :: q -> ~ In (EvRet u OIsConnected (RBool true)) (evs q)).
Proof.
  destruct quit_attended as (s&HA&_). destruct quit_split as (p&E). split; intro F.
  - apply (F _ _ _ _ _ _ _ _ _ HA quit_octets E (state_datagram 7 gateway)). right. left. reflexivity.
  - apply (F _ _ _ _ _ _ _ _ _ 2%nat HA quit_octets E). right. right. right. left. reflexivity.
Qed.
