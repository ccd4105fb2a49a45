(** Proofs about src/main.rs. *)
From Verif Require Import Base Addresses Core Transport Demo Wire Spec TraceSpec TraceSpec2 DemoSpec
  TransportBase TransportInv TransportConn TransportCalls TransportReturn TransportThm TransportThm2 TransportThm3 TransportMore TransportMore2 TransportRuns.
From Coq Require Import Lia.
Open Scope list_scope.
Open Scope N_scope.

Lemma main_calls_are : main_calls = Ok [OWrite (Group3Level {| g3_main := 1; g3_middle := 1; g3_sub := 2 |}) [3] true; ODisconnect].
Proof. vm_compute. reflexivity. Qed.
(** The events of the current call come after the end of the last one. *)
Lemma in_call_after t o a n e b body :
  call_end t e = true -> in_call t o (a ++ (n, e) :: b) body -> exists h, call_events t b = h ++ body.
Proof.
  intros He (h&k&E&Hb).
  assert (Ce : call_events t (a ++ (n, e) :: b) = call_events t a ++ (n, e) :: call_events t b).
  { unfold call_events. rewrite filter_app. cbn [filter]. destruct e; cbn [call_end] in He; try discriminate He; cbn [snd call_event]; rewrite He; reflexivity. }
  rewrite Ce in E. clear Ce. generalize dependent (call_events t a). generalize (call_events t b). clear a b. intros u w. revert h.
  induction w as [|x w IH]; intros [|y h] E; cbn [app] in E.
  - injection E as _ -> E. cbn in He. discriminate He.
  - injection E as _ E. exists (h ++ [(k, EvInvoke t o)]). rewrite E, <- app_assoc. reflexivity.
  - injection E as _ E. exfalso. destruct (Hb (n, e)) as (F&_); [rewrite <- E; apply in_or_app; right; left; reflexivity|]. cbn in F. congruence.
  - injection E as _ E. eapply IH, E.
Qed.
Lemma taken_queued c start ls tr s : exec c start ls tr s -> (length (taken tr) <= length (queued tr))%nat.
Proof. intro H. destruct (queue_inv _ _ _ _ _ H) as (E&_). rewrite E, app_length. lia. Qed.
Lemma deq_taken n t m tr : In (n, EvDeq t m) tr -> (1 <= length (taken tr))%nat.
Proof.
  intro H. apply in_split in H. destruct H as (a&b&->). rewrite taken_app, app_length. cbn [taken flat_map snd app length]. lia.
Qed.
Lemma confirmed_then_disconnect c start ls tr s t a v b p n1 q n2 r :
  exec c start ls tr s -> tr = p ++ (n1, EvRet t (OWrite a v b) RUnit) :: q ++ [(n2, EvRet t ODisconnect r)] ->
  (length (queued tr) <= 1)%nat -> r = RErr EClosed \/ r = RErr EDisconnected.
Proof.
  intros H E L.
  destruct (write_returns _ _ _ _ _ _ _ _ _ _ _ _ _ H E) as (body&I&W). cbn [write_outcome] in W.
  destruct W as (k1&seq&k2&d&k3&m&->&_).
  assert (T1 : In (k3, EvDeq t m) p) by (eapply in_call_in; [exact I|cbn; auto]). apply deq_taken in T1.
  assert (E2 : tr = (p ++ (n1, EvRet t (OWrite a v b) RUnit) :: q) ++ (n2, EvRet t ODisconnect r) :: []) by (rewrite E, <- app_assoc; reflexivity).
  destruct (disconnect_returns _ _ _ _ _ _ _ _ _ _ H E2) as (body&I2&D).
  destruct r as [| | | | | | e]; cbn [disconnect_outcome] in D; try contradiction.
  - exfalso. destruct D as (k4&d'&k5&m'&->). apply in_call_after in I2; [|cbn; apply Nat.eqb_refl].
    destruct I2 as (h&Eh).
    assert (T2 : In (k5, EvDeq t m') q).
    { assert (X : In (k5, EvDeq t m') (call_events t q)) by (rewrite Eh; apply in_or_app; right; cbn; auto).
      unfold call_events in X. apply filter_In in X. tauto. }
    apply deq_taken in T2. pose proof (taken_queued _ _ _ _ _ H) as Q. rewrite E2, !taken_app, !app_length in Q.
    change (taken ((n1, EvRet t (OWrite a v b) RUnit) :: q)) with (taken q) in Q.
    rewrite E2 in L. lia.
  - destruct e; try contradiction; auto.
Qed.

(** ** Everything works, the program fails *)
Definition dimmer : knx_address := Group3Level {| g3_main := 1; g3_middle := 1; g3_sub := 2 |}.
Definition main_schedule : list label :=
  connect_with 7 ++ [LTime 4000] ++ call4 0 (OWrite dimmer [3] true) ++ deliver (tunnelled 7 0 (group_con 0xbc 0x0902 [3])) ++ [LCl 0 true]
  ++ call4 0 ODisconnect ++ [LArrive (disconnect_answer 7); LBg true; LCl 0 true].
Definition main_trace : trace := trace_of client no_listeners main_schedule.
Lemma main_run : exists s, exec client 0 no_listeners main_trace s /\ well_typed main_trace.
Proof. apply trace_runs; [vm_compute; reflexivity|typed]. Qed.
Lemma main_fails :
  exists tr s ops, exec client 0 no_listeners tr s /\ well_typed tr /\ main_calls = Ok ops /\ calls tr = map (pair 0%nat) ops /\
    exists p n1 q n2 a n3 d n4,
      tr = p ++ (n1, EvRet 0 (OWrite dimmer [3] true) RUnit) :: q ++ (n2, EvSend (Cl 0) (disconnect_datagram 7 gateway)) ::
           a ++ [(n3, EvBgRecv d); (n3, EvBgEnd); (n4, EvRet 0 ODisconnect (RErr EClosed))] /\
      looks_like (recv_buffer d) (RDiscResp {| ds_chan := 7; ds_status := 0 |}).
Proof.
  destruct main_run as (s&H&W). exists main_trace, s. eexists. split; [exact H|]. split; [exact W|]. split; [apply main_calls_are|].
  split; [vm_compute; reflexivity|].
  eexists (firstn 12 main_trace), _, [_], _, [_], _, (disconnect_answer 7), _. split; [vm_compute; reflexivity|apply disconnect_looks].
Qed.
