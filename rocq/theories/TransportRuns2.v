(** More concrete executions: counterexamples and cases for the properties from C88 on. *)
From Verif Require Import Base Addresses Apdu Tunneling Emi Core Transport Wire Spec BaseProofs TraceSpec TraceSpec2
  TransportBase TransportInv TransportConn TransportCalls TransportThm TransportThm2 TransportThm3
  TransportReturn TransportBg TransportBgThm TransportBgThm2 TransportMore TransportMore2 TransportRuns TransportOrder.
From Coq Require Import Lia ZifyBool ZifyNat ZifyN.
Open Scope N_scope.

(** ** C88: confirmed, yet an error *)
Lemma confirmed_write_fails :
  exists tr s, exec client 0 no_listeners tr s /\ well_typed tr /\
    exists p n1 q n2 m n3, tr = p ++ (n1, EvSend (Cl 1) (tunnel_datagram 7 0 (telegram (OWrite lamp [1] false)))) :: q ++
        [(n2, EvEnq m); (n3, EvDeq 1 (hd m (queued q))); (n3, EvRet 1 (OWrite lamp [1] false) (RErr EUnexpected))] /\
      is_con m /\ ce_service m = ldata_bytes 0xbc 0xe0 0x1101 (addr_to_u16 lamp) 2 apci_group_write [1] /\ n3 = n1.
Proof.
  set (sched := connect_with 7 ++ call4 1 (OWrite lamp [1] false) ++ deliver (tunnelled 7 0 (group_ind 0x0902 [9]))
                ++ deliver (tunnelled 7 1 (group_con 0xbc 0x0901 [1])) ++ [LCl 1 true]).
  execution sched. split; [typed|].
  eexists (firstn 6 (trace_of client no_listeners sched)), _, (firstn 7 (skipn 7 (trace_of client no_listeners sched))), _, _, _.
  vm_compute. repeat split.
Qed.

(** ** C90: the question of another participant as the answer *)
Lemma reads_a_question :
  exists tr s, exec client 0 no_listeners tr s /\ well_typed tr /\
    exists p n m, tr = p ++ [(n, EvDeq 1 m); (n, EvRet 1 (ORead lamp) (RBytes [0]))] /\ queued tr = [m] /\ is_ind m /\
      ce_service m = ldata_bytes 0xbc 0xe0 0x1105 (addr_to_u16 lamp) 1 apci_group_read [].
Proof.
  set (sched := connect_with 7 ++ call4 1 (ORead lamp)
     ++ deliver (tunnelled 7 0 (cemi_bytes 0x29 [] (ldata_bytes 0xbc 0xe0 0x1105 0x0901 1 apci_group_read []))) ++ [LCl 1 true]).
  execution sched. split; [typed|].
  eexists (firstn 11 (trace_of client no_listeners sched)), _, _. vm_compute. repeat split.
Qed.

(** ** C92: answers that belong to another channel *)
Lemma foreign_state :
  exists tr s, exec client 0 no_listeners tr s /\ well_typed tr /\
    exists p n d, tr = p ++ [(n, EvBgRecv d); (n, EvCleared)] /\
      In (EvConnected {| cd_chan := 7; cd_ep := gateway; cd_seq := 0 |}) (evs p) /\ connected_now p = true /\
      looks_like (recv_buffer d) (RConnState {| ss_chan := 9; ss_status := 0x21 |}).
Proof.
  set (sched := connect_with 7 ++ [LArrive (state_answer 9 0x21); LBg true; LBg true]).
  execution sched. split; [typed|].
  exists (firstn 5 (trace_of client no_listeners sched)), 0, (state_answer 9 0x21).
  split; [vm_compute; reflexivity|]. split; [vm_compute; auto 10|]. split; [reflexivity|apply state_looks].
Qed.
Lemma foreign_disconnect :
  exists tr s, exec client 0 no_listeners tr s /\ well_typed tr /\
    exists p n d, tr = p ++ [(n, EvBgRecv d); (n, EvBgEnd)] /\
      In (EvConnected {| cd_chan := 7; cd_ep := gateway; cd_seq := 0 |}) (evs p) /\ connected_now p = true /\
      looks_like (recv_buffer d) (RDiscResp {| ds_chan := 9; ds_status := 0x21 |}).
Proof.
  set (d := frame 0x020a [9; 0x21]).
  set (sched := connect_with 7 ++ [LArrive d; LBg true]).
  execution sched. split; [typed|].
  exists (firstn 5 (trace_of client no_listeners sched)), 0, d.
  split; [vm_compute; reflexivity|]. split; [vm_compute; auto 10|]. split; [reflexivity|]. exists (repeat 0 92). reflexivity.
Qed.

(** ** C93: acknowledgements *)
Definition ack_answer (chan seq status : N) : list N := frame 0x0421 [4; chan; seq; status].
Lemma ack_looks chan seq status :
  looks_like (recv_buffer (ack_answer chan seq status)) (RTunAck {| ta_chan := chan; ta_seq := seq; ta_status := status |}).
Proof. exists (repeat 0 90). reflexivity. Qed.
(** The monitor's write succeeds without waiting for anything; the client's read
    succeeds though its request was refused. *)
Lemma refused_read :
  exists tr s, exec client 0 no_listeners tr s /\ well_typed tr /\
    exists p n1 q n2 v d a, tr = p ++ (n1, EvSend (Cl 1) (tunnel_datagram 7 0 (telegram (ORead lamp)))) :: q ++
        [(n2, EvRet 1 (ORead lamp) (RBytes v))] /\
      In (EvBgRecv d) (evs q) /\ looks_like (recv_buffer d) (RTunAck a) /\ ta_chan a = 7 /\ ta_seq a = 0 /\ ta_status a = 0x29.
Proof.
  set (sched := connect_with 7 ++ call4 1 (ORead lamp) ++ [LArrive (ack_answer 7 0 0x29); LBg true]
                ++ deliver (tunnelled 7 0 (group_ind 0x0901 [5])) ++ [LCl 1 true]).
  execution sched. split; [typed|].
  exists (firstn 6 (trace_of client no_listeners sched)), 0, (firstn 7 (skipn 7 (trace_of client no_listeners sched))), 0, [5], (ack_answer 7 0 0x29),
    {| ta_chan := 7; ta_seq := 0; ta_status := 0x29 |}.
  split; [vm_compute; reflexivity|]. split; [vm_compute; auto 10|]. split; [apply ack_looks|]. repeat split.
Qed.
Lemma unacknowledged_write :
  exists tr s, exec monitor 0 no_listeners tr s /\ well_typed tr /\
    exists p n1, tr = p ++ [(n1, EvSend (Cl 1) (tunnel_datagram 7 1 (telegram (OMWrite lamp [1] true)))); (n1, EvRet 1 (OMWrite lamp [1] true) RUnit)] /\
      arrived tr = [granting 7].
Proof.
  set (sched := monitor_connect 7 ++ [LBg true] ++ call4 1 (OMWrite lamp [1] true)).
  execution sched. split; [typed|].
  eexists (firstn 7 (trace_of monitor no_listeners sched)), _. vm_compute. repeat split.
Qed.

(** ** C94: a number that never reaches the device *)
Lemma skipped_number :
  exists tr s, exec client 0 no_listeners tr s /\ well_typed tr /\ issued tr = [0; 1] /\ transmitted tr = [1] /\
    length (filter is_connected_event (evs tr)) = 1%nat.
Proof.
  set (sched := connect_with 7 ++ [LInvoke 1 (ORead lamp); LCl 1 true; LCl 1 true; LCl 1 true; LCl 1 false] ++ call4 1 (ORead lamp)).
  execution sched. split; [typed|]. vm_compute. repeat split.
Qed.

(** ** C98: a refused feature request *)
Definition feature_answer (chan seq status value : N) : list N := frame 0x0423 [4; chan; seq; 0; 8; status; value].
Lemma feature_looks chan seq status value :
  looks_like (recv_buffer (feature_answer chan seq status value))
    (RFeature {| fr_feature := InfoServiceEnable; fr_value := value; fr_status := status; fr_chan := chan; fr_seq := seq |}).
Proof. exists (repeat 0 87), 0, 8. split; reflexivity. Qed.
Lemma refused_feature :
  exists tr s, exec monitor 0 no_listeners tr s /\ well_typed tr /\
    exists p n d f n2, tr = p ++ [(n, EvBgRecv d); (n, EvSend Bg (ack_datagram 7 0)); (n2, EvInvoke 1 OIsConnected); (n2, EvRet 1 OIsConnected (RBool true))] /\
      looks_like (recv_buffer d) (RFeature f) /\ fr_chan f = 7 /\ fr_feature f = InfoServiceEnable /\ fr_status f <> 0.
Proof.
  set (sched := monitor_connect 7 ++ [LBg true; LArrive (feature_answer 7 0 0x21 0); LBg true; LBg true; LInvoke 1 OIsConnected; LCl 1 true; LCl 1 true]).
  execution sched. split; [typed|].
  exists (firstn 6 (trace_of monitor no_listeners sched)), 0, (feature_answer 7 0 0x21 0),
    {| fr_feature := InfoServiceEnable; fr_value := 0; fr_status := 0x21; fr_chan := 7; fr_seq := 0 |}, 0.
  split; [vm_compute; reflexivity|]. split; [apply feature_looks|]. repeat split. discriminate.
Qed.

(** ** C99: the monitor asks again at once, any number of times *)
Definition storm_round : list label := [LBg true; LBg true; LArrive (granting 7); LBg true; LBg false].
Definition storm_events (n : N) : trace :=
  [(n, EvSend Bg connp); (n, EvArrive (granting 7)); (n, EvConnRecv (granting 7)); (n, EvSendFail Bg (featp 7))].
Lemma storm_step s : s_bg s = BCheck -> s_conn s = None -> s_inbox s = [] ->
  exists s', run monitor s storm_round = Some (s', storm_events (s_now s)) /\ s_bg s' = BCheck /\ s_conn s' = None /\ s_inbox s' = [] /\ s_now s' = s_now s.
Proof.
  intros H1 H2 H3. destruct s. cbn in H1, H2, H3. subst. eexists. split; [reflexivity|]. cbn. auto.
Qed.
Lemma storm_runs : forall k s, s_bg s = BCheck -> s_conn s = None -> s_inbox s = [] ->
  exists s', run monitor s (concat (repeat storm_round k)) = Some (s', concat (repeat (storm_events (s_now s)) k)).
Proof.
  induction k as [|k IH]; intros s H1 H2 H3; [eexists; reflexivity|].
  destruct (storm_step s H1 H2 H3) as (s1&R1&P1&P2&P3&P4).
  destruct (IH s1 P1 P2 P3) as (s2&R2). exists s2. cbn [repeat concat]. rewrite run_app, R1, R2, P4. reflexivity.
Qed.
Lemma storm : forall k, exists tr s, exec monitor 0 no_listeners tr s /\ Forall bytes (arrived tr) /\
  length (filter (fun e => match e with EvSend Bg d => service d =? 0x0205 | _ => false end) (evs tr)) = k /\ Forall (fun x => fst x = 0) tr.
Proof.
  intro k. destruct (storm_runs k (init_sys 0 no_listeners) eq_refl eq_refl eq_refl) as (s&R).
  exists (concat (repeat (storm_events 0) k)), s. split; [eapply run_exec; exact R|]. clear R. split; [|split].
  - induction k as [|k IH]; [constructor|]. cbn [repeat concat]. rewrite arrived_app. apply Forall_app. split; [octets|exact IH].
  - induction k as [|k IH]; [reflexivity|]. cbn [repeat concat]. rewrite evs_app, filter_app, app_length, IH. reflexivity.
  - induction k as [|k IH]; [constructor|]. cbn [repeat concat]. apply Forall_app. split; [repeat constructor|exact IH].
Qed.

(** ** C100: a second connect response *)
Lemma grants_service d ch ep : grants d ch ep -> exists rest, recv_buffer d = [0x06; 0x10; 0x02; 0x06] ++ rest.
Proof. intros (size&n&rest&_&_&E&_). rewrite E. eexists. reflexivity. Qed.
Lemma grant_is_error d ch ep : bytes d -> grants d ch ep -> connection_error d.
Proof.
  intros Hb Hg. destruct (grants_service _ _ _ Hg) as (rest&E). right. split; [|split].
  - intros ->. discriminate E.
  - intros r Hr. destruct r as [t|a|f|s|s|r]; cbn [looks_like] in Hr.
    + destruct Hr as (size&pad&tail&_&E'&_). rewrite E in E'. discriminate E'.
    + destruct Hr as (r&E'). rewrite E in E'. discriminate E'.
    + destruct Hr as (r&x&y&_&E'). rewrite E in E'. discriminate E'.
    + destruct Hr as (r&E'). rewrite E in E'. discriminate E'.
    + destruct Hr as (r&E'). rewrite E in E'. discriminate E'.
    + exact Hr.
  - intros size chan seq pad rest' _ E'. rewrite E in E'. discriminate E'.
Qed.
Lemma duplicate_grant :
  exists tr s, exec client 0 no_listeners tr s /\ well_typed tr /\
    exists p n, tr = p ++ [(n, EvArrive (granting 7)); (n, EvBgRecv (granting 7)); (n, EvCleared)] /\
      In (EvConnRecv (granting 7)) (evs p) /\ connected_now p = true.
Proof.
  set (sched := connect_with 7 ++ [LArrive (granting 7); LBg true; LBg true]).
  execution sched. split; [typed|].
  eexists (firstn 4 (trace_of client no_listeners sched)), _. split; [vm_compute; reflexivity|].
  split; [vm_compute; auto 10|reflexivity].
Qed.

(** ** C101: the old channel is never freed by the task *)
Lemma task_never_frees c start ls tr s ok x :
  exec c start ls tr s -> Forall bytes (arrived tr) -> In (send_event ok Bg x) (evs tr) -> service x <> 0x0209.
Proof.
  intros H Hb Hi. assert (Hi' : In (send_event ok Bg x) (bg_events tr)).
  { apply in_bg_events; [destruct ok; reflexivity|exact Hi]. }
  apply in_split in Hi'. destruct Hi' as (a&b&E).
  destruct (bg_send _ _ _ _ _ _ _ _ _ H Hb E) as [(->&_)|[(_&a'&d&ch&ep&_&_&->)|[(a'&d&ch&seq&_&->&_)|(a'&l&d&ch&ep&_&_&_&_&->)]]];
    discriminate.
Qed.

(** ** C101: a second channel while the first is still open *)
Lemma leaked_channel :
  exists tr s, exec client 0 no_listeners tr s /\ well_typed tr /\
    exists a n cd b n2 cd2, tr = a ++ (n, EvConnected cd) :: b ++ [(n2, EvConnected cd2)] /\ cd_chan cd = 7 /\ cd_chan cd2 = 9 /\
      ~ In (EvSend Bg (disconnect_datagram 7 gateway)) (evs tr) /\ (forall t, ~ In (EvSend (Cl t) (disconnect_datagram 7 gateway)) (evs tr)).
Proof.
  set (sched := connect_with 7 ++ [LArrive (state_answer 7 0x21); LBg true; LBg true] ++ connect_with 9).
  execution sched. split; [typed|].
  eexists (firstn 3 (trace_of client no_listeners sched)), _, _, (firstn 6 (skipn 4 (trace_of client no_listeners sched))), _, _.
  split; [vm_compute; reflexivity|]. split; [reflexivity|]. split; [reflexivity|].
  split; [|intro t]; vm_compute; intuition discriminate.
Qed.

(** ** C102: what was received while connecting decides *)
Lemma conn_recv_state c start ls tr s a d :
  exec c start ls tr s -> bg_events tr = a ++ [EvConnRecv d] ->
  match accept_connection d with
  | None => s_bg s = BConnSend \/ exists dl, s_bg s = BConnSleep dl
  | Some r => s_bg s = match c_mode c with MClient => BStore r | MMonitor => BMonEnable r end
  end.
Proof.
  intros H E. pose proof (bg_hist _ _ _ _ _ H) as Hh. rewrite E, rev_app_distr in Hh. cbn [rev app] in Hh.
  destruct (s_bg s) eqn:Es; cbn [bg_ok] in Hh; unfold at_check, at_retry, at_recv, at_enq in Hh; hist_cases Hh;
    try discriminate; try congruence;
    try match goal with G : EvConnRecv _ :: _ = rev (map EvNotify ?l) ++ _ |- _ =>
           destruct l as [|? l _] using rev_ind; [discriminate G|rewrite map_app, rev_app_distr in G; discriminate G] end.
  all: repeat match goal with G : EvConnRecv _ :: _ = EvConnRecv _ :: _ |- _ => injection G as <- <- end.
  all: try match goal with G : accept_connection _ = _ |- _ => rewrite G end; eauto.
  all: try match goal with G : c_mode _ = _ |- _ => rewrite G end; reflexivity.
Qed.
Lemma conn_recv_alone c s l s' es d : step c s l = Some (s', es) -> In (EvConnRecv d) es -> es = [EvConnRecv d].
Proof.
  intros Hs Hi. assert (X : forall x b, In (EvConnRecv d) (x :: stop_events b) -> x = EvConnRecv d).
  { intros x b [->|Hx]; [reflexivity|]. destruct b; cbn in Hx; intuition discriminate. }
  destruct l; inv_step Hs; try (cbn in Hi; intuition (congruence || discriminate)); apply X in Hi; discriminate Hi.
Qed.
Lemma conn_recv_next c start ls tr s a d e b :
  exec c start ls tr s -> Forall bytes (arrived tr) -> bg_events tr = a ++ EvConnRecv d :: e :: b ->
  (exists ch ep, grants d ch ep /\
     match c_mode c with
     | MClient => e = EvConnected {| cd_chan := ch; cd_ep := ep; cd_seq := 0 |}
     | MMonitor => exists ok, e = send_event ok Bg (feature_datagram ch)
     end) \/
  ((forall ch ep, ~ grants d ch ep) /\ exists ok, e = send_event ok Bg connection_datagram).
Proof.
  intros H Hb E.
  assert (Bd : bytes d).
  { eapply consumed_bytes; [exact H|exact Hb|]. apply consumed_in. left. eapply in_bg_events; [reflexivity|].
    rewrite E. apply in_or_app. right. left. reflexivity. }
  change (EvConnRecv d :: e :: b) with ([EvConnRecv d] ++ e :: b) in E. rewrite app_assoc in E.
  destruct (bg_split _ _ _ _ _ _ _ _ H E) as (tr0&s0&l&s1&e1&e2&H0&Hs&Hl&Ea&_&_).
  assert (N1 : e1 = []).
  { destruct e1 as [|y e1] using rev_ind; [reflexivity|]. exfalso. rewrite app_assoc in Ea. apply app_inj_tail in Ea. destruct Ea as (_&<-).
    rewrite <- app_assoc in Hs. cbn [app] in Hs.
    assert (X := conn_recv_alone _ _ _ _ _ d Hs). rewrite in_app_iff in X. specialize (X (or_intror (or_introl eq_refl))).
    destruct e1 as [|? [|]]; discriminate X. }
  subst e1. rewrite app_nil_r in Ea. pose proof (conn_recv_state _ _ _ _ _ _ _ H0 (eq_sym Ea)) as S.
  cbn [app] in Hs. destruct (accept_connection d) as [r|] eqn:Er.
  - left. exists (cr_chan r), (cr_endpoint r). split; [apply accept_grants; assumption|].
    destruct (c_mode c) eqn:Em; destruct l; try discriminate Hl; cbn [step] in Hs; unfold bg_step, bg_recv_err, bg_timeout, bg_tick in Hs;
      rewrite S in Hs; try discriminate Hs; injection Hs as _ <- _.
    + unfold conn_of. rewrite Em. reflexivity.
    + eexists. rewrite <- featp_eq. reflexivity.
  - right. split.
    + intros ch ep Hg. destruct (grants_accept _ _ _ Bd Hg) as (r&Er'&_). congruence.
    + destruct S as [S|(dl&S)]; destruct l; try discriminate Hl; cbn [step] in Hs; unfold bg_step, bg_recv_err, bg_timeout, bg_tick in Hs;
        rewrite S in Hs; try discriminate Hs.
      * injection Hs as _ <- _. eexists. rewrite <- connp_eq. reflexivity.
      * destruct (dl <=? s_now s0); discriminate Hs.
Qed.
Lemma stale_spoils :
  exists tr s, exec client 0 no_listeners tr s /\ well_typed tr /\
    exists p n d n2, tr = p ++ [(n, EvSend Bg connection_datagram); (n, EvConnRecv d); (n, EvArrive (granting 9)); (n2, EvSend Bg connection_datagram)] /\
      (exists t, looks_like (recv_buffer d) (RTunReq t)) /\ In (EvArrive d) (evs p) /\ n2 = n + 10000.
Proof.
  set (d := tunnelled 7 0 (group_ind 0x0902 [9])).
  set (sched := connect_with 7 ++ [LArrive (state_answer 7 0x21); LArrive d; LBg true; LBg true; LBg true; LBg true; LBg true;
     LArrive (granting 9); LTime 10000; LBg true; LBg true]).
  execution sched. split; [typed|].
  eexists (firstn 8 (trace_of client no_listeners sched)), _, d, _. split; [vm_compute; reflexivity|].
  split; [eexists; apply tunnelled_looks; vm_compute; discriminate|]. split; [vm_compute; auto 12|reflexivity].
Qed.
