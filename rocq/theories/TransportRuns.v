(** Concrete executions: the counterexamples to the claims that fail, and the
    cases that show the hypotheses of the others can be met. *)
From Verif Require Import Base Addresses Apdu Tunneling Emi Core Transport Wire Spec TraceSpec
  TransportBase TransportInv TransportConn TransportCalls TransportThm2 TransportThm3 TransportBg TransportBgThm TransportBgThm4 TransportNotify TransportMore2.
From Coq Require Import Lia ZifyBool ZifyNat ZifyN.
Open Scope N_scope.

(** ** Datagrams of a device *)
Definition granting (chan : N) : list N :=
  frame 0x0206 ([chan; 0] ++ hpai_bytes 1 [192; 168; 1; 10] 3671 ++ [4; 4] ++ word 0x1101).
Definition gateway : hpai := {| hp_code := 1; hp_ip := [192; 168; 1; 10]; hp_port := 3671 |}.
Definition tunnelled (chan seq : N) (msg : list N) : list N := frame 0x0420 ([4; chan; seq; 0] ++ msg).
Definition group_ind (dst : N) (v : list N) : list N :=
  cemi_bytes 0x29 [] (ldata_bytes 0xbc 0xe0 0x1105 dst (1 + N.of_nat (length v)) 0x80 v).
Definition group_con (c1 dst : N) (v : list N) : list N :=
  cemi_bytes 0x2e [] (ldata_bytes c1 0xe0 0x1101 dst (1 + N.of_nat (length v)) 0x80 v).
Definition state_answer (chan status : N) : list N := frame 0x0208 [chan; status].
Definition disconnect_answer (chan : N) : list N := frame 0x020a [chan; 0].
Definition lamp : knx_address := Group3Level {| g3_main := 1; g3_middle := 1; g3_sub := 1 |}.
Definition other : knx_address := Group3Level {| g3_main := 1; g3_middle := 1; g3_sub := 2 |}.

(** ** Schedules *)
Definition client : cfg := {| c_mode := MClient; c_prof := Release |}.
Definition monitor : cfg := {| c_mode := MMonitor; c_prof := Release |}.
Definition no_listeners (_ : nat) : listener := {| li_cap := 0; li_count := 0; li_alive := false |}.
Definition connect_with (chan : N) : list label := [LBg true; LBg true; LArrive (granting chan); LBg true; LBg true].
Definition monitor_connect (chan : N) : list label := connect_with chan ++ [LBg true].
Definition deliver (d : list N) : list label := [LArrive d; LBg true; LBg true; LBg true].
(** Call [o] by task [t] up to its datagram: lock, number, channel, send. *)
Definition call4 (t : nat) (o : op) : list label := LInvoke t o :: repeat (LCl t true) 4.

Definition trace_of (c : cfg) (ls : nat -> listener) (sched : list label) : trace :=
  match run c (init_sys 0 ls) sched with Some (_, tr) => tr | None => [] end.
Ltac execution sched :=
  eexists; eexists; split; [eapply (run_exec _ _ _ sched); vm_compute; reflexivity|].

Lemma octets_dec ds : forallb (forallb (fun b => b <? 256)) ds = true -> Forall bytes ds.
Proof.
  intro H. rewrite forallb_forall in H. apply Forall_forall. intros d Hd. specialize (H d Hd).
  rewrite forallb_forall in H. apply Forall_forall. intros b Hb. specialize (H b Hb). apply N.ltb_lt in H. exact H.
Qed.
(** Arguments in range: decidable for the calls used here. *)
Ltac octets := apply octets_dec; vm_compute; reflexivity.

Definition wf_opb (o : op) : bool :=
  let addr a := match a with
    | Individual a => (ia_area a <? 256) && (ia_line a <? 256) && (ia_address a <? 256)
    | Group3Level a => (g3_main a <? 256) && (g3_middle a <? 256) && (g3_sub a <? 256)
    | Group2Level a => (g2_main a <? 256) && (g2_sub a <? 256)
    | Group1Level a => g1_main a <? 65536
    end in
  match o with
  | ORead a | OSolicit a => addr a
  | OWrite a v _ | OMWrite a v _ => addr a && (N.of_nat (length v) <=? 65000)
  | _ => true
  end.
Lemma wf_opb_ok o : wf_opb o = true -> wf_op o.
Proof.
  destruct o as [a|a v b| | | |a|a v b| | |]; cbn; auto; destruct a; cbn;
    rewrite ?Bool.andb_true_iff, ?N.ltb_lt, ?N.leb_le; unfold wf_individual, wf_group3, wf_group2; intuition.
Qed.
Lemma typed_dec tr :
  forallb (forallb (fun b => b <? 256)) (arrived tr) && forallb (fun e => match e with EvInvoke _ o => wf_opb o | _ => true end) (evs tr) = true ->
  well_typed tr.
Proof.
  intro H. apply andb_prop in H. destruct H as (H1&H2). split; [apply octets_dec, H1|].
  intros t o Hi. rewrite forallb_forall in H2. apply wf_opb_ok, (H2 _ Hi).
Qed.
Ltac typed := apply typed_dec; vm_compute; reflexivity.
Lemma tunnelled_looks chan seq msg :
  N.of_nat (length msg) <= 90 ->
  looks_like (recv_buffer (tunnelled chan seq msg)) (RTunReq {| tr_chan := chan; tr_seq := seq; tr_cemi := msg |}).
Proof.
  intro H. exists (10 + N.of_nat (length msg)), 0, (msg ++ repeat 0 (90 - length msg)).
  assert (L : length (tunnelled chan seq msg) = (10 + length msg)%nat) by (unfold tunnelled, frame; cbn; reflexivity).
  split; [lia|]. split.
  - unfold recv_buffer. rewrite firstn_all2 by lia. rewrite L. unfold tunnelled, frame.
    replace (6 + N.of_nat (length ([4; chan; seq; 0] ++ msg))) with (10 + N.of_nat (length msg)) by (rewrite app_length; cbn [length]; lia).
    replace (100 - (10 + length msg))%nat with (90 - length msg)%nat by lia. rewrite <- !app_assoc. reflexivity.
  - cbn [tr_cemi]. replace (N.to_nat (10 + N.of_nat (length msg)) - 10)%nat with (length msg) by lia.
    rewrite app_length, repeat_length. replace (length msg - (length msg + (90 - length msg)))%nat with 0%nat by lia.
    rewrite firstn_app, firstn_all2 by lia. replace (length msg - length msg)%nat with 0%nat by lia. cbn. rewrite !app_nil_r. reflexivity.
Qed.
Lemma state_looks chan status :
  looks_like (recv_buffer (state_answer chan status)) (RConnState {| ss_chan := chan; ss_status := status |}).
Proof. exists (repeat 0 92). reflexivity. Qed.
Lemma disconnect_looks chan :
  looks_like (recv_buffer (disconnect_answer chan)) (RDiscResp {| ds_chan := chan; ds_status := 0 |}).
Proof. exists (repeat 0 92). reflexivity. Qed.

(** ** C54: a sequence number of the previous connection *)
Lemma wrong_connection :
  exists tr s, exec client 0 no_listeners tr s /\ well_typed tr /\
    exists a n cd b n2 t o, tr = (a ++ (n, EvConnected cd) :: b) ++ [(n2, EvSend (Cl t) (tunnel_datagram (cd_chan cd) 1 (telegram o)))] /\
      no_connected b /\ issued b = [] /\ issued a = [0; 1] /\ in_call t o (a ++ (n, EvConnected cd) :: b) [(n2, EvSeq t 1)].
Proof.
  set (sched := connect_with 7 ++ call4 1 (ORead lamp) ++ deliver (tunnelled 7 0 (group_ind 0x0901 [5])) ++ [LCl 1 true]
    ++ [LInvoke 2 (ORead lamp); LCl 2 true; LCl 2 true] ++ [LArrive (state_answer 7 0x21); LBg true; LBg true]
    ++ connect_with 9 ++ [LCl 2 true; LCl 2 true]).
  execution sched. split.
  - typed.
  - exists (firstn 21 (trace_of client no_listeners sched)), 0,
      {| cd_chan := 9; cd_ep := gateway; cd_seq := 0 |}, [], 0, 2%nat, (ORead lamp).
    vm_compute. split; [reflexivity|]. repeat split.
    eexists [], _. split; [reflexivity|]. intros x [<-|[]]. split; [reflexivity|discriminate].
Qed.

(** ** C60: a value that was queued before the request *)
Lemma stale_read :
  exists tr s, exec client 0 no_listeners tr s /\ well_typed tr /\
    exists p n1 m p2 n2 d n3 v,
      tr = p ++ (n1, EvEnq m) :: p2 ++ [(n2, EvSend (Cl 1) d); (n3, EvDeq 1 m); (n3, EvRet 1 (ORead lamp) (RBytes v))].
Proof.
  set (sched := connect_with 7 ++ deliver (tunnelled 7 0 (group_ind 0x0901 [5])) ++ call4 1 (ORead lamp) ++ [LCl 1 true]).
  execution sched. split; [typed|].
  eexists (firstn 7 (trace_of client no_listeners sched)), _, _, [_; _], _, _, _, _. vm_compute. reflexivity.
Qed.

(** ** C62: success on a negative confirmation for another address *)
Lemma unconfirmed_write :
  exists tr s, exec client 0 no_listeners tr s /\ well_typed tr /\
    exists p n1 n2 m c1 c2 src dst len apci data,
      tr = p ++ [(n1, EvDeq 1 m); (n2, EvRet 1 (OWrite lamp [1] false) RUnit)] /\ queued tr = [m] /\ is_con m /\
      ce_service m = ldata_bytes c1 c2 src dst len apci data /\
      N.testbit c1 0 = true /\ dst <> addr_to_u16 lamp /\ data <> [1].
Proof.
  set (sched := connect_with 7 ++ call4 1 (OWrite lamp [1] false) ++ deliver (tunnelled 7 0 (group_con 0xbd 0x0902 [9])) ++ [LCl 1 true]).
  execution sched. split; [typed|].
  eexists (firstn 11 (trace_of client no_listeners sched)), _, _, _, 0xbd, 0xe0, 0x1101, 0x0902, 2, 0x80, [9].
  vm_compute. repeat split; discriminate.
Qed.

(** ** C64: the device answered, disconnect fails *)
Lemma failed_disconnect :
  exists tr s, exec client 0 no_listeners tr s /\ well_typed tr /\
    exists p n1 d n2 chan,
      tr = p ++ [(n1, EvBgRecv d); (n1, EvBgEnd); (n2, EvRet 1 ODisconnect (RErr EClosed))] /\
      In (EvSend (Cl 1) (disconnect_datagram chan gateway)) (evs p) /\
      looks_like (recv_buffer d) (RDiscResp {| ds_chan := chan; ds_status := 0 |}).
Proof.
  set (sched := connect_with 7 ++ call4 1 ODisconnect ++ [LArrive (disconnect_answer 7); LBg true; LCl 1 true]).
  execution sched. split; [typed|].
  exists (firstn 7 (trace_of client no_listeners sched)), 0, (disconnect_answer 7), 0, 7.
  split; [vm_compute; reflexivity|]. split; [vm_compute; auto 10|apply disconnect_looks].
Qed.

(** ** C66: still connected after the disconnect response *)
Lemma still_connected :
  exists tr s, exec monitor 0 no_listeners tr s /\ well_typed tr /\
    exists p n1 d q n2 r,
      tr = p ++ [(n1, EvBgRecv d); (n1, EvBgEnd)] ++ q ++ [(n2, EvRet 2 OIsConnected (RBool true))] /\
      looks_like (recv_buffer d) (RDiscResp r).
Proof.
  set (sched := monitor_connect 7 ++ [LBg true] ++ call4 1 OMDisconnect ++
    [LArrive (disconnect_answer 7); LBg true; LCancel 1; LInvoke 2 OIsConnected; LCl 2 true; LCl 2 true]).
  execution sched. split; [typed|].
  eexists (firstn 8 (trace_of monitor no_listeners sched)), 0, (disconnect_answer 7), [_; _], 0, _.
  split; [vm_compute; reflexivity|apply disconnect_looks].
Qed.

(** ** C67: a status query that waits for ever *)
Lemma waiting_step c s l s' es t :
  step c s l = Some (s', es) -> lets_wait t l = true -> s_clients s t = CWaitSock OStatus -> s_inbox s = [] ->
  s_clients s' t = CWaitSock OStatus /\ s_inbox s' = [] /\ filter (call_event t) es = [].
Proof.
  intros Hs Hw Hp Hi.
  assert (E2 : s_inbox s' = []).
  { destruct l; try discriminate Hw; pose proof (step_inbox _ _ _ _ _ Hs) as E; rewrite Hi in E; cbn [app] in E;
      inv_step Hs; sys; auto; congruence. }
  destruct (call_label l) as [u|] eqn:Hc.
  - destruct (Nat.eq_dec u t) as [->|N].
    + exfalso. destruct l; try discriminate Hc; injection Hc as ->; cbn [lets_wait] in Hw; rewrite ?Nat.eqb_refl in Hw; try discriminate Hw;
        cbn [step] in Hs; unfold invoke, cl_step, cl_timeout, cl_dbg in Hs; rewrite Hp in Hs; rewrite ?Hi in Hs;
        destruct (s_rx_alive s); discriminate Hs.
    + destruct (call_frame _ _ _ _ _ _ Hs Hc) as (_&_&_&_&_&_&F&_). rewrite F by congruence. split; [exact Hp|]. split; [exact E2|].
      eapply step_call_events; [exact Hs|congruence].
  - assert (F : s_clients s' = s_clients s).
    { destruct (bg_label l) eqn:Hb; [apply (bg_frame _ _ _ _ _ Hs Hb)|].
      destruct (env_frame _ _ _ _ _ Hs Hb Hc) as (_&_&_&_&_&->&_). reflexivity. }
    rewrite F. split; [exact Hp|]. split; [exact E2|]. eapply step_call_events; [exact Hs|congruence].
Qed.
Lemma waiting_run c s sched s' tr t :
  run c s sched = Some (s', tr) -> forallb (lets_wait t) sched = true -> s_clients s t = CWaitSock OStatus -> s_inbox s = [] ->
  s_clients s' t = CWaitSock OStatus /\ s_inbox s' = [] /\ call_events t tr = [].
Proof.
  revert s tr. induction sched as [|l sched IH]; intros s tr R U Hp Hi; cbn in R, U.
  - injection R as <- <-. auto.
  - apply andb_prop in U. destruct U as [U Us].
    destruct (step c s l) as [[s1 es]|] eqn:E; [|discriminate].
    destruct (run c s1 sched) as [[s2 tr2]|] eqn:E2; [|discriminate]. injection R as <- <-.
    destruct (waiting_step _ _ _ _ _ _ E U Hp Hi) as (S1&I1&F1). destruct (IH _ _ E2 Us S1 I1) as (S2&I2&F2).
    rewrite call_events_app, call_events_stamp, F1, F2. auto.
Qed.
Lemma answered_waits :
  exists tr s, exec client 0 no_listeners tr s /\ well_typed tr /\
    (exists p n d n2 d2, tr = p ++ [(n, EvSend (Cl 1) d); (n2, EvArrive d2); (n2, EvBgRecv d2)] /\
       service d = 0x0207 /\ looks_like (recv_buffer d2) (RConnState {| ss_chan := 7; ss_status := 0 |})) /\
    in_call 1 OStatus tr [(0, EvSend (Cl 1) (state_datagram 7 gateway))] /\
    forall sched s' tr', run client s sched = Some (s', tr') -> forallb (lets_wait 1) sched = true -> call_events 1 tr' = [].
Proof.
  set (sched := connect_with 7 ++ call4 1 OStatus ++ [LArrive (state_answer 7 0); LBg true]).
  execution sched. split; [typed|]. split; [|split].
  - eexists (firstn 5 (trace_of client no_listeners sched)), _, _, _, _. vm_compute. split; [reflexivity|]. split; [reflexivity|].
    exists (repeat 0 92). reflexivity.
  - exists [], 0. vm_compute. split; [reflexivity|]. intros x [<-|[]]. split; [reflexivity|discriminate].
  - intros sch s' tr' R U. eapply waiting_run; [exact R|exact U|reflexivity|reflexivity].
Qed.

(** ** C68: a status query takes a telegram *)
Lemma status_steals :
  exists tr s, exec client 0 no_listeners tr s /\ well_typed tr /\
    exists p n d t, tr = p ++ [(n, EvClRecv 1 d); (n, EvRet 1 OStatus (RErr EParse))] /\
      looks_like (recv_buffer d) (RTunReq t) /\ queued tr = [].
Proof.
  set (sched := connect_with 7 ++ call4 1 OStatus ++ [LArrive (tunnelled 7 0 (group_ind 0x0901 [5])); LCl 1 true]).
  execution sched. split; [typed|].
  eexists (firstn 7 (trace_of client no_listeners sched)), 0, (tunnelled 7 0 (group_ind 0x0901 [5])), _.
  split; [vm_compute; reflexivity|]. split; [apply tunnelled_looks; vm_compute; discriminate|vm_compute; reflexivity].
Qed.

(** ** C73: a datagram that stops the task *)
Lemma crashing_datagram :
  exists tr s, exec client 0 no_listeners tr s /\ well_typed tr /\
    exists p n d, tr = p ++ [(n, EvBgRecv d); (n, EvBgPanic)] /\ length d = 10%nat.
Proof.
  set (sched := connect_with 7 ++ [LArrive [6; 16; 4; 32; 0; 9; 4; 7; 0; 0]; LBg true]).
  execution sched. split; [typed|].
  eexists (firstn 5 (trace_of client no_listeners sched)), _, _. vm_compute. split; reflexivity.
Qed.

(** ** C75, C76: duplicates and foreign channels *)
Lemma duplicate_delivered :
  exists tr s, exec client 0 no_listeners tr s /\ well_typed tr /\
    exists d t m, arrived tr = [granting 7; d; d] /\ looks_like (recv_buffer d) (RTunReq t) /\ queued tr = [m; m].
Proof.
  set (d := tunnelled 7 0 (group_ind 0x0901 [5])).
  execution (connect_with 7 ++ deliver d ++ deliver d). split; [typed|].
  eexists d, _, _. split; [vm_compute; reflexivity|]. split; [apply tunnelled_looks; vm_compute; discriminate|vm_compute; reflexivity].
Qed.
Lemma foreign_delivered :
  exists tr s, exec client 0 no_listeners tr s /\ well_typed tr /\
    exists cd d t m, evs tr = [EvSend Bg connection_datagram; EvArrive (granting 7); EvConnRecv (granting 7); EvConnected cd;
        EvArrive d; EvBgRecv d; EvSend Bg (ack_datagram (tr_chan t) (tr_seq t)); EvEnq m] /\
      looks_like (recv_buffer d) (RTunReq t) /\ tr_chan t <> cd_chan cd.
Proof.
  set (d := tunnelled 8 0 (group_ind 0x0901 [5])).
  execution (connect_with 7 ++ deliver d). split; [typed|].
  eexists _, d, {| tr_chan := 8; tr_seq := 0; tr_cemi := group_ind 0x0901 [5] |}, _.
  split; [vm_compute; reflexivity|]. split; [apply tunnelled_looks; vm_compute; discriminate|vm_compute; discriminate].
Qed.

(** ** C58, C79: heart beats to a silent device, also after the handle is gone *)
Lemma bg_only_typed a b :
  well_typed a -> forallb bg_event (evs b) = true -> arrived b = [] /\ well_typed (a ++ b).
Proof.
  intros (A1&A2) H.
  assert (N : arrived b = []).
  { clear A1 A2. unfold arrived. induction b as [|[n e] b IH]; [reflexivity|]. cbn in H. apply andb_prop in H. destruct H as [H1 H2].
    cbn. rewrite (IH H2). destruct e; try reflexivity. discriminate H1. }
  split; [exact N|]. split; [rewrite arrived_app, N, app_nil_r; exact A1|].
  intros t o Hi. rewrite evs_app in Hi. apply in_app_iff in Hi. destruct Hi as [Hi|Hi]; [eauto|].
  rewrite forallb_forall in H. specialize (H _ Hi). discriminate H.
Qed.
Lemma silent_for_ever k :
  exists tr s, exec client 0 no_listeners tr s /\ well_typed tr /\
    exists p n cd q, tr = p ++ (n, EvConnected cd) :: q /\ arrived q = [] /\ ~ In EvCleared (evs q) /\
      length (filter heartbeat (evs q)) = k.
Proof.
  pose (sched := connect_with 7).
  assert (E : exists tr s, exec client 0 no_listeners tr s /\ well_typed tr /\ listening s /\ s_bg s = BRecv /\
            exists p n cd, tr = p ++ [(n, EvConnected cd)]).
  { execution sched. split; [typed|]. split; [vm_compute; repeat split; (discriminate || left; reflexivity)|]. split; [reflexivity|].
    eexists (firstn 3 (trace_of client no_listeners sched)), _, _. vm_compute; reflexivity. }
  destruct E as (tr&s&H&W&L&B&p&n&cd&->).
  destruct (silent_beats client s k L B) as (sch&s'&tr'&R&U&L'&B'&K&_&BE).
  pose proof (silent_run _ _ _ _ _ R U L) as (_&NC). destruct (bg_only_typed _ _ W BE) as (A&W').
  exists ((p ++ [(n, EvConnected cd)]) ++ tr'), s'. split; [eapply exec_app; eassumption|]. split; [exact W'|].
  exists p, n, cd, tr'. rewrite <- app_assoc. auto.
Qed.
Lemma dropped_for_ever k :
  exists tr s, exec client 0 no_listeners tr s /\ well_typed tr /\ s_rx_alive s = false /\
  exists sched s' tr', run client s sched = Some (s', tr') /\ s_rx_alive s' = false /\
    bg_gone s' = false /\ length (filter heartbeat (evs tr')) = k.
Proof.
  pose (sched := connect_with 7 ++ [LDropHandle]).
  assert (E : exists tr s, exec client 0 no_listeners tr s /\ well_typed tr /\ listening s /\ s_bg s = BRecv /\ s_rx_alive s = false).
  { execution sched. split; [typed|]. split; [vm_compute; repeat split; (discriminate || left; reflexivity)|]. split; reflexivity. }
  destruct E as (tr&s&H&W&L&B&Al).
  destruct (silent_beats client s k L B) as (sch&s'&tr'&R&U&L'&B'&K&A&_).
  exists tr, s. split; [exact H|]. split; [exact W|]. split; [exact Al|]. exists sch, s', tr'.
  unfold bg_gone. rewrite B', A. auto.
Qed.

(** ** C72: a read that goes on as long as there is other traffic *)
Definition unrelated : list N := tunnelled 7 0 (group_ind 0x0902 [5]).
Definition busy (s : sys) : Prop :=
  s_rx_alive s = true /\ s_bg s = BRecv /\ s_inbox s = [] /\ s_rxq s = [] /\ exists dl, s_clients s 1 = CWaitQ (ORead lamp) dl.
Lemma busy_round s :
  busy s ->
  exists s' tr, run client s ([LTime 9000] ++ deliver unrelated ++ [LCl 1 true]) = Some (s', tr) /\ busy s' /\
    s_now s' = s_now s + 9000 /\ forallb (fun e => negb (call_end 1 e)) (evs tr) = true /\ arrived tr = [unrelated] /\
    forall t o, ~ In (EvInvoke t o) (evs tr).
Proof.
  intros (H1&H2&H3&H4&dl&H5).
  destruct s as [now conn q al inbox bg hb tl cls lis onc]. cbn in H1, H2, H3, H4, H5. subst al bg inbox q.
  rewrite app_assoc, run_app.
  assert (E : run client (Build_sys now conn [] true [] BRecv hb tl cls lis onc) ([LTime 9000] ++ deliver unrelated) =
    Some (Build_sys (now + 9000) conn [{| ce_code := 0x29; ce_infos := []; ce_service := ldata_bytes 0xbc 0xe0 0x1105 0x0902 2 0x80 [5] |}]
            true [] BRecv hb tl cls lis onc,
          [(now + 9000, EvArrive unrelated); (now + 9000, EvBgRecv unrelated); (now + 9000, EvSend Bg (ack_datagram 7 0));
           (now + 9000, EvEnq {| ce_code := 0x29; ce_infos := []; ce_service := ldata_bytes 0xbc 0xe0 0x1105 0x0902 2 0x80 [5] |})])).
  { vm_compute. reflexivity. }
  rewrite E. clear E. cbn [run step s_rx_alive]. unfold cl_step. cbn [s_clients s_rxq]. rewrite H5.
  set (m := Build_cemi _ _ _).
  change (on_message ?x 1 (ORead lamp) dl m) with (goto x 1 (CWaitQ (ORead lamp) (s_now x + ms_api)) [EvDeq 1 m]).
  unfold goto. cbn [run]. eexists _, _. split; [reflexivity|]. split; [|repeat split].
  - repeat split. exists (now + 9000 + ms_api). reflexivity.
  - intros t o Hi. cbn in Hi. intuition discriminate.
Qed.
Lemma busy_for_ever k :
  exists tr s, exec client 0 no_listeners tr s /\ well_typed tr /\
    exists p n d q, tr = p ++ (n, EvSend (Cl 1) d) :: q /\ in_call 1 (ORead lamp) p [(0, EvSeq 1 0)] /\
      forallb (fun e => negb (call_end 1 e)) (evs q) = true /\ n + k <= s_now s.
Proof.
  pose (sched := connect_with 7 ++ call4 1 (ORead lamp)).
  assert (E : exists tr s, exec client 0 no_listeners tr s /\ well_typed tr /\ busy s /\
    exists p d, tr = p ++ [(0, EvSend (Cl 1) d)] /\ in_call 1 (ORead lamp) p [(0, EvSeq 1 0)]).
  { execution sched. split; [typed|]. split; [vm_compute; repeat split; eexists; reflexivity|].
    eexists (firstn 6 (trace_of client no_listeners sched)), _. split; [vm_compute; reflexivity|].
    exists [], 0. vm_compute. split; [reflexivity|]. intros x [<-|[]]. split; [reflexivity|discriminate]. }
  destruct E as (tr&s&H&W&B&p&d&->&I).
  assert (G : forall j : nat, exists q s', exec client 0 no_listeners ((p ++ [(0, EvSend (Cl 1) d)]) ++ q) s' /\
    well_typed ((p ++ [(0, EvSend (Cl 1) d)]) ++ q) /\ busy s' /\ forallb (fun e => negb (call_end 1 e)) (evs q) = true /\
    9000 * N.of_nat j <= s_now s').
  { induction j as [|j (q&s'&H'&W'&B'&F&T)].
    - exists [], s. rewrite app_nil_r. repeat split; auto; try apply W; try apply B. lia.
    - destruct (busy_round s' B') as (s2&tr2&R&B2&T2&F2&A2&N2). exists (q ++ tr2), s2. rewrite app_assoc.
      split; [eapply exec_app; eassumption|]. split; [|split; [exact B2|split; [|lia]]].
      + destruct W' as (W1&W2). split.
        * rewrite arrived_app, A2. apply Forall_app. split; [exact W1|]. octets.
        * intros t o Hi. rewrite evs_app in Hi. apply in_app_iff in Hi. destruct Hi as [Hi|Hi]; [eauto|exfalso; eapply N2; exact Hi].
      + rewrite evs_app, forallb_app, F, F2. reflexivity. }
  destruct (G (N.to_nat k)) as (q&s'&H'&W'&_&F&T).
  exists ((p ++ [(0, EvSend (Cl 1) d)]) ++ q), s'. split; [exact H'|]. split; [exact W'|].
  exists p, 0, d, q. rewrite <- app_assoc. split; [reflexivity|]. split; [exact I|]. split; [exact F|lia].
Qed.

(** ** C82: a listener that is not drained *)
Definition one_full (_ : nat) : listener := {| li_cap := 1; li_count := 1; li_alive := true |}.
Lemma slow_listener :
  exists tr s, exec monitor 0 one_full tr s /\ well_typed tr /\ registered tr = [0%nat] /\
    in_call 1 OIsConnected tr [] /\ s_clients s 1 = CConnChk /\
    forall sched s' tr', run monitor s sched = Some (s', tr') -> forallb (leaves_alone 0) sched = true ->
      bg_events tr' = [] /\ forallb (fun e => negb (needs_connection e)) (evs tr') = true.
Proof.
  set (sched := [LInvoke 0 (OAddListener 0); LCl 0 true; LCl 0 true] ++ monitor_connect 7 ++ [LInvoke 1 OIsConnected; LCl 1 true]).
  execution sched. split; [typed|]. split; [reflexivity|]. split; [|split; [reflexivity|]].
  - exists [], 0. split; [reflexivity|]. intros x [].
  - intros sch s' tr' R U. eapply stuck_run in R; [|exact U|].
    + tauto.
    + split; [eexists _, _; reflexivity|]. split; [reflexivity|vm_compute; repeat constructor].
Qed.

Definition runs (c : cfg) (ls : nat -> listener) (sched : list label) : bool :=
  match run c (init_sys 0 ls) sched with Some _ => true | None => false end.
Lemma trace_runs c ls sched :
  runs c ls sched = true -> well_typed (trace_of c ls sched) ->
  exists s, exec c 0 ls (trace_of c ls sched) s /\ well_typed (trace_of c ls sched).
Proof.
  unfold runs, trace_of. destruct (run c (init_sys 0 ls) sched) as [[s tr]|] eqn:E; [|discriminate].
  intros _ W. exists s. split; [|exact W]. eapply run_exec, E.
Qed.
(** ** A session with most of the things that can happen *)
Definition session_schedule : list label :=
  connect_with 7 ++ call4 1 (ORead lamp) ++ [LInvoke 2 (OWrite lamp [1] false)]
  ++ deliver (tunnelled 7 0 (group_ind 0x0902 [9])) ++ [LCl 1 true]
  ++ deliver (tunnelled 7 1 (group_ind 0x0901 [5])) ++ [LCl 1 true]
  ++ repeat (LCl 2 true) 4 ++ deliver (tunnelled 7 2 (group_con 0xbc 0x0901 [1])) ++ [LCl 2 true]
  ++ [LArrive (state_answer 7 0x21); LBg true; LBg true; LBg true; LBg true; LBgRecvErr; LTime 10000; LBg true] ++ skipn 1 (connect_with 9)
  ++ [LTime 50000; LTick; LBg true; LTime 60000; LTick; LBg true]
  ++ call4 1 (ORead other) ++ [LTime 10000; LTimeout 1]
  ++ call4 3 OStatus ++ [LInvoke 1 ODisconnect; LArrive (state_answer 9 0); LCl 3 true]
  ++ repeat (LCl 1 true) 4 ++ [LArrive (disconnect_answer 9); LBg true; LCl 1 true].
Definition session : trace := trace_of client no_listeners session_schedule.
Lemma session_runs : exists s, exec client 0 no_listeners session s /\ well_typed session.
Proof. apply trace_runs; [vm_compute; reflexivity|typed]. Qed.
(** The same for the monitor: two listeners, the second one dropped. *)
Definition two_listeners (l : nat) : listener :=
  {| li_cap := 2; li_count := 0; li_alive := match l with 0%nat => true | _ => false end |}.
Definition monitor_schedule : list label :=
  [LInvoke 0 (OAddListener 0); LCl 0 true; LCl 0 true; LInvoke 0 (OAddListener 1); LCl 0 true; LCl 0 true]
  ++ monitor_connect 7 ++ [LBg true; LBg true; LBg true]
  ++ deliver (tunnelled 7 0 (group_con 0xbc 0x0901 [1])) ++ deliver (tunnelled 7 1 (group_ind 0x0902 [9]))
  ++ [LInvoke 1 ONextMsg; LCl 1 true; LCl 1 true; LCl 1 true]
  ++ call4 2 (OMWrite lamp [1] true) ++ call4 2 (OSolicit lamp)
  ++ [LInvoke 3 OIsConnected; LCl 3 true; LCl 3 true]
  ++ call4 3 OMDisconnect ++ [LArrive (disconnect_answer 7); LCl 3 true]
  ++ [LArrive [1]; LBg true; LBg true] ++ monitor_connect 8 ++ [LBg true; LBg true]
  ++ [LArrive (disconnect_answer 8); LBg true; LInvoke 1 ONextMsg; LCl 1 true; LCl 1 true].
Definition monitor_session : trace := trace_of monitor two_listeners monitor_schedule.
Lemma monitor_session_runs : exists s, exec monitor 0 two_listeners monitor_session s /\ well_typed monitor_session.
Proof. apply trace_runs; [vm_compute; reflexivity|typed]. Qed.

(** ** C57: a datagram that is no message at all *)
Lemma garbage_is_error : connection_error [1].
Proof.
  right. split; [discriminate|]. split.
  - intros r H. destruct r; cbn [looks_like] in H; repeat match goal with
      | G : exists _, _ |- _ => destruct G
      | G : _ /\ _ |- _ => destruct G
      end; match goal with
      | G : recv_buffer [1] = _ |- _ => discriminate G
      | _ => contradiction
      end.
  - intros size chan seq pad rest _. discriminate.
Qed.

(** ** C83: a device's disconnect request *)
Lemma never_answered :
  exists tr s, exec client 0 no_listeners tr s /\ well_typed tr /\
    In (EvBgRecv (disconnect_datagram 7 gateway)) (evs tr) /\
    forall sched s' tr', run client s sched = Some (s', tr') -> well_typed (tr ++ tr') ->
      forall w x, In (EvSend w x) (evs (tr ++ tr')) -> service x <> 0x020a.
Proof.
  set (sched := connect_with 7 ++ [LArrive (disconnect_datagram 7 gateway); LBg true; LBg true]).
  set (tr := trace_of client no_listeners sched).
  destruct (run client (init_sys 0 no_listeners) sched) as [[s tr1]|] eqn:R; [|exfalso; revert R; vm_compute; discriminate].
  assert (Et : tr1 = tr) by (unfold tr, trace_of; rewrite R; reflexivity).
  pose proof (run_exec _ _ _ _ _ _ R) as H. exists tr1, s. split; [exact H|]. subst tr1. split; [typed|]. split.
  - vm_compute. auto 10.
  - intros sched' s' tr' R' W w x Hi. eapply no_disconnect_response; [exact (exec_app _ _ _ _ _ _ _ _ H R')|exact W|exact Hi].
Qed.
