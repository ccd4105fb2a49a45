(** Results of disconnect and status calls; connection errors; all on traces. *)
From Verif Require Import Base Addresses Apdu Tunneling Emi Core Transport Wire Spec TraceSpec BaseProofs CoreProofs
  ResponseProofs TransportBase TransportInv TransportConn TransportCalls TransportReturn TransportThm TransportThm2 TransportThm3
  TransportBg TransportBgThm TransportBgThm2 TransportBgThm3 TransportBgThm4 TransportNotify TransportMore.
From Coq Require Import Lia ZifyBool ZifyNat ZifyN.
Open Scope N_scope.

(** ** Disconnect *)
Lemma disconnect_returns c start ls tr s p n t r q :
  exec c start ls tr s -> tr = p ++ (n, EvRet t ODisconnect r) :: q ->
  exists body, in_call t ODisconnect p body /\ disconnect_outcome t p r body.
Proof.
  intros H E. destruct (ret_hist _ _ _ _ _ _ _ _ _ _ _ H E) as (h&cur&tr0&s0&e1&Ec&Hc&Hh&Hs&H0&Ep&->).
  inversion Hs; subst; match goal with G : s_clients s0 t = _ |- _ => rewrite G in Hh; cbn [hist] in Hh end;
    cbn [disconnect_outcome stamp map] in *; rewrite ?app_nil_r in *.
  - destruct Hh as (D&_). discriminate D.
  - destruct Hh as (D&_). discriminate D.
  - destruct Hh as (_&(n0&->)). exists []. split; [|reflexivity]. exists h, n0. split; [exact Ec|apply quiet_nil].
  - destruct Hh as (_&_&(n0&->)). exists []. split; [|reflexivity]. exists h, n0. split; [exact Ec|apply quiet_nil].
  - destruct (ready_call _ _ _ _ _ _ Hh) as (n0&body&->&_&[(D&_)|(_&->)]); [discriminate D|].
    exists []. split; [|reflexivity]. exists h, n0. split; [exact Ec|apply quiet_nil].
  - match goal with G : _ \/ _ |- _ => destruct G; discriminate end.
  - match goal with G : _ \/ _ |- _ => destruct G as [(?&G)|(?&?&?&G)]; discriminate G end.
  - destruct (direct_sent_shape _ _ _ _ _ Hh eq_refl) as (n0&n2&d&->).
    exists [(n2, EvSend (Cl t) d)]. split; [exists h, n0; split; [exact Ec|quiet]|].
    split; [eauto|]. split; [|eapply bg_gone_events; eauto].
    destruct (queue_inv _ _ _ _ _ H0) as [Q _]. match goal with G : s_rxq s0 = [] |- _ => rewrite G in Q end.
    rewrite app_nil_r in Q. exact Q.
  - match goal with G : _ \/ _ |- _ => destruct G as [(?&G)|(?&?&?&G)]; discriminate G end.
  - destruct (direct_sent_shape _ _ _ _ _ Hh eq_refl) as (n0&n2&d&->).
    exists [(n2, EvSend (Cl t) d); (s_now s0, EvDeq t m)]. split; [|eauto 6].
    exists h, n0. split; [exact Ec|]. apply (quiet_app t [_] [_]); apply quiet_one; try reflexivity; discriminate.
Qed.

(** ** Status *)
Lemma state_reads x st :
  bytes x -> (run_on connstate_response_from_packet x = Ok st <-> looks_like x (RConnState st)).
Proof.
  intro Hb. unfold run_on, looks_like. split.
  - destruct (connstate_response_from_packet x) as [[r rest]| |] eqn:E; try discriminate. intro H. injection H as <-.
    apply (connstate_response_decode_iff _ _ _ Hb) in E. eauto.
  - intros (rest&E). apply (connstate_response_decode_iff x st rest Hb) in E. rewrite E. reflexivity.
Qed.
Lemma disconnect_reads x st :
  bytes x -> (run_on disconnect_response_from_packet x = Ok st <-> looks_like x (RDiscResp st)).
Proof.
  intro Hb. unfold run_on, looks_like. split.
  - destruct (disconnect_response_from_packet x) as [[r rest]| |] eqn:E; try discriminate. intro H. injection H as <-.
    apply (disconnect_response_decode_iff _ _ _ Hb) in E. eauto.
  - intros (rest&E). apply (disconnect_response_decode_iff x st rest Hb) in E. rewrite E. reflexivity.
Qed.
Lemma clrecv_bytes c start ls tr s t n d :
  exec c start ls tr s -> Forall bytes (arrived tr) -> In (n, EvClRecv t d) tr -> bytes (recv_buffer d).
Proof.
  intros H Hb Hi. apply recv_buffer_bytes. eapply consumed_bytes; [exact H|exact Hb|].
  apply consumed_in. right. right. exists t. apply in_evs. eauto.
Qed.
Lemma status_returns c start ls tr s p n t r q :
  exec c start ls tr s -> Forall bytes (arrived tr) -> tr = p ++ (n, EvRet t OStatus r) :: q ->
  exists body, in_call t OStatus p body /\ status_outcome t r body.
Proof.
  intros H Hb E. destruct (ret_hist _ _ _ _ _ _ _ _ _ _ _ H E) as (h&cur&tr0&s0&e1&Ec&Hc&Hh&Hs&H0&Ep&->).
  assert (B : forall x, e1 = [EvClRecv t x] -> bytes (recv_buffer x)).
  { intros x ->. eapply (clrecv_bytes _ _ _ _ _ t (s_now s0) x H Hb). rewrite E, Ep. apply in_or_app. left. apply in_or_app. right.
    left. reflexivity. }
  inversion Hs; subst; match goal with G : s_clients s0 t = _ |- _ => rewrite G in Hh; cbn [hist] in Hh end;
    cbn [status_outcome stamp map] in *; rewrite ?app_nil_r in *.
  - destruct Hh as (D&_). discriminate D.
  - destruct Hh as (D&_). discriminate D.
  - destruct Hh as (_&(n0&->)). exists []. split; [|reflexivity]. exists h, n0. split; [exact Ec|apply quiet_nil].
  - destruct Hh as (_&_&(n0&->)). exists []. split; [|reflexivity]. exists h, n0. split; [exact Ec|apply quiet_nil].
  - destruct (ready_call _ _ _ _ _ _ Hh) as (n0&body&->&_&[(D&_)|(_&->)]); [discriminate D|].
    eexists. split; [exists h, n0; split; [exact Ec|]|eauto]. apply quiet_one; [reflexivity|discriminate].
  - match goal with G : _ \/ _ |- _ => destruct G as [(?&G)|(?&?&?&G)]; discriminate G end.
  - contradiction.
  - match goal with G : _ \/ _ |- _ => destruct G as [(?&G)|(?&?&?&G)]; discriminate G end.
  - destruct Hh as (_&Hh). destruct (direct_sent_shape _ _ _ _ _ Hh eq_refl) as (n0&n2&x&->).
    exists [(n2, EvSend (Cl t) x); (s_now s0, EvClRecv t d)]. split.
    + exists h, n0. split; [exact Ec|]. apply (quiet_app t [_] [_]); apply quiet_one; try reflexivity; discriminate.
    + exists n2, x, (s_now s0), d. split; [reflexivity|]. apply state_reads; [auto|assumption].
  - destruct Hh as (_&Hh). destruct (direct_sent_shape _ _ _ _ _ Hh eq_refl) as (n0&n2&x&->).
    exists [(n2, EvSend (Cl t) x); (s_now s0, EvClRecv t d)]. split.
    + exists h, n0. split; [exact Ec|]. apply (quiet_app t [_] [_]); apply quiet_one; try reflexivity; discriminate.
    + exists n2, x, (s_now s0), d. split; [reflexivity|]. intros st L. apply (state_reads _ _ (B _ eq_refl)) in L. match goal with G : forall r, run_on _ _ <> Ok r |- _ => exact (G _ L) end.
  - destruct Hh as (_&Hh). destruct (direct_sent_shape _ _ _ _ _ Hh eq_refl) as (n0&n2&x&->).
    exists [(n2, EvSend (Cl t) x)]. split; [|eauto]. exists h, n0. split; [exact Ec|]. apply quiet_one; [reflexivity|discriminate].
Qed.
Lemma monitor_disconnect_returns c start ls tr s p n t r q :
  exec c start ls tr s -> Forall bytes (arrived tr) -> tr = p ++ (n, EvRet t OMDisconnect r) :: q ->
  exists body, in_call t OMDisconnect p body /\ monitor_disconnect_outcome t r body.
Proof.
  intros H Hb E. destruct (ret_hist _ _ _ _ _ _ _ _ _ _ _ H E) as (h&cur&tr0&s0&e1&Ec&Hc&Hh&Hs&H0&Ep&->).
  assert (B : forall x, e1 = [EvClRecv t x] -> bytes (recv_buffer x)).
  { intros x ->. eapply (clrecv_bytes _ _ _ _ _ t (s_now s0) x H Hb). rewrite E, Ep. apply in_or_app. left. apply in_or_app. right.
    left. reflexivity. }
  inversion Hs; subst; match goal with G : s_clients s0 t = _ |- _ => rewrite G in Hh; cbn [hist] in Hh end;
    cbn [monitor_disconnect_outcome stamp map] in *; rewrite ?app_nil_r in *.
  - destruct Hh as (D&_). discriminate D.
  - destruct Hh as (D&_). discriminate D.
  - destruct Hh as (_&(n0&->)). exists []. split; [|reflexivity]. exists h, n0. split; [exact Ec|apply quiet_nil].
  - destruct Hh as (_&_&(n0&->)). exists []. split; [|reflexivity]. exists h, n0. split; [exact Ec|apply quiet_nil].
  - match goal with G : _ \/ _ |- _ => destruct G; discriminate end.
  - match goal with G : _ \/ _ |- _ => destruct G as [(?&G)|(?&?&?&G)]; discriminate G end.
  - contradiction.
  - match goal with G : _ \/ _ |- _ => destruct G as [(?&G)|(?&?&?&G)]; discriminate G end.
  - destruct Hh as (_&Hh). destruct (direct_sent_shape _ _ _ _ _ Hh eq_refl) as (n0&n2&x&->).
    exists [(n2, EvSend (Cl t) x); (s_now s0, EvClRecv t d)]. split.
    + exists h, n0. split; [exact Ec|]. apply (quiet_app t [_] [_]); apply quiet_one; try reflexivity; discriminate.
    + match goal with G : run_on _ _ = Ok ?r |- _ => exists n2, x, (s_now s0), d, (ds_chan r); split; [reflexivity|];
        apply (disconnect_reads _ _ (B _ eq_refl)) in G; destruct r; exact G end.
  - destruct Hh as (_&Hh). destruct (direct_sent_shape _ _ _ _ _ Hh eq_refl) as (n0&n2&x&->).
    exists [(n2, EvSend (Cl t) x); (s_now s0, EvClRecv t d)]. split.
    + exists h, n0. split; [exact Ec|]. apply (quiet_app t [_] [_]); apply quiet_one; try reflexivity; discriminate.
    + exists n2, x, (s_now s0), d. split; [reflexivity|]. intros st L. apply (disconnect_reads _ _ (B _ eq_refl)) in L. match goal with G : forall r, run_on _ _ <> Ok r |- _ => exact (G _ L) end.
Qed.

(** ** Connection errors *)
Lemma error_dispatch d : bytes d -> connection_error d -> dispatch d = BClear.
Proof.
  intros Hb [(st&L&Hs)|(Hn&Hr&Ht)].
  - rewrite (dispatch_of _ _ Hb L). apply N.eqb_neq in Hs. rewrite Hs. reflexivity.
  - apply dispatch_bad; assumption.
Qed.
Lemma error_clears c start ls tr s a d e b :
  exec c start ls tr s -> Forall bytes (arrived tr) -> bg_events tr = a ++ EvBgRecv d :: e :: b -> connection_error d -> e = EvCleared.
Proof.
  intros H Hb E Hd. eapply next_after_recv; [exact H|exact E|]. apply error_dispatch; [|exact Hd].
  eapply bgrecv_bytes; [exact H|exact Hb|]. rewrite E. apply in_or_app. right. left. reflexivity.
Qed.
Lemma error_reconnects c start ls tr s a d ok :
  exec c start ls tr s -> Forall bytes (arrived tr) -> bg_events tr = a ++ [EvBgRecv d] -> connection_error d ->
  exists s', run c s [LBg true; LBg true; LBg ok] = Some (s', [(s_now s, EvCleared); (s_now s, send_event ok Bg connection_datagram)]) /\
    s_conn s' = None.
Proof.
  intros H Hb E Hd. apply clear_reconnects.
  assert (D : dispatch d = BClear).
  { apply error_dispatch; [|exact Hd]. eapply bgrecv_bytes; [exact H|exact Hb|]. rewrite E. apply in_or_app. right. left. reflexivity. }
  destruct (last_recv _ _ _ _ _ _ _ H E) as [Hp|(X&_)]; congruence.
Qed.
Lemma clear_first c s sched s' tr :
  run c s sched = Some (s', tr) -> s_bg s = BClear -> (bg_events tr = [] /\ s_bg s' = BClear) \/ exists b, bg_events tr = EvCleared :: b.
Proof.
  revert s tr. induction sched as [|l sched IH]; intros s tr R Hp; cbn in R.
  - injection R as <- <-. auto.
  - destruct (step c s l) as [[s1 es]|] eqn:E; [|discriminate].
    destruct (run c s1 sched) as [[s2 tr2]|] eqn:E2; [|discriminate]. injection R as <- <-.
    rewrite bg_events_app, bg_events_stamp. destruct (bg_label l) eqn:Hl.
    + right. destruct (clear_only _ _ _ _ _ Hp E Hl) as (->&_). eexists. reflexivity.
    + rewrite (step_bg_events _ _ _ _ _ E Hl). cbn [app]. apply (IH _ _ E2).
      destruct (call_label l) as [t|] eqn:Hc.
      * destruct (call_frame _ _ _ _ _ _ E Hc) as (_&_&_&->&_). exact Hp.
      * destruct (env_frame _ _ _ _ _ E Hl Hc) as (_&_&->&_). exact Hp.
Qed.
(** A socket error while connected. *)
Lemma socket_error_clears c start ls tr0 s s1 es sched s' tr e b :
  exec c start ls tr0 s -> step c s LBgRecvErr = Some (s1, es) -> s_conn s <> None ->
  run c s1 sched = Some (s', tr) -> bg_events tr = e :: b -> e = EvCleared.
Proof.
  intros H Hs Hc R E. assert (Hp : s_bg s1 = BClear).
  { pose proof (conn_inv _ _ _ _ _ H) as C. cbn [step] in Hs. unfold bg_recv_err in Hs.
    destruct (s_bg s); try discriminate Hs; injection Hs as <- _; [|reflexivity]. exfalso. apply Hc, C. reflexivity. }
  destruct (clear_first _ _ _ _ _ R Hp) as [(F&_)|(b'&F)]; rewrite F in E; congruence.
Qed.
(** A failed acknowledgement or heart beat. *)
Lemma send_failure_clears c start ls tr s a x e b :
  exec c start ls tr s -> bg_events tr = a ++ EvSendFail Bg x :: e :: b -> service x = 0x0421 \/ service x = 0x0207 -> e = EvCleared.
Proof.
  intros H E Hx. change (EvSendFail Bg x :: e :: b) with ([EvSendFail Bg x] ++ e :: b) in E. rewrite app_assoc in E.
  destruct (bg_split _ _ _ _ _ _ _ _ H E) as (tr0&s0&l&s1&e1&e2&H0&Hs&Hl&Ea&_&_).
  destruct e1 as [|y e1] using rev_ind.
  - rewrite app_nil_r in Ea. assert (Hp : s_bg s0 = BClear).
    { pose proof (bg_hist _ _ _ _ _ H0) as Hh. rewrite <- Ea, rev_app_distr in Hh. cbn [rev app] in Hh.
      assert (N1 : service connp <> 0x0421 /\ service connp <> 0x0207) by (vm_compute; split; discriminate).
      assert (N2 : forall ch, service (featp ch) <> 0x0421 /\ service (featp ch) <> 0x0207) by (intro; vm_compute; split; discriminate).
      destruct (s_bg s0) eqn:Es; cbn [bg_ok] in Hh; unfold at_check, at_retry, at_recv, at_enq in Hh; hist_cases Hh;
        try discriminate; try congruence; auto;
        try (match goal with G : EvSendFail _ _ :: _ = rev (map EvNotify ?l) ++ _ |- _ =>
           destruct l as [|? l _] using rev_ind; [discriminate G|rewrite map_app, rev_app_distr in G; discriminate G] end);
        exfalso;
        repeat match goal with G : EvSendFail Bg _ :: _ = EvSendFail Bg _ :: _ |- _ => injection G as G _; subst x end.
      all: try (destruct Hx as [Hx|Hx]; first [destruct N1; congruence | edestruct N2; eauto]). }
    destruct l; try discriminate Hl; cbn [step app] in Hs; unfold bg_step, bg_recv_err, bg_timeout, bg_tick in Hs;
      rewrite Hp in Hs; try discriminate Hs. injection Hs as _ <- _. reflexivity.
  - exfalso. clear IHe1. rewrite app_assoc in Ea. apply app_inj_tail in Ea. destruct Ea as (_&<-).
    remember ((e1 ++ [EvSendFail Bg x]) ++ e :: e2) as es eqn:Ee.
    destruct l; try discriminate Hl; inv_step Hs; rewrite <- app_assoc in Ee; cbn [app] in Ee;
      try (destruct e1 as [|? [|? [|]]]; discriminate Ee);
      try (match type of Ee with context [stop_events ?b] => destruct b eqn:? end;
           destruct e1 as [|? [|? [|]]]; try discriminate Ee).
    destruct e1 as [|? [|? [|]]]; try discriminate Ee. injection Ee as <- _ _. destruct Hx as [Hx|Hx]; discriminate Hx.
Qed.

(** ** Heart beats and ticks *)
Lemma heartbeat_tick c start ls tr s a ok x b :
  exec c start ls tr s -> Forall bytes (arrived tr) -> bg_events tr = a ++ send_event ok Bg x :: b -> service x = 0x0207 ->
  exists a' l, a = a' ++ EvTick :: l /\ (l = [] \/ exists m, l = [EvLost m]).
Proof.
  intros H Hb E Hx. destruct (bg_send _ _ _ _ _ _ _ _ _ H Hb E) as [(->&_)|[(_&a'&d&ch&ep&_&_&->)|[(a'&d&ch&seq&_&->&_)|(a'&l&d&ch&ep&->&Hl&_)]]];
    try discriminate Hx. eauto.
Qed.

(** ** Nobody sends a disconnect response *)
Lemma no_disconnect_response c start ls tr s w x :
  exec c start ls tr s -> well_typed tr -> In (EvSend w x) (evs tr) -> service x <> 0x020a.
Proof.
  intros H W Hi Hx. destruct w as [|t].
  - assert (I : In (EvSend Bg x) (bg_events tr)) by (apply in_bg_events; [reflexivity|exact Hi]).
    apply in_split in I. destruct I as (a&b&E).
    destruct (bg_send _ _ _ _ _ _ _ true _ H (proj1 W) E) as [(->&_)|[(_&a'&d&ch&ep&_&_&->)|[(a'&d&ch&seq&_&->&_)|(a'&l&d&ch&ep&->&Hl&_&_&->)]]];
      discriminate Hx.
  - apply in_evs in Hi. destruct Hi as (n&Hi). apply in_split in Hi. destruct Hi as (p&q&E).
    destruct (call_datagram _ _ _ _ _ _ _ _ _ _ H W (or_introl E)) as (o&body&_&ch&ep&g&ep'&g'&ch'&_&_&_&_&D).
    destruct o; try contradiction; try (destruct D as (_&->); discriminate Hx); destruct D as (n1&seq&_&->); discriminate Hx.
Qed.

(** ** Sequence numbers *)
Lemma seq_consecutive c start ls tr s a n cd b :
  exec c start ls tr s -> tr = a ++ (n, EvConnected cd) :: b -> no_connected b ->
  issued b = consecutive (match c_mode c with MClient => 0 | MMonitor => 1 end) (length (issued b)).
Proof.
  intros H -> Hn. pose proof (seq_inv _ _ _ _ _ H) as G. rewrite (current_split _ _ _ _ Hn) in G. apply G.
Qed.

(** ** After the end *)
Lemma stopped_silent c start ls tr s p n e q :
  exec c start ls tr s -> Forall bytes (arrived tr) -> tr = p ++ (n, e) :: q -> e = EvBgEnd \/ e = EvBgPanic -> bg_events q = [].
Proof.
  intros H Hb -> He. assert (E : bg_events (p ++ (n, e) :: q) = bg_events p ++ e :: bg_events q).
  { rewrite bg_events_app. f_equal. unfold bg_events, evs. cbn [map filter snd]. destruct He as [->| ->]; reflexivity. }
  pose proof (stop_reason _ _ _ _ _ _ _ _ H Hb E) as R. destruct He as [->| ->]; apply R.
Qed.
Lemma stopped_closes c start ls tr s t o dl ok :
  exec c start ls tr s -> task_stopped tr -> s_rx_alive s = true -> s_clients s t = CWaitQ o dl -> queued tr = taken tr ->
  exists s', step c s (LCl t ok) = Some (s', [EvRet t o (RErr EClosed)]).
Proof.
  intros H Ht Ha Hp Hq. destruct (gone_after_event _ _ _ _ _ H Ht) as (G&_). eapply closed_queue; eauto.
  destruct (queue_inv _ _ _ _ _ H) as (Q&_). rewrite Hq in Q. rewrite <- (app_nil_r (taken tr)) in Q at 1.
  apply app_inv_head in Q. auto.
Qed.

(** ** A device's disconnect request *)
Lemma disconnect_request_clears c start ls tr s a rest e b :
  exec c start ls tr s -> Forall bytes (arrived tr) -> bg_events tr = a ++ EvBgRecv ([6; 16; 2; 9] ++ rest) :: e :: b -> e = EvCleared.
Proof.
  intros H Hb E. eapply next_after_recv; [exact H|exact E|]. apply disconnect_dispatch.
  assert (B : bytes ([6; 16; 2; 9] ++ rest)).
  { eapply bgrecv_bytes; [exact H|exact Hb|]. rewrite E. apply in_or_app. right. left. reflexivity. }
  apply bytes_app in B. tauto.
Qed.

(** ** Notifications go to live listeners with room *)
Lemma notify_alive c start ls tr s p n x q :
  exec c start ls tr s -> tr = p ++ (n, EvNotify x) :: q ->
  exists s0, exec c start ls p s0 /\ alive s0 x = true /\ (li_count (s_listeners s0 x) < li_cap (s_listeners s0 x))%nat.
Proof.
  intros H E. destruct (exec_split _ _ _ _ _ _ _ _ _ H E) as (tr0&s0&l&s1&e1&e2&H0&Hs&->&->&_).
  remember (e1 ++ EvNotify x :: e2) as es eqn:Ee.
  assert (Hl : bg_label l = true).
  { destruct (bg_label l) eqn:Hl; [reflexivity|]. pose proof (step_bg_events _ _ _ _ _ Hs Hl) as F. subst es. rewrite filter_app in F.
    cbn in F. destruct (filter bg_event e1); discriminate F. }
  destruct l; try discriminate Hl; inv_step Hs;
    try (destruct e1 as [|? [|? [|]]]; discriminate Ee);
    try (match type of Ee with context [stop_events ?b] => destruct b end; destruct e1 as [|? [|? [|]]]; discriminate Ee).
  destruct e1 as [|? [|]]; try discriminate Ee. injection Ee as <- <-. cbn. rewrite app_nil_r. exists s0. split; [exact H0|].
  split; [assumption|]. apply Nat.ltb_lt. assumption.
Qed.

(** ** Where queued messages and acknowledgements come from *)
Lemma in_queued m tr : In m (queued tr) -> In (EvEnq m) (bg_events tr).
Proof.
  unfold queued, bg_events, evs. rewrite in_flat_map. intros ((n&e)&Hi&He). cbn in He.
  destruct e; try contradiction He. destruct He as [->|[]]. apply filter_In. split; [|reflexivity].
  apply in_map_iff. exists (n, EvEnq m). auto.
Qed.
Lemma bgrecv_arrived c start ls tr s d :
  exec c start ls tr s -> In (EvBgRecv d) (bg_events tr) -> In d (arrived tr).
Proof.
  intros H Hi. rewrite (inbox_inv _ _ _ _ _ H). apply in_or_app. left.
  apply filter_In in Hi. destruct Hi as (Hi&_). unfold evs in Hi. apply in_map_iff in Hi. destruct Hi as ((n&e)&E&Hi).
  cbn in E. subst e. unfold consumed. apply in_flat_map. exists (n, EvBgRecv d). split; [exact Hi|left; reflexivity].
Qed.
Lemma queued_origin c start ls tr s m :
  exec c start ls tr s -> Forall bytes (arrived tr) -> In m (queued tr) ->
  exists d t, In d (arrived tr) /\ looks_like (recv_buffer d) (RTunReq t) /\ cemi_octets (tr_cemi t) m.
Proof.
  intros H Hb Hi. apply in_queued in Hi. apply in_split in Hi. destruct Hi as (a&b&E).
  destruct (delivered _ _ _ _ _ _ _ _ H Hb E) as (a'&d&t&Ea&L&C). exists d, t. split; [|auto].
  eapply bgrecv_arrived; [exact H|]. rewrite E, Ea, <- app_assoc. apply in_or_app. right. left. reflexivity.
Qed.
Lemma ack_answers c start ls tr s a ok x b :
  exec c start ls tr s -> Forall bytes (arrived tr) -> bg_events tr = a ++ send_event ok Bg x :: b -> service x = 0x0421 ->
  exists a' d ch seq, a = a' ++ [EvBgRecv d] /\ x = ack_datagram ch seq /\
    ((exists t, looks_like (recv_buffer d) (RTunReq t) /\ tr_chan t = ch /\ tr_seq t = seq) \/
     (exists f, looks_like (recv_buffer d) (RFeature f) /\ fr_chan f = ch /\ fr_seq f = seq)).
Proof.
  intros H Hb E Sx. destruct (bg_send _ _ _ _ _ _ _ _ _ H Hb E) as [(->&_)|[(_&a'&d&ch&ep&_&_&->)|[X|(a'&l&d&ch&ep&_&_&_&_&->)]]];
    try discriminate Sx. exact X.
Qed.
Lemma response_stops c start ls tr s a d r b :
  exec c start ls tr s -> Forall bytes (arrived tr) -> bg_events tr = a ++ EvBgRecv d :: b ->
  looks_like (recv_buffer d) (RDiscResp r) -> b = [EvBgEnd].
Proof.
  intros H Hb E L.
  assert (Bd : bytes d).
  { eapply bgrecv_bytes; [exact H|exact Hb|]. rewrite E. apply in_or_app. right. left. reflexivity. }
  pose proof (dispatch_of _ _ Bd L) as D. cbn in D.
  destruct (bg_split _ _ _ _ _ _ _ _ H E) as (tr0&s0&l&s1&e1&e2&H0&Hs&Hl&Ea&(b'&->)&H1&q&Eq&sched&R).
  assert (e2 = [EvBgEnd] /\ e1 = [] /\ s_bg s1 = BEnded) as (->&->&Hg).
  { remember (e1 ++ EvBgRecv d :: e2) as es eqn:Ee.
    destruct l; try discriminate Hl; inv_step Hs;
      try (destruct e1 as [|? [|? [|]]]; discriminate Ee);
      try (match type of Ee with context [stop_events ?b] => destruct b eqn:? end;
           destruct e1 as [|? [|? [|]]]; try discriminate Ee; cbn in Ee; try injection Ee as <-; try discriminate; sys; subst; auto; congruence). }
  assert (G : bg_gone s1 = true) by (unfold bg_gone; rewrite Hg; reflexivity).
  pose proof (gone_run _ _ _ _ _ R G) as (_&Q&_).
  rewrite Eq, bg_events_app, Q, app_nil_r, bg_events_app, bg_events_stamp, Ea, app_nil_r in E. apply app_inv_head in E.
  cbn in E. injection E as <-. reflexivity.
Qed.
