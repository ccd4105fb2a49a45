(** What the background task did last, at each of its suspension points. *)
From Verif Require Import Base Addresses Apdu Tunneling Emi Core Transport Wire Spec TraceSpec
  TransportBase TransportInv TransportConn.
From Coq Require Import Lia ZifyBool ZifyNat ZifyN.
Open Scope N_scope.

Definition connp : list N := connection_request_packet connection_request_tunnel.
Definition featp (ch : N) : list N :=
  feature_set_packet {| fs_feature := InfoServiceEnable; fs_value := 1; fs_chan := ch; fs_seq := 0 |}.
Definition ackp (ch seq : N) : list N := tunneling_ack_packet {| ta_chan := ch; ta_seq := seq; ta_status := 0 |}.
Definition statep (ch : N) (ep : hpai) : list N := connstate_request_packet {| sq_chan := ch; sq_endpoint := ep |}.

(** [h]: the background events, most recent first. *)
Definition at_check (c : cfg) (h : list event) : Prop :=
  h = [] \/ (exists h', h = EvCleared :: h') \/
  (c_mode c = MMonitor /\ exists ch h', h = EvSendFail Bg (featp ch) :: h').
Definition at_retry (h : list event) : Prop :=
  (exists d h', h = EvConnRecv d :: h' /\ accept_connection d = None) \/
  (exists h', h = EvSend Bg connp :: h') \/ (exists h', h = EvSendFail Bg connp :: h').
Definition at_recv (c : cfg) (h : list event) : Prop :=
  (exists cd h', h = EvConnected cd :: h') \/ (exists l h', h = EvNotify l :: h') \/
  (exists m h', h = EvEnq m :: h') \/
  (exists d h', h = EvBgRecv d :: h' /\ dispatch d = BRecv) \/
  (exists d ch seq k h', h = EvSend Bg (ackp ch seq) :: EvBgRecv d :: h' /\ dispatch d = BAck ch seq k /\
     after_ack (c_prof c) k = BRecv) \/
  (exists ch ep h', h = EvSend Bg (statep ch ep) :: EvTick :: h') \/
  (exists ch ep m h', h = EvSend Bg (statep ch ep) :: EvLost m :: EvTick :: h').
Definition at_enq (c : cfg) (h : list event) (m : cemi) : Prop :=
  exists d ch seq bs h', h = EvSend Bg (ackp ch seq) :: EvBgRecv d :: h' /\ dispatch d = BAck ch seq (Some bs) /\
    run_on (cemi_from_packet (c_prof c)) bs = Ok m.

Definition bg_ok (c : cfg) (h : list event) (alive : bool) (b : bg_pc) : Prop :=
  match b with
  | BCheck => at_check c h
  | BConnSend => at_check c h \/ at_retry h
  | BConnWait _ => exists h', h = EvSend Bg connp :: h'
  | BConnSleep _ => at_retry h
  | BMonEnable r => c_mode c = MMonitor /\ exists d h', h = EvConnRecv d :: h' /\ accept_connection d = Some r
  | BStore r => exists d h', accept_connection d = Some r /\
      ((c_mode c = MClient /\ h = EvConnRecv d :: h') \/
       (c_mode c = MMonitor /\ h = EvSend Bg (featp (cr_chan r)) :: EvConnRecv d :: h'))
  | BNotify todo active => c_mode c = MMonitor /\ exists cd h', h = rev (map EvNotify active) ++ EvConnected cd :: h'
  | BRecv => at_recv c h
  | BAck ch seq k => exists d h', h = EvBgRecv d :: h' /\ dispatch d = BAck ch seq k
  | BEnq m => at_enq c h m
  | BDiscSend r => exists d h', h = EvBgRecv d :: h' /\ dispatch d = BDiscSend r
  | BBeat => exists h', h = EvTick :: h' \/ exists m, h = EvLost m :: EvTick :: h'
  | BClear =>
      at_recv c h \/ (exists d h', h = EvBgRecv d :: h' /\ dispatch d = BClear) \/
      (exists d ch seq k h', h = EvSendFail Bg (ackp ch seq) :: EvBgRecv d :: h' /\ dispatch d = BAck ch seq k) \/
      (exists ch ep h', h = EvSendFail Bg (statep ch ep) :: EvTick :: h') \/
      (exists ch ep m h', h = EvSendFail Bg (statep ch ep) :: EvLost m :: EvTick :: h') \/
      (alive = false /\ exists m, at_enq c h m)
  | BEnded =>
      (exists d h', h = EvBgEnd :: EvBgRecv d :: h' /\ dispatch d = BEnded) \/
      (exists e d r h', h = EvBgEnd :: e :: EvBgRecv d :: h' /\ dispatch d = BDiscSend r)
  | BPanicked =>
      (exists d h', h = EvBgPanic :: EvBgRecv d :: h' /\ dispatch d = BPanicked) \/
      (exists d ch seq k h', h = EvBgPanic :: EvSend Bg (ackp ch seq) :: EvBgRecv d :: h' /\
         dispatch d = BAck ch seq k /\ after_ack (c_prof c) k = BPanicked)
  end.

Lemma dispatch_shape d b : dispatch d = b ->
  match b with BRecv | BAck _ _ _ | BClear | BEnded | BPanicked | BDiscSend _ => True | _ => False end.
Proof.
  intros <-. unfold dispatch. destruct d; [exact I|]. destruct (parse_response _) as [[]| |]; try exact I.
  destruct (_ =? _); exact I.
Qed.
Lemma after_ack_shape p k b : after_ack p k = b -> match b with BRecv | BEnq _ | BPanicked => True | _ => False end.
Proof. intros <-. unfold after_ack. destruct k; [destruct (run_on _ _)|]; exact I. Qed.
Lemma bg_ok_alive c h b alive : bg_ok c h true b -> bg_ok c h alive b.
Proof. destruct b; auto. cbn. intros [H|[H|[H|[H|[H|[D _]]]]]]; auto 6. discriminate. Qed.
Lemma bg_ok_recv_clear c h alive : bg_ok c h alive BRecv -> bg_ok c h alive BClear.
Proof. left. assumption. Qed.

Lemma bg_hist c start ls tr s :
  exec c start ls tr s -> bg_ok c (rev (bg_events tr)) (s_rx_alive s) (s_bg s).
Proof.
  intro H. pattern tr, s. revert tr s H. apply exec_inv; [left; reflexivity|].
  intros tr s l s' es H IH Hs. rewrite bg_events_app, bg_events_stamp.
  destruct (bg_label l) eqn:Hb.
  - pose proof (conn_inv _ _ _ _ _ H) as Hci.
    rewrite (step_bg_events_all _ _ _ _ _ Hs Hb), rev_app_distr.
    set (h := rev (bg_events tr)) in *. clearbody h. clear H.
    destruct (bg_frame _ _ _ _ _ Hs Hb) as (_&->&_).
    destruct l; try discriminate Hb; inv_step Hs; sys;
      repeat match goal with E : s_bg s = _ |- _ => rewrite E in *; clear E end; cbn [bg_ok] in IH; cbn [rev app].
    all: try (exfalso; cbn [connecting] in Hci; intuition discriminate).
    all: try (cbn [bg_ok]; auto; fail).
    + eexists; reflexivity.
    + right. right. eexists; reflexivity.
    + eexists _, _. split; [eassumption|]. auto.
    + split; [assumption|]. eauto.
    + left. eauto.
    + destruct IH as (Hm&d&h'&->&Ha). exists d, h'. split; [exact Ha|]. auto.
    + right. right. destruct IH as (Hm&_). split; [exact Hm|]. eexists _, _. reflexivity.
    + left. eauto.
    + split; [assumption|]. eexists _, _. reflexivity.
    + destruct IH as (Hm&cd&h'&->). cbn [bg_ok]. destruct active as [|x active] using rev_ind.
      * left. cbn. eauto.
      * right. left. rewrite map_app, rev_app_distr. cbn. eauto.
    + destruct IH as (Hm&cd&h'&->). split; [exact Hm|]. exists cd, h'. rewrite map_app, rev_app_distr. reflexivity.
    + destruct (dispatch l) eqn:Ed; cbn [stop_events rev app]; try (exfalso; exact (dispatch_shape _ _ Ed)).
      * right. right. right. left. eauto.
      * cbn. eauto.
      * cbn. eauto.
      * right. left. eauto.
      * left. eauto.
      * left. eauto.
    + destruct IH as (d&h'&->&Hd). destruct (after_ack (c_prof c) k) eqn:Ek; cbn [stop_events rev app];
        try (exfalso; exact (after_ack_shape _ _ _ Ek)).
      * right. right. right. right. left. exists d, chan, seq, k, h'. auto.
      * destruct k as [bs|]; [|discriminate Ek]. cbn in Ek. destruct (run_on (cemi_from_packet (c_prof c)) bs) eqn:Er; try discriminate Ek.
        injection Ek as ->. exists d, chan, seq, bs, h'. auto.
      * right. exists d, chan, seq, k, h'. auto.
    + destruct IH as (d&h'&->&Hd). right. right. left. exists d, chan, seq, k, h'. auto.
    + right. right. left. eauto.
    + right. right. right. right. right. eauto.
    + destruct IH as (d&h'&->&Hd). right. eexists _, _, _, _. split; [reflexivity|exact Hd].
    + destruct IH as (d&h'&->&Hd). right. eexists _, _, _, _. split; [reflexivity|exact Hd].
    + destruct IH as (h'&[->|(m&->)]); [do 5 right; left|do 6 right]; eexists _, _, _; [|eexists]; reflexivity.
    + destruct IH as (h'&[->|(m&->)]); [do 3 right; left|do 4 right; left]; eexists _, _, _; [|eexists]; reflexivity.
    + right. left. eauto.
    + right. left. exact IH.
    + right. left. exact IH.
    + eexists. left. reflexivity.
    + eexists. left. reflexivity.
    + eexists. right. eexists. reflexivity.
    + eexists. left. reflexivity.
  - rewrite (step_bg_events _ _ _ _ _ Hs Hb), app_nil_r.
    destruct (call_label l) as [t|] eqn:Hl.
    + destruct (call_frame _ _ _ _ _ _ Hs Hl) as (_&E1&->&->&_). rewrite E1 in IH. exact IH.
    + destruct (env_frame _ _ _ _ _ Hs Hb Hl) as (_&_&->&_).
      destruct (s_rx_alive s) eqn:Ea; [apply bg_ok_alive, IH|].
      destruct l; try discriminate Hb; try discriminate Hl; inv_step Hs; sys; rewrite ?Ea; exact IH.
Qed.
