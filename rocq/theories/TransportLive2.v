(** Whole sessions, and recovery from any state. *)
From Verif Require Import Base Addresses Apdu Tunneling Emi Core Transport Wire Spec TraceSpec TraceSpec2 BaseProofs CoreProofs EmiProofs
  AddrProofs CodecMore ResponseProofs MessageMore TransportBase TransportInv TransportConn TransportCalls TransportReturn TransportThm TransportThm2 TransportThm3
  TransportBg TransportBgThm TransportBgThm2 TransportBgThm4 TransportNotify TransportMore TransportMore2 TransportRuns TransportLive.
From Coq Require Import Lia ZifyBool ZifyNat ZifyN.
Open Scope N_scope.

(** ** Starting a call *)
Lemma op_cemi_ok p o : sendable o -> op_cemi p o = Ok (telegram o).
Proof.
  intro H.
  assert (W : wf_op o /\ tunnel_op o = true).
  { destruct o; cbn in H |- *; try contradiction; split; try reflexivity; try exact H; destruct H as (?&?&?); split; auto; lia. }
  destruct W as (W&T).
  assert (E : exists pkt, op_cemi p o = Ok pkt).
  { unfold op_cemi, bind. destruct o as [a|a v [|]| | | |a|a v [|]| | |]; try discriminate T; cbn [op_apdu op_addr].
    1,4: eexists; reflexivity.
    1,3: destruct H as (_&_&H); destruct v as [|x v]; [exfalso; exact (H eq_refl eq_refl)|]; eexists; reflexivity.
    all: destruct H as (_&H&_); cbn [group_value_write]; unfold ldata_req_packet, tpdu_packet, t_data_group; cbn [ldata_req_new lr_tpdu tp_apdu];
      change (apdu_packet {| apdu_apci := a_group_value_write; apdu_payload := Big v |}) with ([0; 128] ++ v);
      unfold sub_chk, as_u8, lenN, u8_max1; rewrite app_length; cbn [length];
      rewrite N.mod_small by lia; destruct (N.leb_spec 1 (N.of_nat (2 + length v))); [eauto|lia]. }
  destruct E as (pkt&E). rewrite E. f_equal. eapply telegram_eq; eauto.
Qed.
Lemma call_starts c s t o cd :
  s_rx_alive s = true -> s_clients s t = CIdle -> s_tlock s = None -> s_conn s = Some cd -> cd_locked s = false ->
  sendable o -> op_mode o = c_mode c ->
  let d := tunnel_datagram (cd_chan cd) (cd_seq cd) (telegram o) in
  let cd' := {| cd_chan := cd_chan cd; cd_ep := cd_ep cd; cd_seq := (cd_seq cd + 1) mod 256 |} in
  let back := match c_mode c with MClient => [] | MMonitor => [EvRet t o RUnit] end in
  exists s', run c s (call4 t o) = Some (s', stamp (s_now s) ([EvInvoke t o; EvSeq t (cd_seq cd); EvSend (Cl t) d] ++ back)) /\
    s_clients s' t = match c_mode c with MClient => CWaitQ o (s_now s + 10000) | MMonitor => CIdle end /\
    s_tlock s' = match c_mode c with MClient => Some t | MMonitor => None end /\
    s_conn s' = Some cd' /\ s_bg s' = s_bg s /\ s_inbox s' = s_inbox s /\ s_rxq s' = s_rxq s /\ s_rx_alive s' = true /\ s_now s' = s_now s.
Proof.
  intros Ha Hp Hl Hc Hk Hs Hm d cd' back.
  assert (A : exists x, op_apdu o = Ok x).
  { pose proof (op_cemi_ok (c_prof c) o Hs) as E. unfold op_cemi, bind in E. destruct (op_apdu o); try discriminate E. eauto. }
  destruct A as (x&A).
  assert (TE : tunneling_request_packet (c_prof c) {| tr_chan := cd_chan cd; tr_seq := cd_seq cd; tr_cemi := telegram o |} = Ok d).
  { rewrite tunneling_request_frame; [reflexivity|]. cbn [tr_cemi]. unfold lenN.
    destruct o as [a|a v [|]| | | |a|a v [|]| | |]; cbn in Hs |- *; try contradiction; try lia; rewrite ?app_length; cbn [length]; lia. }
  unfold call4. cbn [run repeat step]. rewrite Ha. unfold invoke. rewrite Hp, Hm, A.
  replace (match c_mode c with MClient => match c_mode c with MClient => Some (set_client s t (CLock o), [EvInvoke t o]) | MMonitor => None end
           | MMonitor => match c_mode c with MClient => None | MMonitor => Some (set_client s t (CLock o), [EvInvoke t o]) end end)
    with (Some (set_client s t (CLock o), [EvInvoke t o])) by (destruct (c_mode c); reflexivity).
  cbn [s_rx_alive set_client]. rewrite Ha. unfold cl_step at 1. cbn [s_clients s_tlock set_client]. rewrite upd_same, Hl.
  assert (L : forall s0, after_lock c s0 t o = goto s0 t (CSeq o (telegram o)) []).
  { intro s0. unfold after_lock. rewrite (op_cemi_ok (c_prof c) o Hs). destruct o; cbn in Hs; try contradiction; reflexivity. }
  rewrite L. unfold goto at 1. cbn [s_rx_alive set_client set_tlock]. rewrite Ha. unfold cl_step at 1. sysb. rewrite upd_same.
  unfold cd_locked at 1. sysb. unfold cd_locked in Hk. rewrite Hk, Hc. unfold goto at 1. sysb. rewrite Ha. unfold cl_step at 1. sysb. rewrite upd_same.
  unfold cd_locked at 1. sysb. rewrite Hk. cbn [cd_chan]. rewrite TE. unfold goto at 1. sysb. rewrite Ha. unfold cl_step at 1. sysb. rewrite upd_same.
  cbn [send_event]. subst back. rewrite <- Hm.
  destruct o; cbn in Hs; try contradiction; cbn [op_mode]; unfold goto, finish; eexists; (split; [reflexivity|]); cbn;
    unfold unlock; cbn; rewrite ?Nat.eqb_refl; cbn; rewrite ?upd_same; auto 10.
Qed.

(** ** Connecting *)
Lemma connects c s g ch ep :
  c_mode c = MClient -> s_bg s = BConnSend -> s_inbox s = [] -> bytes g -> grants g ch ep ->
  let cd := {| cd_chan := ch; cd_ep := ep; cd_seq := 0 |} in
  exists s', run c s [LBg true; LArrive g; LBg true; LBg true] =
      Some (s', stamp (s_now s) [EvSend Bg connection_datagram; EvArrive g; EvConnRecv g; EvConnected cd]) /\
    s_bg s' = BRecv /\ s_inbox s' = [] /\ s_conn s' = Some cd /\ s_rxq s' = s_rxq s /\ s_clients s' = s_clients s /\
    s_tlock s' = s_tlock s /\ s_rx_alive s' = s_rx_alive s /\ s_now s' = s_now s.
Proof.
  intros Hm Hb Hi Bg Hg cd. destruct (grants_accept _ _ _ Bg Hg) as (r&Er&<-&<-).
  cbn [run step]. unfold bg_step. rewrite Hb. sysb. rewrite Hi. cbn [app]. rewrite Er, Hm. sysb.
  eexists. split; [rewrite <- connp_eq; reflexivity|]. cbn. unfold conn_of. rewrite ?Hm. repeat split; auto.
Qed.
Lemma monitor_connects c s g ch ep :
  c_mode c = MMonitor -> s_bg s = BConnSend -> s_inbox s = [] -> bytes g -> grants g ch ep -> s_onconn s = [] ->
  let cd := {| cd_chan := ch; cd_ep := ep; cd_seq := 1 |} in
  exists s', run c s [LBg true; LArrive g; LBg true; LBg true; LBg true; LBg true] =
      Some (s', stamp (s_now s) [EvSend Bg connection_datagram; EvArrive g; EvConnRecv g; EvSend Bg (feature_datagram ch); EvConnected cd]) /\
    s_bg s' = BRecv /\ s_inbox s' = [] /\ s_conn s' = Some cd /\ s_rxq s' = s_rxq s /\ s_clients s' = s_clients s /\
    s_tlock s' = s_tlock s /\ s_rx_alive s' = s_rx_alive s /\ s_now s' = s_now s.
Proof.
  intros Hm Hb Hi Bg Hg Ho cd. destruct (grants_accept _ _ _ Bg Hg) as (r&Er&<-&<-).
  cbn [run step]. unfold bg_step. rewrite Hb. sysb. rewrite Hi. cbn [app]. rewrite Er, Hm. sysb. rewrite Ho.
  eexists. split; [rewrite <- connp_eq; unfold feature_set_packet, feature_datagram, frame; reflexivity|].
  cbn. unfold conn_of. rewrite ?Hm. repeat split; auto.
Qed.

(** ** A complete session *)
Lemma read_session p start ls t a g ch ep seq is c1 c2 src len apci data :
  wf_addr a -> bytes g -> grants g ch ep -> byte ch -> byte seq ->
  indication_octets 0x29 is c1 c2 src (addr_to_u16 a) len apci data ->
  let d := tunnel_datagram ch seq (cemi_bytes 0x29 is (ldata_bytes c1 c2 src (addr_to_u16 a) len apci data)) in
  exists s m, run {| c_mode := MClient; c_prof := p |} (init_sys start ls)
      ([LBg true; LBg true; LArrive g; LBg true; LBg true] ++ (LInvoke t (ORead a) :: repeat (LCl t true) 4) ++
       [LArrive d; LBg true; LBg true; LBg true; LCl t true]) =
    Some (s, stamp start
      [EvSend Bg connection_datagram; EvArrive g; EvConnRecv g; EvConnected {| cd_chan := ch; cd_ep := ep; cd_seq := 0 |};
       EvInvoke t (ORead a); EvSeq t 0; EvSend (Cl t) (tunnel_datagram ch 0 (telegram (ORead a)));
       EvArrive d; EvBgRecv d; EvSend Bg (ack_datagram ch seq); EvEnq m; EvDeq t m;
       EvRet t (ORead a) (RBytes (short_or_long len apci data))]).
Proof.
  intros Wa Bg Hg B1 B2 Ho d. set (c := {| c_mode := MClient; c_prof := p |}).
  destruct (connects c (set_bg (init_sys start ls) BConnSend) g ch ep eq_refl eq_refl eq_refl Bg Hg) as (s1&R1&P1&P2&P3&P4&P5&P6&P7&P8).
  destruct (call_starts c s1 t (ORead a) {| cd_chan := ch; cd_ep := ep; cd_seq := 0 |}) as (s2&R2&Q1&Q2&Q3&Q4&Q5&Q6&Q7&Q8); [exact P7|rewrite P5; reflexivity|exact P6|exact P3| |exact Wa|reflexivity|].
  { unfold cd_locked. rewrite P1. reflexivity. }
  cbn [c c_mode] in Q1.
  destruct (telegram_taken c s2 ch seq _ _ _ _ _ _ _ _ _ B1 B2 Ho) as (js&s3&Ej&R&R3&R4&R5&R6&R7&R8&R9&R10);
    [rewrite Q4; exact P1|rewrite Q5; exact P2|exact Q7|rewrite Q6, P4; cbn; lia|].
  rewrite Q6, P4 in R5. cbn [init_sys s_rxq set_bg app] in R5. destruct Ho as (H1&H2&H3&H4&H5&H6&H7&H8&H9&L).
  destruct (indication_reads js 0x29 c1 c2 src (addr_to_u16 a) len apci data H3 H4 H5 H6 H7 H8 H9) as (i&Ei&Ed&_&Ev&_).
  eexists _, _. change [LBg true; LBg true; LArrive g; LBg true; LBg true] with ([LBg true] ++ [LBg true; LArrive g; LBg true; LBg true]).
  rewrite <- app_assoc, run_app.
  change (run c (init_sys start ls) [LBg true]) with (Some (set_bg (init_sys start ls) BConnSend, @nil (N * event))). cbv iota beta.
  rewrite run_app, R1, run_app. unfold call4 in R2. rewrite R2.
  change [LArrive d; LBg true; LBg true; LBg true; LCl t true] with ([LArrive d; LBg true; LBg true; LBg true] ++ [LCl t true]).
  rewrite run_app. subst d. rewrite R. cbn [run step]. rewrite R10. unfold cl_step. rewrite R6, Q1, R5. unfold on_message.
  cbn [ce_code]. change (0x29 =? code_LDataCon) with false. change (0x29 =? code_LDataInd) with true. cbv iota.
  rewrite Ei. apply N.eqb_eq in Ed. rewrite Ed. unfold finish. rewrite Ev, R9, Q8, P8. reflexivity.
Qed.
Lemma write_session p start ls t a v small g ch ep seq is c1 c2 src dst len apci data :
  sendable (OWrite a v small) -> bytes g -> grants g ch ep -> byte ch -> byte seq ->
  indication_octets 0x2e is c1 c2 src dst len apci data ->
  let d := tunnel_datagram ch seq (cemi_bytes 0x2e is (ldata_bytes c1 c2 src dst len apci data)) in
  exists s m, run {| c_mode := MClient; c_prof := p |} (init_sys start ls)
      ([LBg true; LBg true; LArrive g; LBg true; LBg true] ++ (LInvoke t (OWrite a v small) :: repeat (LCl t true) 4) ++
       [LArrive d; LBg true; LBg true; LBg true; LCl t true]) =
    Some (s, stamp start
      [EvSend Bg connection_datagram; EvArrive g; EvConnRecv g; EvConnected {| cd_chan := ch; cd_ep := ep; cd_seq := 0 |};
       EvInvoke t (OWrite a v small); EvSeq t 0; EvSend (Cl t) (tunnel_datagram ch 0 (telegram (OWrite a v small)));
       EvArrive d; EvBgRecv d; EvSend Bg (ack_datagram ch seq); EvEnq m; EvDeq t m;
       EvRet t (OWrite a v small) RUnit]).
Proof.
  intros Wa Bg Hg B1 B2 Ho d. set (c := {| c_mode := MClient; c_prof := p |}).
  destruct (connects c (set_bg (init_sys start ls) BConnSend) g ch ep eq_refl eq_refl eq_refl Bg Hg) as (s1&R1&P1&P2&P3&P4&P5&P6&P7&P8).
  destruct (call_starts c s1 t (OWrite a v small) {| cd_chan := ch; cd_ep := ep; cd_seq := 0 |}) as (s2&R2&Q1&Q2&Q3&Q4&Q5&Q6&Q7&Q8); [exact P7|rewrite P5; reflexivity|exact P6|exact P3| |exact Wa|reflexivity|].
  { unfold cd_locked. rewrite P1. reflexivity. }
  cbn [c c_mode] in Q1.
  destruct (telegram_taken c s2 ch seq _ _ _ _ _ _ _ _ _ B1 B2 Ho) as (js&s3&Ej&R&R3&R4&R5&R6&R7&R8&R9&R10);
    [rewrite Q4; exact P1|rewrite Q5; exact P2|exact Q7|rewrite Q6, P4; cbn; lia|].
  rewrite Q6, P4 in R5. cbn [init_sys s_rxq set_bg app] in R5.
  eexists _, _. change [LBg true; LBg true; LArrive g; LBg true; LBg true] with ([LBg true] ++ [LBg true; LArrive g; LBg true; LBg true]).
  rewrite <- app_assoc, run_app.
  change (run c (init_sys start ls) [LBg true]) with (Some (set_bg (init_sys start ls) BConnSend, @nil (N * event))). cbv iota beta.
  rewrite run_app, R1, run_app. unfold call4 in R2. rewrite R2.
  change [LArrive d; LBg true; LBg true; LBg true; LCl t true] with ([LArrive d; LBg true; LBg true; LBg true] ++ [LCl t true]).
  rewrite run_app. subst d. rewrite R. cbn [run step]. rewrite R10. unfold cl_step. rewrite R6, Q1, R5. unfold on_message.
  cbn [ce_code]. change (0x2e =? code_LDataCon) with true. cbv iota.
  unfold finish. rewrite R9, Q8, P8. reflexivity.
Qed.

(** ** C79: a dropped handle *)
Lemma clear_asks c s : s_bg s = BClear ->
  exists s', run c s [LBg true; LBg true; LBg true] = Some (s', stamp (s_now s) [EvCleared; EvSend Bg connection_datagram]).
Proof.
  intro H. set (s1 := set_bg (set_conn s None) BCheck). set (s2 := set_bg s1 BConnSend).
  assert (E1 : step c s (LBg true) = Some (s1, [EvCleared])) by (cbn [step]; unfold bg_step; rewrite H; reflexivity).
  assert (E2 : step c s1 (LBg true) = Some (s2, [])) by reflexivity.
  assert (E3 : exists s3, step c s2 (LBg true) = Some (s3, [EvSend Bg connection_datagram])).
  { rewrite <- connp_eq. eexists. reflexivity. }
  destruct E3 as (s3&E3). exists s3. cbn [run]. rewrite E1, E2, E3. reflexivity.
Qed.
Lemma dropped_clears c s chan seq x m :
  s_rx_alive s = false -> s_bg s = BAck chan seq (Some x) -> after_ack (c_prof c) (Some x) = BEnq m ->
  exists s', run c s [LBg true; LBg true] = Some (s', stamp (s_now s) [EvSend Bg (ack_datagram chan seq)]) /\
    s_bg s' = BClear /\ s_now s' = s_now s.
Proof.
  intros Ha Hb A. set (s1 := set_bg s (BEnq m)).
  assert (E1 : step c s (LBg true) = Some (s1, [EvSend Bg (ack_datagram chan seq)])).
  { cbn [step]. unfold bg_step. rewrite Hb, A. reflexivity. }
  assert (E2 : step c s1 (LBg true) = Some (set_bg s1 BClear, [])).
  { cbn [step]. unfold bg_step, s1. sysb. rewrite Ha. reflexivity. }
  exists (set_bg s1 BClear). cbn [run]. rewrite E1, E2. split; [reflexivity|]. split; reflexivity.
Qed.
Lemma dropped_reconnects c start ls tr s chan seq code is c1 c2 src dst len apci data :
  exec c start ls tr s -> s_rx_alive s = false -> s_bg s = BRecv -> s_inbox s = [] ->
  byte chan -> byte seq -> indication_octets code is c1 c2 src dst len apci data ->
  let d := tunnel_datagram chan seq (cemi_bytes code is (ldata_bytes c1 c2 src dst len apci data)) in
  exists s', run c s (LArrive d :: repeat (LBg true) 6) =
    Some (s', stamp (s_now s) [EvArrive d; EvBgRecv d; EvSend Bg (ack_datagram chan seq); EvCleared; EvSend Bg connection_datagram]).
Proof.
  intros _ Ha Hbg Hin B1 B2 Hi d. destruct (indication_parts _ _ _ _ _ _ _ _ _ Hi) as (P1&P2&P3).
  destruct Hi as (H1&H2&H3&H4&H5&H6&H7&H8&H9&L). set (svc := ldata_bytes c1 c2 src dst len apci data) in *.
  destruct (cemi_read_known (c_prof c) code is svc) as (js&Ej&Ec); [eapply Forall_impl, H2; intros ? (K&_); exact K|exact P3|].
  assert (D : dispatch d = BAck chan seq (Some (cemi_bytes code is svc))).
  { assert (Bd : bytes d) by (apply frame_bytes_tunnel; assumption).
    apply (dispatch_of d (RTunReq {| tr_chan := chan; tr_seq := seq; tr_cemi := cemi_bytes code is svc |}) Bd).
    apply tunnelled_looks. lia. }
  assert (A : after_ack (c_prof c) (Some (cemi_bytes code is svc)) = BEnq {| ce_code := code; ce_infos := js; ce_service := svc |}).
  { unfold after_ack, run_on. rewrite Ec. reflexivity. }
  clearbody d svc. set (s1 := set_inbox s [d]). set (s2 := set_bg (set_inbox s1 []) (BAck chan seq (Some (cemi_bytes code is svc)))).
  assert (E1 : step c s (LArrive d) = Some (s1, [EvArrive d])) by (cbn [step]; rewrite Hin; reflexivity).
  assert (E2 : step c s1 (LBg true) = Some (s2, [EvBgRecv d])).
  { cbn [step]. unfold bg_step, s1. sysb. rewrite Hbg, D. reflexivity. }
  destruct (dropped_clears c s2 chan seq (cemi_bytes code is svc) _ Ha eq_refl A) as (s3&R3&B3&N3).
  destruct (clear_asks c s3 B3) as (s4&R4). exists s4.
  change (LArrive d :: repeat (LBg true) 6) with ([LArrive d; LBg true] ++ [LBg true; LBg true] ++ [LBg true; LBg true; LBg true]).
  rewrite run_app. cbn [run]. rewrite E1, E2. rewrite run_app, R3, R4, N3. reflexivity.
Qed.
