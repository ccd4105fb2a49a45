(** What is bound to work: a prompt answer completes a call, and a lost
    connection can be regained. *)
From Verif Require Import Base Addresses Apdu Tunneling Emi Core Transport Wire Spec TraceSpec TraceSpec2 BaseProofs CoreProofs EmiProofs
  ResponseProofs MessageMore TransportBase TransportInv TransportConn TransportCalls TransportReturn TransportThm TransportThm2 TransportThm3
  TransportBg TransportBgThm TransportBgThm2 TransportBgThm4 TransportNotify TransportMore TransportMore2 TransportRuns.
From Coq Require Import Lia ZifyBool ZifyNat ZifyN.
Open Scope N_scope.

(** ** A call that has sent its request waits *)
Lemma waiting_state c start ls tr s t o body n2 d :
  exec c start ls tr s -> in_call t o tr body ->
  ((exists a, o = ORead a) \/ (exists a v b, o = OWrite a v b)) ->
  In (n2, EvSend (Cl t) d) body -> exists dl, s_clients s t = CWaitQ o dl.
Proof.
  intros H I Ho Hi. destruct (in_call_pc _ _ _ _ _ _ _ _ H I) as (G&n&Hh).
  assert (Hn : sends t ((n, EvInvoke t o) :: body) <> []).
  { intro F. rewrite sends_nil in F. specialize (F (n2, EvSend (Cl t) d)). cbn in F. rewrite Nat.eqb_refl in F.
    discriminate F. auto. }
  destruct (s_clients s t) as [|o1|o1 ?|o1 ? ?|o1|o1 ch|o1 bs|o1 dl|o1| |] eqn:Ep; cbn in G; try discriminate G; injection G as G; subst; cbn [hist] in Hh.
  - exfalso. apply Hn. eapply opened_sends, Hh.
  - exfalso. apply Hn. destruct Hh as (_&_&Hh). eapply opened_sends, Hh.
  - exfalso. apply Hn. destruct Hh as (_&_&Hh). eapply numbered_sends, Hh.
  - exfalso. apply Hn. destruct Hh as (_&Hh). eapply opened_sends, Hh.
  - exfalso. apply Hn. destruct Hh as (_&_&Hh). eapply opened_sends, Hh.
  - exfalso. apply Hn. eapply ready_sends, Hh.
  - eauto.
  - exfalso. destruct Hh as ([->| ->]&_); destruct Ho as [(a&Ho)|(a&v&b&Ho)]; discriminate Ho.
  - destruct Ho as [(a&Ho)|(a&v&b&Ho)]; discriminate Ho.
  - destruct Ho as [(a&Ho)|(a&v&b&Ho)]; discriminate Ho.
Qed.

(** ** Taking messages *)
Lemma read_takes c t a dl s m q :
  s_rx_alive s = true -> s_clients s t = CWaitQ (ORead a) dl -> s_rxq s = m :: q -> skip_read a m ->
  exists s', step c s (LCl t true) = Some (s', [EvDeq t m]) /\ s_rx_alive s' = true /\ s_rxq s' = q /\
    exists dl', s_clients s' t = CWaitQ (ORead a) dl'.
Proof.
  intros Ha Hp Hq Hm. cbn [step]. rewrite Ha. unfold cl_step. rewrite Hp, Hq. unfold on_message, goto.
  assert (G : forall dl', exists s', Some (set_client (set_rxq s q) t (CWaitQ (ORead a) dl'), [EvDeq t m]) = Some (s', [EvDeq t m]) /\
     s_rx_alive s' = true /\ s_rxq s' = q /\ exists dl', s_clients s' t = CWaitQ (ORead a) dl').
  { intro dl'. eexists. split; [reflexivity|]. cbn. split; [exact Ha|]. split; [reflexivity|]. exists dl'. apply upd_same. }
  destruct (ce_code m =? code_LDataCon); [apply G|]. destruct (N.eqb_spec (ce_code m) code_LDataInd) as [E|E]; [|apply G].
  destruct (Hm E) as (i&->&Hd). apply N.eqb_neq in Hd. rewrite Hd. apply G.
Qed.
Lemma stamp_one n e : stamp n [e] = [(n, e)]. Proof. reflexivity. Qed.
Lemma read_served_state c t a ms m i rest : forall s dl,
  s_rx_alive s = true -> s_clients s t = CWaitQ (ORead a) dl -> s_rxq s = ms ++ m :: rest ->
  Forall (skip_read a) ms -> ce_code m = 0x29 -> ldata_ind_from_cemi m = Ok i -> ld_dest (li_data i) = addr_to_u16 a ->
  exists s' tr', run c s (repeat (LCl t true) (S (length ms))) = Some (s', tr') /\
    evs tr' = map (EvDeq t) (ms ++ [m]) ++ [EvRet t (ORead a) (RBytes (li_value i))] /\ s_rxq s' = rest /\ s_clients s' t = CIdle.
Proof.
  induction ms as [|x ms IH]; intros s dl Ha Hp Hq Hs Hc Hi Hd.
  - cbn [length repeat run step]. rewrite Ha. unfold cl_step. rewrite Hp, Hq. cbn [app]. unfold on_message, finish.
    rewrite Hc, Hi. change (0x29 =? code_LDataCon) with false. change (0x29 =? code_LDataInd) with true. cbv iota.
    apply N.eqb_eq in Hd. rewrite Hd. eexists _, _. split; [reflexivity|]. split; [reflexivity|].
    cbn. rewrite unlock_rxq. cbn. split; [reflexivity|apply upd_same].
  - inversion Hs as [|? ? Hx Hs']; subst. cbn [app] in Hq.
    destruct (read_takes c t a dl s x _ Ha Hp Hq Hx) as (s1&E1&Ha1&Hq1&dl1&Hp1).
    destruct (IH s1 dl1 Ha1 Hp1 Hq1 Hs' Hc Hi Hd) as (s'&tr'&E&F&R).
    eexists s', _. split; [|split; [|exact R]].
    + change (repeat (LCl t true) (S (length (x :: ms)))) with (LCl t true :: repeat (LCl t true) (S (length ms))).
      cbn [run]. rewrite E1, E. reflexivity.
    + rewrite evs_app, evs_stamp, F. reflexivity.
Qed.
Lemma pending c start ls tr s ms : exec c start ls tr s -> queued tr = taken tr ++ ms -> s_rxq s = ms.
Proof. intros H E. destruct (queue_inv _ _ _ _ _ H) as (Q&_). rewrite Q in E. apply app_inv_head in E. exact E. Qed.
Lemma not_for_skip a m : bytes (ce_service m) -> not_for a m -> skip_read a m.
Proof. intros Hb Hn Hc. destruct (Hn Hc) as (i&Hi&Hd). exists i. split; [|exact Hd]. apply indication_iff; assumption. Qed.

Lemma read_served c start ls tr s t a body n2 d ms m i rest :
  exec c start ls tr s -> Forall bytes (arrived tr) -> s_rx_alive s = true ->
  in_call t (ORead a) tr body -> In (n2, EvSend (Cl t) d) body ->
  queued tr = taken tr ++ ms ++ m :: rest -> Forall (not_for a) ms ->
  is_ind m -> indication_of m i -> ld_dest (li_data i) = addr_to_u16 a ->
  exists s' tr', run c s (repeat (LCl t true) (S (length ms))) = Some (s', tr') /\
    evs tr' = map (EvDeq t) (ms ++ [m]) ++ [EvRet t (ORead a) (RBytes (li_value i))].
Proof.
  intros H Hb Ha I Hi Hq Hn Hm Hin Hd.
  destruct (waiting_state _ _ _ _ _ _ _ _ _ _ H I (or_introl (ex_intro _ a eq_refl)) Hi) as (dl&Hp).
  pose proof (pending _ _ _ _ _ _ H Hq) as Q.
  assert (B : forall x, In x (ms ++ m :: rest) -> bytes (ce_service x)).
  { intros x Hx. eapply queued_service; [exact H|exact Hb|]. rewrite Hq. apply in_or_app. auto. }
  destruct (read_served_state c t a ms m i rest s dl Ha Hp Q) as (s'&tr'&E&F&_); auto.
  - rewrite Forall_forall in *. intros x Hx. apply not_for_skip; [|apply Hn, Hx]. apply B, in_or_app. auto.
  - apply indication_iff; [|exact Hin]. apply B, in_or_app. right. left. reflexivity.
  - eauto.
Qed.
Lemma write_served c start ls tr s t a v b body n2 d m rest :
  exec c start ls tr s -> s_rx_alive s = true -> in_call t (OWrite a v b) tr body -> In (n2, EvSend (Cl t) d) body ->
  queued tr = taken tr ++ m :: rest -> is_con m ->
  exists s', step c s (LCl t true) = Some (s', [EvDeq t m; EvRet t (OWrite a v b) RUnit]).
Proof.
  intros H Ha I Hi Hq Hm.
  destruct (waiting_state _ _ _ _ _ _ _ _ _ _ H I (or_intror (ex_intro _ a (ex_intro _ v (ex_intro _ b eq_refl)))) Hi) as (dl&Hp).
  pose proof (pending _ _ _ _ _ _ H Hq) as Q. cbn [step]. rewrite Ha. unfold cl_step. rewrite Hp, Q. unfold on_message, finish.
  unfold is_con in Hm. rewrite Hm. eexists. reflexivity.
Qed.

(** ** The receive loop takes a telegram *)
Lemma frame_bytes_tunnel chan seq code is svc :
  byte chan -> byte seq -> byte code -> bytes (infos_bytes is) -> bytes svc -> (length (cemi_bytes code is svc) <= 90)%nat ->
  bytes (tunnel_datagram chan seq (cemi_bytes code is svc)).
Proof.
  intros H1 H2 H3 H4 H5 HL. unfold tunnel_datagram, frame. unfold cemi_bytes in *. rewrite !app_length in *. cbn [length] in *.
  unfold word. repeat (apply bytes_app; split); repeat (apply bytes_cons; split); try assumption; try constructor; unfold byte in *;
    try (vm_compute; reflexivity); try lia.
  all: try (apply N.mod_lt; discriminate). all: apply N.div_lt_upper_bound; lia.
Qed.
Lemma take_telegram c s chan seq code is svc js :
  byte chan -> byte seq -> byte code -> bytes (infos_bytes is) -> bytes svc -> (length (cemi_bytes code is svc) <= 90)%nat ->
  s_bg s = BRecv -> s_inbox s = [] -> s_rx_alive s = true -> (length (s_rxq s) < 100)%nat ->
  cemi_from_packet (c_prof c) (cemi_bytes code is svc) = Ok ({| ce_code := code; ce_infos := js; ce_service := svc |}, []) ->
  let d := tunnel_datagram chan seq (cemi_bytes code is svc) in
  let m := {| ce_code := code; ce_infos := js; ce_service := svc |} in
  exists s', run c s [LArrive d; LBg true; LBg true; LBg true] =
      Some (s', [(s_now s, EvArrive d); (s_now s, EvBgRecv d); (s_now s, EvSend Bg (ack_datagram chan seq)); (s_now s, EvEnq m)]) /\
    s_bg s' = BRecv /\ s_inbox s' = [] /\ s_rxq s' = s_rxq s ++ [m] /\ s_clients s' = s_clients s /\ s_tlock s' = s_tlock s /\
    s_conn s' = s_conn s /\ s_now s' = s_now s /\ s_rx_alive s' = true.
Proof.
  intros B1 B2 B3 B4 B5 L Hbg Hin Ha Hq Ed d m.
  assert (D : dispatch d = BAck chan seq (Some (cemi_bytes code is svc))).
  { assert (Bd : bytes d) by (apply frame_bytes_tunnel; assumption).
    apply (dispatch_of d (RTunReq {| tr_chan := chan; tr_seq := seq; tr_cemi := cemi_bytes code is svc |}) Bd).
    apply tunnelled_looks. lia. }
  assert (A : after_ack (c_prof c) (Some (cemi_bytes code is svc)) = BEnq m).
  { unfold after_ack, run_on. rewrite Ed. reflexivity. }
  cbn [run step]. unfold bg_step. cbn [set_inbox s_bg s_inbox]. rewrite Hbg, Hin. cbn [app].
  rewrite D. cbn [stop_events set_bg s_bg s_now s_inbox]. rewrite A. cbn [stop_events s_bg set_bg s_rx_alive set_inbox s_rxq].
  rewrite Ha. assert (Q : Nat.ltb (length (s_rxq s)) channel_cap = true) by (apply Nat.ltb_lt; exact Hq). rewrite Q.
  eexists. split; [reflexivity|]. cbn. repeat split; auto.
Qed.

(** ** From the device to the caller *)
Lemma bytes_word n : n < 65536 -> bytes (word n).
Proof. intro H. unfold word. repeat constructor; unfold byte; [apply N.div_lt_upper_bound; lia|apply N.mod_lt; discriminate]. Qed.
Lemma ldata_bytes_bytes c1 c2 src dst len apci data :
  byte c1 -> byte c2 -> src < 65536 -> dst < 65536 -> byte len -> apci < 65536 -> bytes data ->
  bytes (ldata_bytes c1 c2 src dst len apci data).
Proof.
  intros. unfold ldata_bytes. repeat (apply bytes_app; split); auto using bytes_word; repeat constructor; auto.
Qed.
Lemma infos_bytes_bytes is : Forall (fun i => known_info (fst i) /\ bytes (snd i)) is -> (length (infos_bytes is) <= 255)%nat ->
  bytes (infos_bytes is).
Proof.
  induction is as [|[ty v] is IH]; intros H L; [constructor|]. inversion H as [|? ? (K&B) H']; subst. cbn [fst snd] in *.
  change (infos_bytes ((ty, v) :: is)) with (([ty; N.of_nat (length v)] ++ v) ++ infos_bytes is) in *.
  rewrite !app_length in L. cbn [length] in L.
  repeat (apply bytes_app; split); auto; [|apply IH; auto; lia].
  constructor; [|constructor; [unfold byte; lia|constructor]].
  unfold known_info in K. unfold byte. cbn in K. lia.
Qed.
Lemma indication_parts code is c1 c2 src dst len apci data :
  indication_octets code is c1 c2 src dst len apci data ->
  bytes (infos_bytes is) /\ bytes (ldata_bytes c1 c2 src dst len apci data) /\ (length (infos_bytes is) <= 255)%nat.
Proof.
  intros (H1&H2&H3&H4&H5&H6&H7&H8&H9&L).
  assert (Li : (length (infos_bytes is) <= 255)%nat).
  { unfold cemi_bytes in L. rewrite !app_length in L. lia. }
  split; [apply infos_bytes_bytes; assumption|]. split; [apply ldata_bytes_bytes; assumption|exact Li].
Qed.
Lemma telegram_taken c s chan seq code is c1 c2 src dst len apci data :
  byte chan -> byte seq -> indication_octets code is c1 c2 src dst len apci data ->
  s_bg s = BRecv -> s_inbox s = [] -> s_rx_alive s = true -> (length (s_rxq s) < 100)%nat ->
  let svc := ldata_bytes c1 c2 src dst len apci data in
  let d := tunnel_datagram chan seq (cemi_bytes code is svc) in
  exists js s', map info_pair js = is /\
    let m := {| ce_code := code; ce_infos := js; ce_service := svc |} in
    run c s [LArrive d; LBg true; LBg true; LBg true] =
      Some (s', [(s_now s, EvArrive d); (s_now s, EvBgRecv d); (s_now s, EvSend Bg (ack_datagram chan seq)); (s_now s, EvEnq m)]) /\
    s_bg s' = BRecv /\ s_inbox s' = [] /\ s_rxq s' = s_rxq s ++ [m] /\ s_clients s' = s_clients s /\ s_tlock s' = s_tlock s /\
    s_conn s' = s_conn s /\ s_now s' = s_now s /\ s_rx_alive s' = true.
Proof.
  intros B1 B2 Hi E1 E2 E3 E4 svc d. destruct (indication_parts _ _ _ _ _ _ _ _ _ Hi) as (P1&P2&P3).
  destruct Hi as (H1&H2&H3&H4&H5&H6&H7&H8&H9&L).
  destruct (cemi_read_known (c_prof c) code is svc) as (js&Ej&Ec); [eapply Forall_impl, H2; intros ? (K&_); exact K|exact P3|].
  destruct (take_telegram c s chan seq code is svc js B1 B2 H1 P1 P2 L E1 E2 E3 E4 Ec) as (s'&R).
  exists js, s'. split; [exact Ej|exact R].
Qed.
Lemma indication_reads js code c1 c2 src dst len apci data :
  byte c1 -> byte c2 -> src < 65536 -> dst < 65536 -> byte len -> apci < 65536 -> bytes data ->
  exists i, ldata_ind_from_cemi {| ce_code := code; ce_infos := js; ce_service := ldata_bytes c1 c2 src dst len apci data |} = Ok i /\
    ld_dest (li_data i) = dst /\ ld_src (li_data i) = src /\ li_value i = short_or_long len apci data /\
    li_cemi i = {| ce_code := code; ce_infos := js; ce_service := ldata_bytes c1 c2 src dst len apci data |}.
Proof.
  intros H1 H2 H3 H4 H5 H6 H7. eexists. split.
  - apply indication_iff; [apply ldata_bytes_bytes; assumption|]. exists c1, c2, src, dst, len, apci, data. repeat split; auto.
  - repeat split.
Qed.

(** An idle connection, a read that has sent its request: the first matching
    telegram is acknowledged and its value returned. *)
Lemma read_answered c start ls tr s t a body n2 d0 chan seq is c1 c2 src len apci data :
  exec c start ls tr s -> s_rx_alive s = true -> s_bg s = BRecv -> arrived tr = consumed tr -> queued tr = taken tr ->
  in_call t (ORead a) tr body -> In (n2, EvSend (Cl t) d0) body ->
  byte chan -> byte seq -> indication_octets 0x29 is c1 c2 src (addr_to_u16 a) len apci data ->
  let d := tunnel_datagram chan seq (cemi_bytes 0x29 is (ldata_bytes c1 c2 src (addr_to_u16 a) len apci data)) in
  exists s' m, run c s [LArrive d; LBg true; LBg true; LBg true; LCl t true] =
    Some (s', stamp (s_now s) [EvArrive d; EvBgRecv d; EvSend Bg (ack_datagram chan seq); EvEnq m; EvDeq t m;
                               EvRet t (ORead a) (RBytes (short_or_long len apci data))]).
Proof.
  intros H Ha Hbg Hin Hq I Hi B1 B2 Ho d.
  destruct (waiting_state _ _ _ _ _ _ _ _ _ _ H I (or_introl (ex_intro _ a eq_refl)) Hi) as (dl&Hp).
  assert (Q : s_rxq s = []). { apply (pending _ _ _ _ _ _ H). rewrite app_nil_r. exact Hq. }
  assert (Ib : s_inbox s = []).
  { pose proof (inbox_inv _ _ _ _ _ H) as E. rewrite Hin in E. rewrite <- (app_nil_r (consumed tr)) in E at 1.
    apply app_inv_head in E. auto. }
  destruct (telegram_taken c s chan seq _ _ _ _ _ _ _ _ _ B1 B2 Ho Hbg Ib Ha) as (js&s1&Ej&R&R1&R2&R3&R4&R5&R6&R7&R8);
    [rewrite Q; cbn; lia|].
  destruct Ho as (H1&H2&H3&H4&H5&H6&H7&H8&H9&L).
  destruct (indication_reads js 0x29 c1 c2 src (addr_to_u16 a) len apci data H3 H4 H5 H6 H7 H8 H9) as (i&Ei&Ed&_&Ev&_).
  rewrite Q in R3. cbn [app] in R3.
  eexists _, _. change [LArrive d; LBg true; LBg true; LBg true; LCl t true] with ([LArrive d; LBg true; LBg true; LBg true] ++ [LCl t true]).
  rewrite run_app. subst d. rewrite R. cbn [run step]. rewrite R8. unfold cl_step. rewrite R4, Hp, R3. unfold on_message.
  cbn [ce_code]. change (0x29 =? code_LDataCon) with false. change (0x29 =? code_LDataInd) with true. cbv iota.
  rewrite Ei. apply N.eqb_eq in Ed. rewrite Ed. unfold finish. rewrite Ev, R7. reflexivity.
Qed.
Lemma idle_queue c start ls tr s : exec c start ls tr s -> arrived tr = consumed tr -> queued tr = taken tr -> s_inbox s = [] /\ s_rxq s = [].
Proof.
  intros H Hin Hq. split.
  - pose proof (inbox_inv _ _ _ _ _ H) as E. rewrite Hin in E. rewrite <- (app_nil_r (consumed tr)) in E at 1.
    apply app_inv_head in E. auto.
  - apply (pending _ _ _ _ _ _ H). rewrite app_nil_r. exact Hq.
Qed.
Lemma write_answered c start ls tr s t a v b body n2 d0 chan seq is c1 c2 src dst len apci data :
  exec c start ls tr s -> s_rx_alive s = true -> s_bg s = BRecv -> arrived tr = consumed tr -> queued tr = taken tr ->
  in_call t (OWrite a v b) tr body -> In (n2, EvSend (Cl t) d0) body ->
  byte chan -> byte seq -> indication_octets 0x2e is c1 c2 src dst len apci data ->
  let d := tunnel_datagram chan seq (cemi_bytes 0x2e is (ldata_bytes c1 c2 src dst len apci data)) in
  exists s' m, run c s [LArrive d; LBg true; LBg true; LBg true; LCl t true] =
    Some (s', stamp (s_now s) [EvArrive d; EvBgRecv d; EvSend Bg (ack_datagram chan seq); EvEnq m; EvDeq t m;
                               EvRet t (OWrite a v b) RUnit]).
Proof.
  intros H Ha Hbg Hin Hq I Hi B1 B2 Ho d.
  destruct (waiting_state _ _ _ _ _ _ _ _ _ _ H I (or_intror (ex_intro _ a (ex_intro _ v (ex_intro _ b eq_refl)))) Hi) as (dl&Hp).
  destruct (idle_queue _ _ _ _ _ H Hin Hq) as (Ib&Q).
  destruct (telegram_taken c s chan seq _ _ _ _ _ _ _ _ _ B1 B2 Ho Hbg Ib Ha) as (js&s1&Ej&R&R1&R2&R3&R4&R5&R6&R7&R8);
    [rewrite Q; cbn; lia|].
  rewrite Q in R3. cbn [app] in R3.
  eexists _, _. change [LArrive d; LBg true; LBg true; LBg true; LCl t true] with ([LArrive d; LBg true; LBg true; LBg true] ++ [LCl t true]).
  rewrite run_app. subst d. rewrite R. cbn [run step]. rewrite R8. unfold cl_step. rewrite R4, Hp, R3. unfold on_message.
  cbn [ce_code]. change (0x2e =? code_LDataCon) with true. cbv iota. unfold finish. rewrite R7. reflexivity.
Qed.
Lemma next_waiting c start ls tr s t body :
  exec c start ls tr s -> in_call t ONextMsg tr body -> s_tlock s = None -> s_rx_alive s = true ->
  exists s' dl, run c s (match s_clients s t with CLock _ => [LCl t true] | _ => [] end) = Some (s', []) /\
    s_clients s' t = CWaitQ ONextMsg dl /\ s_bg s' = s_bg s /\ s_inbox s' = s_inbox s /\ s_rxq s' = s_rxq s /\ s_now s' = s_now s /\
    s_rx_alive s' = true.
Proof.
  intros H I L Ha. destruct (in_call_pc _ _ _ _ _ _ _ _ H I) as (G&n&Hh).
  destruct (s_clients s t) as [|o1|o1 ?|o1 ? ?|o1|o1 ch|o1 bs|o1 dl|o1| |] eqn:Ep; cbn in G; try discriminate G; injection G as G; subst; cbn [hist] in Hh.
  - eexists _, _. split.
    + cbn [run step]. rewrite Ha. unfold cl_step. rewrite Ep, L. cbn [after_lock]. unfold goto. reflexivity.
    + unfold unlock. cbn. rewrite Nat.eqb_refl. cbn. rewrite upd_same. auto 10.
  - destruct Hh as (Hh&_). discriminate Hh.
  - destruct Hh as (Hh&_). discriminate Hh.
  - destruct Hh as (Hh&_). discriminate Hh.
  - destruct Hh as (Hh&_). discriminate Hh.
  - destruct Hh as [(Hh&_)|(Hh&_)]; discriminate Hh.
  - exists s, dl. cbn [run]. auto 10.
  - destruct Hh as ([Hh|Hh]&_); discriminate Hh.
Qed.
Lemma next_answered c start ls tr s t body chan seq code is c1 c2 src dst len apci data :
  exec c start ls tr s -> s_rx_alive s = true -> s_bg s = BRecv -> arrived tr = consumed tr -> queued tr = taken tr ->
  in_call t ONextMsg tr body -> s_tlock s = None ->
  byte chan -> byte seq -> indication_octets code is c1 c2 src dst len apci data -> code = 0x29 \/ code = 0x2b ->
  let d := tunnel_datagram chan seq (cemi_bytes code is (ldata_bytes c1 c2 src dst len apci data)) in
  exists sched s' m i, forallb (own t) sched = true /\
    run c s (sched ++ [LArrive d; LBg true; LBg true; LBg true; LCl t true]) =
    Some (s', stamp (s_now s) [EvArrive d; EvBgRecv d; EvSend Bg (ack_datagram chan seq); EvEnq m; EvDeq t m;
                               EvRet t ONextMsg (RInd i)]) /\
    indication_of m i /\ ld_dest (li_data i) = dst /\ ld_src (li_data i) = src /\ li_value i = short_or_long len apci data.
Proof.
  intros H Ha Hbg Hin Hq I Hl B1 B2 Ho Hc d.
  destruct (idle_queue _ _ _ _ _ H Hin Hq) as (Ib&Q).
  destruct (next_waiting _ _ _ _ _ _ _ H I Hl Ha) as (s0&dl&R0&Hp&E1&E2&E3&E4&E5).
  set (sched := match s_clients s t with CLock _ => [LCl t true] | _ => [] end) in *.
  assert (Ow : forallb (own t) sched = true).
  { subst sched. destruct (s_clients s t); try reflexivity. cbn. rewrite Nat.eqb_refl. reflexivity. }
  rewrite Hbg in E1. rewrite Ib in E2. rewrite Q in E3.
  destruct (telegram_taken c s0 chan seq _ _ _ _ _ _ _ _ _ B1 B2 Ho E1 E2 E5) as (js&s1&Ej&R&R1&R2&R3&R4&R5&R6&R7&R8);
    [rewrite E3; cbn; lia|].
  rewrite E3 in R3. cbn [app] in R3. destruct Ho as (H1&H2&H3&H4&H5&H6&H7&H8&H9&L).
  destruct (indication_reads js code c1 c2 src dst len apci data H3 H4 H5 H6 H7 H8 H9) as (i&Ei&Ed&Es&Ev&_).
  exists sched. eexists _, _, i. split; [exact Ow|]. split.
  - rewrite run_app, R0.
    change [LArrive d; LBg true; LBg true; LBg true; LCl t true] with ([LArrive d; LBg true; LBg true; LBg true] ++ [LCl t true]).
    rewrite run_app. subst d. rewrite R. cbn [run step]. rewrite R8. unfold cl_step. rewrite R4, Hp, R3. unfold on_message.
    cbn [ce_code]. assert (X : (code =? code_LDataCon) = false) by (destruct Hc; subst code; reflexivity). rewrite X.
    assert (Y : (code =? code_LDataInd) || (code =? code_LBusmonInd) = true) by (destruct Hc; subst code; reflexivity). rewrite Y.
    rewrite Ei. unfold finish. rewrite R7, E4. reflexivity.
  - split; [|auto]. apply indication_iff; [cbn; apply ldata_bytes_bytes; assumption|exact Ei].
Qed.
