(** Sessions of any length. *)
From Verif Require Import Base Addresses Apdu Tunneling Emi Core Transport Wire Spec TraceSpec TraceSpec2 SessionSpec BaseProofs
  TransportBase TransportInv TransportRuns TransportLive TransportLive2.
From Coq Require Import Lia ZifyBool ZifyNat ZifyN.
Open Scope N_scope.

Lemma run_others c u sched : forall s s' tr, run c s sched = Some (s', tr) ->
  forallb (fun l => match call_label l with Some t => negb (Nat.eqb t u) | None => true end) sched = true -> s_clients s' u = s_clients s u.
Proof.
  induction sched as [|l sched IH]; intros s s' tr R F; [injection R as <- <-; reflexivity|].
  cbn [run] in R. destruct (step c s l) as [[s1 es]|] eqn:Es; [|discriminate R].
  destruct (run c s1 sched) as [[s2 tr2]|] eqn:R2; [|discriminate R]. injection R as <- <-.
  cbn [forallb] in F. apply andb_prop in F. destruct F as (F1&F2). rewrite (IH _ _ _ R2 F2).
  destruct (bg_label l) eqn:Hb.
  - destruct (bg_frame _ _ _ _ _ Es Hb) as (_&_&_&->&_). reflexivity.
  - destruct (call_label l) as [t|] eqn:Hc.
    + destruct (call_frame _ _ _ _ _ _ Es Hc) as (_&_&_&_&_&_&G&_). apply G. intros ->. rewrite Nat.eqb_refl in F1. discriminate F1.
    + destruct (env_frame _ _ _ _ _ Es Hb Hc) as (_&_&_&_&_&->&_). reflexivity.
Qed.

(** Nothing under way, connected, the next sequence number is [n]. *)
Definition ready (s : sys) (ch : N) (ep : hpai) (n : N) : Prop :=
  s_bg s = BRecv /\ s_inbox s = [] /\ s_rxq s = [] /\ s_rx_alive s = true /\ s_tlock s = None /\ (forall t, s_clients s t = CIdle) /\
  s_conn s = Some {| cd_chan := ch; cd_ep := ep; cd_seq := n |}.
(** The call of [t] waits for an answer. *)
Definition asking (s : sys) (t : nat) (o : op) (ch : N) (ep : hpai) (n : N) : Prop :=
  s_bg s = BRecv /\ s_inbox s = [] /\ s_rxq s = [] /\ s_rx_alive s = true /\ s_tlock s = Some t /\ (exists dl, s_clients s t = CWaitQ o dl) /\
  s_conn s = Some {| cd_chan := ch; cd_ep := ep; cd_seq := n |}.

Lemma skip_telegram c s t a ch ep n y :
  asking s t (ORead a) ch ep n -> byte ch -> te_ok y -> (te_code y = 0x29 -> te_dst y <> addr_to_u16 a) ->
  exists s' m, run c s (take_labels ch t y) =
      Some (s', map (pair (s_now s)) [EvArrive (te_datagram ch y); EvBgRecv (te_datagram ch y); EvSend Bg (ack_datagram ch (te_seq y)); EvEnq m; EvDeq t m]) /\
    te_message y m /\ asking s' t (ORead a) ch ep n /\ s_now s' = s_now s.
Proof.
  intros (Hb&Hi&Hq&Ha&Hl&(dl&Hp)&Hc) Bc (Bs&Ho) Hd.
  destruct (telegram_taken c s ch (te_seq y) _ _ _ _ _ _ _ _ _ Bc Bs Ho Hb Hi Ha) as (js&s1&Ej&R&R1&R2&R3&R4&R5&R6&R7&R8); [rewrite Hq; cbn; lia|].
  rewrite Hq in R3. cbn [app] in R3. destruct Ho as (H1&H2&H3&H4&H5&H6&H7&H8&H9&L).
  destruct (indication_reads js (te_code y) _ _ _ _ _ _ _ H3 H4 H5 H6 H7 H8 H9) as (i&Ei&Ed&_&Ev&_).
  set (m := {| ce_code := te_code y; ce_infos := js; ce_service := te_service y |}).
  set (s2 := set_client (set_rxq s1 []) t (CWaitQ (ORead a) (s_now s1 + ms_api))).
  assert (G : cl_step c s1 t true = Some (s2, [EvDeq t m])).
  { unfold cl_step. rewrite R4, Hp, R3. unfold on_message. cbn [ce_code]. unfold goto. cbn [s_now set_rxq].
    destruct (te_code y =? code_LDataCon); [reflexivity|]. destruct (N.eqb_spec (te_code y) code_LDataInd) as [E|E]; [|reflexivity].
    rewrite Ei. destruct (N.eqb_spec (ld_dest (li_data i)) (addr_to_u16 a)) as [E2|E2]; [|reflexivity].
    exfalso. apply (Hd E). congruence. }
  exists s2, m. split.
  { change (take_labels ch t y) with ([LArrive (te_datagram ch y); LBg true; LBg true; LBg true] ++ [LCl t true]).
    rewrite run_app. unfold te_datagram, te_service. rewrite R. cbn [run step]. rewrite R8, G, R7. reflexivity. }
  split; [repeat split; exact Ej|]. split; [|exact R7].
  unfold asking, s2. sysb. rewrite upd_same. repeat split; try assumption; try congruence. eexists. reflexivity.
Qed.
Lemma skip_telegrams c t a ch ep n ys : forall s,
  asking s t (ORead a) ch ep n -> byte ch -> Forall (fun y => te_ok y /\ (te_code y = 0x29 -> te_dst y <> addr_to_u16 a)) ys ->
  exists s' es, run c s (concat (map (take_labels ch t) ys)) = Some (s', map (pair (s_now s)) es) /\
    taken_events ch t ys es /\ asking s' t (ORead a) ch ep n /\ s_now s' = s_now s.
Proof.
  induction ys as [|y ys IH]; intros s Hs Bc F; inversion F as [|? ? (Hy&Hd) F']; subst.
  - exists s, []. split; [reflexivity|]. split; [constructor|]. auto.
  - destruct (skip_telegram c _ _ _ _ _ _ _ Hs Bc Hy Hd) as (s1&m&R1&Hm&A1&N1).
    destruct (IH s1 A1 Bc F') as (s2&es&R2&Ht&A2&N2).
    eexists s2, (_ ++ es). cbn [map concat]. rewrite run_app, R1, R2, N1. split; [rewrite <- map_app; reflexivity|].
    split; [constructor; assumption|]. split; [exact A2|congruence].
Qed.
Lemma answer_telegram c s t o ch ep n y :
  asking s t o ch ep n -> byte ch -> te_ok y ->
  match o with ORead a => te_code y = 0x29 /\ te_dst y = addr_to_u16 a | OWrite _ _ _ => te_code y = 0x2e | _ => False end ->
  exists s' m, run c s (take_labels ch t y) =
      Some (s', map (pair (s_now s)) ([EvArrive (te_datagram ch y); EvBgRecv (te_datagram ch y); EvSend Bg (ack_datagram ch (te_seq y)); EvEnq m; EvDeq t m]
        ++ [EvRet t o (match o with ORead _ => RBytes (short_or_long (te_len y) (te_apci y) (te_data y)) | _ => RUnit end)])) /\
    te_message y m /\ s_bg s' = BRecv /\ s_inbox s' = [] /\ s_rxq s' = [] /\ s_rx_alive s' = true /\ s_tlock s' = None /\ s_clients s' t = CIdle /\
    s_conn s' = Some {| cd_chan := ch; cd_ep := ep; cd_seq := n |} /\ s_now s' = s_now s.
Proof.
  intros (Hb&Hi&Hq&Ha&Hl&(dl&Hp)&Hc) Bc (Bs&Ho) Hd.
  destruct (telegram_taken c s ch (te_seq y) _ _ _ _ _ _ _ _ _ Bc Bs Ho Hb Hi Ha) as (js&s1&Ej&R&R1&R2&R3&R4&R5&R6&R7&R8); [rewrite Hq; cbn; lia|].
  rewrite Hq in R3. cbn [app] in R3. destruct Ho as (H1&H2&H3&H4&H5&H6&H7&H8&H9&L).
  destruct (indication_reads js (te_code y) _ _ _ _ _ _ _ H3 H4 H5 H6 H7 H8 H9) as (i&Ei&Ed&_&Ev&_).
  set (m := {| ce_code := te_code y; ce_infos := js; ce_service := te_service y |}).
  set (r := match o with ORead _ => RBytes (short_or_long (te_len y) (te_apci y) (te_data y)) | _ => RUnit end).
  set (s2 := set_client (unlock (set_rxq s1 []) t) t CIdle).
  assert (G : cl_step c s1 t true = Some (s2, [EvDeq t m; EvRet t o r])).
  { unfold cl_step. rewrite R4, Hp, R3. unfold on_message. cbn [ce_code]. unfold finish. destruct o; try contradiction.
    - destruct Hd as (E&E2). rewrite E in Ei |- *. change (0x29 =? code_LDataCon) with false. change (0x29 =? code_LDataInd) with true. cbv iota.
      rewrite Ei. assert (D : ld_dest (li_data i) =? addr_to_u16 a = true) by (apply N.eqb_eq; congruence). rewrite D, Ev.
      unfold m. rewrite E. reflexivity.
    - rewrite Hd. change (0x2e =? code_LDataCon) with true. cbv iota. unfold m. rewrite Hd. reflexivity. }
  exists s2, m. split.
  { change (take_labels ch t y) with ([LArrive (te_datagram ch y); LBg true; LBg true; LBg true] ++ [LCl t true]).
    rewrite run_app. unfold te_datagram, te_service. rewrite R. cbn [run step]. rewrite R8, G, R7. reflexivity. }
  split; [repeat split; exact Ej|]. unfold s2. sysb. rewrite ?upd_same. sys. rewrite ?R5, ?Hl, ?Nat.eqb_refl. sys.
  repeat split; try assumption; try congruence.
Qed.

Lemma exchange_done c s x ch ep n :
  c_mode c = MClient -> ready s ch ep n -> byte ch -> ex_ok x ->
  exists s' es, run c s (ex_labels ch x) =
      Some (s', map (pair (s_now s + ex_pause x))
         ([EvInvoke (ex_task x) (ex_op x); EvSeq (ex_task x) n; EvSend (Cl (ex_task x)) (tunnel_datagram ch n (telegram (ex_op x)))]
          ++ es ++ [EvRet (ex_task x) (ex_op x) (ex_result x)])) /\
    taken_events ch (ex_task x) (ex_before x ++ [ex_answer x]) es /\
    ready s' ch ep ((n + 1) mod 256) /\ s_now s' = s_now s + ex_pause x.
Proof.
  intros Hm Hr Bc (Ha&Hx). set (t := ex_task x) in *. set (o := ex_op x) in *.
  assert (Ho : sendable o /\ op_mode o = MClient).
  { destruct o; try contradiction; (split; [|reflexivity]); apply Hx. }
  destruct Ho as (So&Mo).
  set (s0 := set_now s (s_now s + ex_pause x)).
  assert (Hr0 : ready s0 ch ep n) by exact Hr. destruct Hr0 as (Hb&Hi&Hq&Hv&Hl&Hc&Hn).
  destruct (call_starts c s0 t o _ Hv (Hc t) Hl Hn) as (s1&R1&P1&P2&P3&P4&P5&P6&P7&P8); [unfold cd_locked; rewrite Hb; reflexivity|exact So|congruence|].
  cbn [cd_chan cd_ep cd_seq] in *. rewrite Hm in *.
  assert (A : asking s1 t o ch ep ((n + 1) mod 256)).
  { unfold asking. rewrite P4, P5, P6. repeat split; try assumption. eexists; exact P1. }
  assert (K : exists s2 es2, run c s1 (concat (map (take_labels ch t) (ex_before x))) = Some (s2, map (pair (s_now s1)) es2) /\
            taken_events ch t (ex_before x) es2 /\ asking s2 t o ch ep ((n + 1) mod 256) /\ s_now s2 = s_now s1).
  { destruct o eqn:Eo; try contradiction.
    - apply (skip_telegrams c t a ch ep _ _ s1 A Bc). apply Hx.
    - destruct Hx as (_&->&_). exists s1, []. split; [reflexivity|]. split; [constructor|]. auto. }
  destruct K as (s2&es2&R2&T2&A2&N2).
  destruct (answer_telegram c s2 t o ch ep _ (ex_answer x) A2 Bc Ha) as (s3&m&R3&T3&Q1&Q2&Q3&Q4&Q5&Q6&Q7&Q8).
  { destruct o; try contradiction; apply Hx. }
  set (es3 := [EvArrive (te_datagram ch (ex_answer x)); EvBgRecv (te_datagram ch (ex_answer x));
               EvSend Bg (ack_datagram ch (te_seq (ex_answer x))); EvEnq m; EvDeq t m]) in *.
  assert (R : run c s (ex_labels ch x) = Some (s3, map (pair (s_now s + ex_pause x))
         ([EvInvoke t o; EvSeq t n; EvSend (Cl t) (tunnel_datagram ch n (telegram o))]
          ++ (es2 ++ es3) ++ [EvRet t o (ex_result x)]))).
  { change (ex_labels ch x) with ([LTime (ex_pause x)] ++ call4 t o ++ concat (map (take_labels ch t) (ex_before x ++ [ex_answer x]))).
    rewrite map_app, concat_app. cbn [map concat]. rewrite app_nil_r.
    rewrite run_app. cbn [run step stamp map app]. fold s0. rewrite run_app, R1, run_app, R2, R3. rewrite N2, P8. f_equal. f_equal.
    rewrite <- !app_assoc, !map_app, app_nil_r. unfold ex_result. fold o. reflexivity. }
  exists s3, (es2 ++ es3). split; [exact R|]. split.
  - clear -T2 T3. induction T2; cbn [app].
    + apply te_more with (es := []); [exact T3|constructor].
    + exact (te_more _ _ _ _ _ _ H IHT2).
  - split; [|rewrite Q8, N2, P8; reflexivity].
    unfold ready. repeat split; try assumption. intro u. destruct (Nat.eq_dec u t) as [->|Hu]; [exact Q6|].
    rewrite (run_others c u _ _ _ _ R); [apply Hc|].
    change (ex_labels ch x) with ([LTime (ex_pause x)] ++ call4 t o ++ concat (map (take_labels ch t) (ex_before x ++ [ex_answer x]))).
    assert (D : negb (Nat.eqb t u) = true) by (destruct (Nat.eqb_spec t u); [congruence|reflexivity]).
    rewrite !forallb_app. cbn [call4 repeat forallb call_label]. rewrite D. cbn [andb].
    generalize (ex_before x ++ [ex_answer x]). intro l. induction l as [|y l IH]; [reflexivity|].
    cbn [map concat]. rewrite forallb_app, IH. cbn [take_labels forallb call_label]. rewrite D. reflexivity.
Qed.

Lemma conversation_runs c ch ep xs : forall s n,
  c_mode c = MClient -> ready s ch ep n -> byte ch -> Forall ex_ok xs ->
  exists s' tr, run c s (concat (map (ex_labels ch) xs)) = Some (s', tr) /\ conversation ch (s_now s) n xs tr.
Proof.
  induction xs as [|x xs IH]; intros s n Hm Hr Bc F; inversion F as [|? ? Hx F']; subst.
  - exists s, []. split; [reflexivity|constructor].
  - destruct (exchange_done c s x ch ep n Hm Hr Bc Hx) as (s1&es&R1&T&Hr1&N1).
    destruct (IH s1 _ Hm Hr1 Bc F') as (s2&tr&R2&C). rewrite N1 in C.
    eexists s2, _. cbn [map concat]. rewrite run_app, R1, R2. split; [reflexivity|]. constructor; assumption.
Qed.
Lemma whole_session p start ls g ch ep xs :
  bytes g -> grants g ch ep -> byte ch -> Forall ex_ok xs ->
  exists s tr, run {| c_mode := MClient; c_prof := p |} (init_sys start ls)
      ([LBg true; LBg true; LArrive g; LBg true; LBg true] ++ concat (map (ex_labels ch) xs)) =
    Some (s, map (pair start) [EvSend Bg connection_datagram; EvArrive g; EvConnRecv g; EvConnected {| cd_chan := ch; cd_ep := ep; cd_seq := 0 |}] ++ tr) /\
    conversation ch start 0 xs tr.
Proof.
  intros Bg Hg Bc F. set (c := {| c_mode := MClient; c_prof := p |}).
  destruct (connects c (set_bg (init_sys start ls) BConnSend) g ch ep eq_refl eq_refl eq_refl Bg Hg) as (s1&R1&P1&P2&P3&P4&P5&P6&P7&P8).
  assert (Hr : ready s1 ch ep 0). { unfold ready. rewrite P4, P5, P6, P7. repeat split; auto. }
  destruct (conversation_runs c ch ep xs s1 0 eq_refl Hr Bc F) as (s2&tr&R2&C). rewrite P8 in C. cbn in C.
  exists s2, tr. split; [|exact C].
  change [LBg true; LBg true; LArrive g; LBg true; LBg true] with ([LBg true] ++ [LBg true; LArrive g; LBg true; LBg true]).
  rewrite <- app_assoc, run_app.
  change (run c (init_sys start ls) [LBg true]) with (Some (set_bg (init_sys start ls) BConnSend, @nil (N * event))). cbv iota beta.
  rewrite run_app, R1, R2. reflexivity.
Qed.

(** ** What a conversation says *)
Lemma results_app a b : results (a ++ b) = results a ++ results b. Proof. apply flat_map_app. Qed.
Lemma transmitted_app a b : transmitted (a ++ b) = transmitted a ++ transmitted b. Proof. apply flat_map_app. Qed.
Lemma taken_events_quiet ch t ys es now : taken_events ch t ys es ->
  results (map (pair now) es) = [] /\ transmitted (map (pair now) es) = [].
Proof.
  induction 1 as [|y ys m es _ _ (IH1&IH2)]; [split; reflexivity|]. rewrite map_app, results_app, transmitted_app, IH1, IH2. split; reflexivity.
Qed.
Lemma conversation_results ch now n xs tr : conversation ch now n xs tr ->
  results tr = map (fun x => (ex_task x, ex_op x, ex_result x)) xs.
Proof.
  induction 1 as [|now n x xs es tr T _ IH]; [reflexivity|]. rewrite results_app, IH, map_app, results_app, map_app, results_app.
  destruct (taken_events_quiet _ _ _ _ (now + ex_pause x) T) as (->&_). reflexivity.
Qed.
Fixpoint numbers (n : N) (k : nat) : list N := match k with O => [] | S k' => n :: numbers ((n + 1) mod 256) k' end.
Lemma numbers_seq k : forall n, n < 256 -> numbers n k = map (fun i => (n + N.of_nat i) mod 256) (seq 0 k).
Proof.
  induction k as [|k IH]; intros n Hn; [reflexivity|]. cbn [numbers seq map]. rewrite IH by (apply N.mod_lt; lia).
  f_equal; [rewrite N.add_0_r, N.mod_small; lia|]. rewrite <- seq_shift, map_map. apply map_ext. intro i. lia.
Qed.
Lemma service_tunnel ch seq cemi : service (tunnel_datagram ch seq cemi) = 0x0420 /\ nth 8 (tunnel_datagram ch seq cemi) 0 = seq.
Proof. split; reflexivity. Qed.
Lemma conversation_numbers ch now n xs tr : conversation ch now n xs tr -> transmitted tr = numbers n (length xs).
Proof.
  induction 1 as [|now n x xs es tr T _ IH]; [reflexivity|]. rewrite transmitted_app, IH, map_app, transmitted_app, map_app, transmitted_app.
  destruct (taken_events_quiet _ _ _ _ (now + ex_pause x) T) as (_&->). reflexivity.
Qed.
Lemma session_observed p start ls g ch ep xs :
  bytes g -> grants g ch ep -> byte ch -> Forall ex_ok xs ->
  exists s tr, run {| c_mode := MClient; c_prof := p |} (init_sys start ls)
      ([LBg true; LBg true; LArrive g; LBg true; LBg true] ++ concat (map (ex_labels ch) xs)) = Some (s, tr) /\
    results tr = map (fun x => (ex_task x, ex_op x, ex_result x)) xs /\
    transmitted tr = map (fun i => N.of_nat i mod 256) (seq 0 (length xs)).
Proof.
  intros Bg Hg Bc F. destruct (whole_session p start ls g ch ep xs Bg Hg Bc F) as (s&tr&R&C). eexists s, _. split; [exact R|].
  rewrite results_app, transmitted_app, (conversation_results _ _ _ _ _ C), (conversation_numbers _ _ _ _ _ C). split; [reflexivity|].
  rewrite numbers_seq by lia. reflexivity.
Qed.
