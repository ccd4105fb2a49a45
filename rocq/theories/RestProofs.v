(** Lemmas for PropsRest.v: what remains true of properties that are false. *)
From Coq Require Import Lia ZifyBool ZifyNat ZifyN.
From Verif Require Import Base Addresses Apdu Tunneling Emi Core Search DpTypes Transport Wire Spec TypedSpec TraceSpec TraceSpec2 LiveSpec SearchSpec PromptSpec RestSpec
  BaseProofs CoreProofs DibProofs EmiProofs ResponseProofs SearchProofs FloatProofs FloatCode FloatMore FloatBack
  TransportBase TransportInv TransportThm TransportThm2 TransportThm3 TransportMore TransportMore2 TransportBg TransportNotify TransportReads TransportLive TransportPrompt.
Open Scope N_scope.

(** ** Disconnect requests *)
Lemma disconnect_request_never bs r : parse_response bs <> Ok (RDiscReq r).
Proof.
  destruct bs as [|h1 [|h2 [|a [|b rest]]]]; try discriminate. unfold parse_response.
  destruct ((a =? 4) && (b =? 0x20)); [destruct (run_on _ _); discriminate|].
  destruct ((a =? 4) && (b =? 0x21)); [destruct (run_on _ _); discriminate|].
  destruct ((a =? 4) && (b =? 0x23)); [destruct (run_on _ _); discriminate|].
  destruct ((a =? 2) && (b =? 0x0a)); [destruct (run_on _ _); discriminate|].
  destruct ((a =? 2) && (b =? 0x08)); [destruct (run_on _ _); discriminate|].
  destruct ((a =? 2) && (b =? 0x09)) eqn:E; [|discriminate].
  assert (a = 2) by lia. assert (b = 9) by lia. subst a b.
  unfold run_on, disconnect_request_from_packet, pbind, read_u8, ensure. cbn.
  destruct (8 <=? h1); discriminate.
Qed.
Lemma disconnect_request_tail c rest :
  wf_hpai (dq_endpoint c) -> disconnect_request_from_packet (skipn 5 (disconnect_request_packet c) ++ rest) = Ok (c, rest).
Proof.
  intro H. destruct c as [chan ep]. cbn [dq_endpoint] in H.
  replace (skipn 5 _ ++ rest) with ([16; chan; 0] ++ hpai_packet ep ++ rest).
  - unfold disconnect_request_from_packet, pbind, read_u8, ensure. change ([16; chan; 0] ++ hpai_packet ep ++ rest) with (16 :: chan :: 0 :: (hpai_packet ep ++ rest)).
    cbv beta iota delta [ret fail]. change (8 <=? 16) with true. cbv iota. rewrite (hpai_roundtrip ep rest H). reflexivity.
  - destruct H as (_&_&L&_). unfold disconnect_request_packet. cbn [dq_endpoint dq_chan].
    destruct ep as [code ip port]. cbn [hp_ip] in L. destruct ip as [|i1 [|i2 [|i3 [|i4 [|]]]]]; try discriminate L. reflexivity.
Qed.

(** ** The whole range of the 2-byte float, without the gaps *)
Open Scope Z_scope.
Lemma clear_error_arith X u a : 8388608 * 1000 <= u -> 10 * Z.abs (100 * X) <= 20474 * u ->
  2 ^ 25 * Z.abs a <= 2 ^ 24 * u + 2 * Z.max (100 * Z.abs X) (2 ^ 23) -> 1000 * Z.abs a <= 501 * u.
Proof. change (2 ^ 25) with 33554432. change (2 ^ 24) with 16777216. change (2 ^ 23) with 8388608. lia. Qed.
Lemma clear_encoded p fuel k x : 0 <= k <= 15 -> clear_of_gaps k x -> (117 <= fuel)%nat ->
  exists code, float_to_bytes p fuel x = Done (word code) /\ (code < 65536)%N /\ knx_exponent code = k /\
    1000 * Z.abs (knx_hundredths code * 2 ^ 149 - 100 * f_units x) <= 501 * 2 ^ (149 + k).
Proof.
  intros K C Hf. destruct (clear_no_gap k x K C) as ((V&F&(_&O)&_)&L&U).
  destruct C as (_&_&B1&B2&B3). pose proof (product_near x V F O) as N.
  pose proof (proj2 (proj2 (clear_arith _ _ k (proj1 K) N B1 B2 B3))) as G.
  assert (U' : 2 * f_units (f_mul x (f_of_Z 100)) < 4095 * 2 ^ (149 + k)) by (clear - U; lia).
  destruct (encode_total_error p fuel x k V F Hf O L (proj2 K) U' G) as (code&E&R&X&T).
  exists code. repeat (split; [assumption|]).
  assert (Big : 2 ^ 149 <= 2 ^ (149 + k)) by (apply Z.pow_le_mono_r; lia).
  assert (H23 : 8388608 * 1000 <= 2 ^ 149) by (vm_compute; discriminate).
  refine (clear_error_arith (f_units x) (2 ^ (149 + k)) _ _ B1 T). clear - Big H23. lia.
Qed.
Lemma bands a n : 10 * a < 20482 * 2 ^ (149 + Z.of_nat n) ->
  (exists k, 0 <= k <= Z.of_nat n /\ 10 * a <= 20474 * 2 ^ (149 + k) /\ (k = 0 \/ 10241 * 2 ^ (149 + k) <= 10 * a)) \/
  (exists k, 0 <= k <= Z.of_nat n /\ 20474 * 2 ^ (149 + k) < 10 * a < 20482 * 2 ^ (149 + k)).
Proof.
  induction n as [|n IH]; intro H.
  - change (149 + Z.of_nat 0) with 149 in H. destruct (Z_le_gt_dec (10 * a) (20474 * 2 ^ 149)).
    + left. exists 0. change (149 + 0) with 149. split; [lia|]. auto.
    + right. exists 0. change (149 + 0) with 149. split; [lia|]. split; lia.
  - set (u := 2 ^ (149 + Z.of_nat (S n))) in *.
    destruct (Z_le_gt_dec (10 * a) (20474 * u)); [|right; exists (Z.of_nat (S n)); fold u; lia].
    destruct (Z_le_gt_dec (10241 * u) (10 * a)); [left; exists (Z.of_nat (S n)); fold u; lia|].
    assert (U : u = 2 * 2 ^ (149 + Z.of_nat n)).
    { unfold u. replace (149 + Z.of_nat (S n)) with (Z.succ (149 + Z.of_nat n)) by lia. apply Z.pow_succ_r. lia. }
    destruct IH as [(k&K&R)|(k&K&R)]; [rewrite U in *; lia|left; exists k; split; [lia|exact R]|right; exists k; split; [lia|exact R]].
Qed.
Lemma range_covered x : is_f32 x -> f_finite x -> -67108864 * 2 ^ 149 <= 100 * f_units x <= 67076096 * 2 ^ 149 ->
  (exists k, 0 <= k <= 15 /\ clear_of_gaps k x) \/
  (exists k, 0 <= k <= 15 /\ 20474 * 2 ^ (149 + k) < 1000 * Z.abs (f_units x) < 20482 * 2 ^ (149 + k)) \/
  - 6 * 2 ^ 149 < 1000 * f_units x < 0.
Proof.
  intros V F R. set (X := f_units x) in *.
  destruct (Z_lt_ge_dec X 0); [destruct (Z_lt_ge_dec (- 6 * 2 ^ 149) (1000 * X)); [right; right; lia|]|].
  all: destruct (bands (100 * Z.abs X) 15) as [(k&K&A&B)|(k&K&A)];
    [change (2 ^ (149 + Z.of_nat 15)) with (32768 * 2 ^ 149); lia| |right; left; exists k; split; [lia|]; lia].
  all: left; exists k; split; [lia|]; unfold clear_of_gaps; fold X; cbv zeta; split; [exact V|]; split; [exact F|];
    rewrite Z.abs_mul; change (Z.abs 100) with 100; split; [exact A|]; split; [exact B|]; lia.
Qed.
Open Scope N_scope.

(** ** A read on a quiet bus *)
Lemma quiet_read_in_time c start ls tr s t a body n2 d :
  prompt c start ls tr s -> s_rx_alive s = true -> in_call t (ORead a) tr body -> In (n2, EvSend (Cl t) d) body ->
  (forall n m, ~ In (n, EvDeq t m) body) -> s_now s <= n2 + 10000.
Proof.
  intros P A I S Q. pose proof (transfer_in_time c start ls tr s t (ORead a) body n2 d P A I) as X.
  assert (M : messages_taken t body = 0).
  { unfold messages_taken. replace (filter _ body) with (@nil (N * event)); [reflexivity|]. symmetry.
    clear - Q. induction body as [|[n e] b IH]; [reflexivity|]. cbn.
    rewrite IH by (intros n' m H; apply (Q n' m); right; exact H).
    destruct e; try reflexivity. destruct (Nat.eqb_spec t0 t) as [->|]; [|reflexivity].
    exfalso. eapply (Q n). left. reflexivity. }
  rewrite M in X. assert (T : is_transfer (ORead a)) by (cbn; eauto). specialize (X T S). lia.
Qed.

(** ** Waiting for the connection data *)
Lemma unlocked_goes_on c s t : s_rx_alive s = true -> wants_connection (s_clients s t) = true -> cd_locked s = false ->
  exists s' es, step c s (LCl t true) = Some (s', es).
Proof.
  intros A W L. cbn [step]. rewrite A. unfold cl_step. destruct (s_clients s t); try discriminate W; rewrite L;
    try (destruct (s_conn s)); try (eexists _, _; reflexivity).
  destruct (tunneling_request_packet _ _); eexists _, _; reflexivity.
Qed.
Lemma bg_run_frame c s n s' tr : run c s (repeat (LBg true) n) = Some (s', tr) -> s_clients s' = s_clients s /\ s_rx_alive s' = s_rx_alive s.
Proof.
  revert s tr. induction n as [|n IH]; intros s tr R; cbn in R.
  - injection R as <- _. auto.
  - destruct (bg_step c s true) as [[s1 es]|] eqn:E; [|discriminate].
    destruct (run c s1 (repeat (LBg true) n)) as [[s2 tr2]|] eqn:E2; [|discriminate]. injection R as <- _.
    destruct (IH _ _ E2) as (->&->). destruct (bg_frame c s (LBg true) s1 es E eq_refl) as (H1&H2&H3&H4&_). auto.
Qed.
Lemma kept_in al xs ys y : kept al xs ys -> In y ys -> In y xs.
Proof. intro K. induction K as [|x xs ys K IH|x xs ys D K IH]; cbn; intuition. Qed.
Lemma kept_length al xs ys : kept al xs ys -> (length ys <= length xs)%nat.
Proof. intro K. induction K; cbn; lia. Qed.
Lemma blocked_by_full c start ls tr s t :
  exec c start ls tr s -> s_rx_alive s = true -> wants_connection (s_clients s t) = true ->
  step c s (LCl t true) = None -> step c s (LBg true) = None ->
  exists x, In x (registered tr) /\ li_alive (s_listeners s x) = true /\ (li_cap (s_listeners s x) <= li_count (s_listeners s x))%nat.
Proof.
  intros H A W B1 B2. destruct (cd_locked s) eqn:L.
  2:{ destruct (unlocked_goes_on c s t A W L) as (s'&es&E). rewrite E in B1. discriminate. }
  destruct (roll_inv _ _ _ _ _ H) as (K&R). unfold cd_locked in L. cbn [step] in B2. unfold bg_step in B2.
  destruct (s_bg s) as [| | | | | |todo active| | | | | | | |]; try discriminate L.
  destruct R as (done&E&_). destruct todo as [|x todo]; [discriminate B2|]. exists x. split.
  - eapply kept_in; [exact K|]. rewrite E. apply in_or_app. right. left. reflexivity.
  - destruct (li_alive (s_listeners s x)); [|discriminate B2]. split; [reflexivity|].
    destruct (Nat.ltb_spec (li_count (s_listeners s x)) (li_cap (s_listeners s x))); [discriminate B2|assumption].
Qed.
Lemma room_goes_on c start ls tr s t :
  exec c start ls tr s -> s_rx_alive s = true -> wants_connection (s_clients s t) = true ->
  (forall x, In x (registered tr) -> li_alive (s_listeners s x) = true ->
     (li_count (s_listeners s x) + length (registered tr) <= li_cap (s_listeners s x))%nat) ->
  exists k s1 tr1 s2 es, (k <= S (length (registered tr)))%nat /\ run c s (repeat (LBg true) k) = Some (s1, tr1) /\
    s_clients s1 = s_clients s /\ step c s1 (LCl t true) = Some (s2, es).
Proof.
  intros H A W R. destruct (cd_locked s) eqn:L.
  2:{ destruct (unlocked_goes_on c s t A W L) as (s'&es&E). exists 0%nat, s, [], s', es. cbn [repeat run]. split; [lia|auto]. }
  destruct (roll_inv _ _ _ _ _ H) as (K&Q). unfold cd_locked in L.
  destruct (s_bg s) as [| | | | | |todo active| | | | | | | |] eqn:Hb; try discriminate L.
  destruct Q as (done&E&_).
  assert (Len : (length todo <= length (registered tr))%nat).
  { pose proof (kept_length _ _ _ K) as X. rewrite E, app_length in X. lia. }
  destruct (notify_completes c s todo active Hb) as (s1&tr1&R1&B&_).
  { apply Forall_forall. intros x Hx Ax.
    assert (Hi : In x (registered tr)) by (eapply kept_in; [exact K|]; rewrite E; apply in_or_app; auto).
    specialize (R x Hi Ax). lia. }
  destruct (bg_run_frame _ _ _ _ _ R1) as (C1&A1).
  destruct (unlocked_goes_on c s1 t) as (s2&es&E2); [congruence|rewrite C1; exact W|unfold cd_locked; rewrite B; reflexivity|].
  exists (S (length todo)), s1, tr1, s2, es. split; [lia|auto].
Qed.

(** ** Questions of other participants *)
Lemma deq_from_queue c s l s' es t m : step c s l = Some (s', es) -> In (EvDeq t m) es -> In m (s_rxq s).
Proof.
  intros Hs Hi. destruct l; inv_step Hs; cbn in Hi;
    repeat match goal with G : _ \/ _ |- _ => destruct G as [G|G]; try discriminate G end; try contradiction;
    try (match goal with G : In _ (stop_events ?b) |- _ => destruct b; cbn in G; intuition discriminate end);
    try (injection Hi as -> ->; left; reflexivity);
    try (match goal with G : EvDeq _ _ = EvDeq _ _ |- _ => injection G; intros; subst end; rewrite ?unlock_rxq in *; try (left; reflexivity));
    try match goal with E : s_rxq _ = _ |- _ => rewrite E; left; reflexivity end.
Qed.
Lemma read_of_answers c start ls tr s p n t a v q :
  exec c start ls tr s -> Forall bytes (arrived tr) -> tr = p ++ (n, EvRet t (ORead a) (RBytes v)) :: q ->
  (forall m c1 c2 src len apci data, In m (queued p) -> is_ind m -> src < 65536 -> apci < 65536 ->
     ce_service m = ldata_bytes c1 c2 src (addr_to_u16 a) len apci data -> answers apci) ->
  exists m c1 c2 src len apci data, In m (queued p) /\ is_ind m /\
    ce_service m = ldata_bytes c1 c2 src (addr_to_u16 a) len apci data /\ answers apci /\ v = short_or_long len apci data.
Proof.
  intros H B E Q. destruct (read_result _ _ _ _ _ _ _ _ _ _ _ H B E) as (n1&seq&n2&d&ms&n3&m&i&(h&n0&I&_)&Im&(c1&c2&src&dst&len&apci&data&R1&R2&R3&S&->)&D&->&_).
  cbn in D. subst dst. exists m, c1, c2, src, len, apci, data.
  assert (Hq : In m (queued p)).
  { assert (Hin : In (n3, EvDeq t m) p).
    { assert (X : In (n3, EvDeq t m) (call_events t p)).
      { rewrite I. apply in_or_app. right. right. right. right. apply in_takes. apply in_or_app. right. left. reflexivity. }
      unfold call_events in X. apply filter_In in X. apply X. }
    apply in_split in Hin. destruct Hin as (p1&p2&->). rewrite <- app_assoc in E. cbn [app] in E.
    destruct (exec_split _ _ _ _ _ _ _ _ _ H E) as (tr0&s0&l&s1&e1&e2&H0&Hs&_&->&_).
    rewrite queued_app. apply in_or_app. left. rewrite queued_app. apply in_or_app. left.
    rewrite (proj1 (queue_inv _ _ _ _ _ H0)). apply in_or_app. right.
    eapply deq_from_queue; [exact Hs|]. apply in_or_app. right. left. reflexivity. }
  split; [exact Hq|]. split; [exact Im|]. split; [exact S|]. split; [|reflexivity]. exact (Q m c1 c2 src len apci data Hq Im R1 R3 S).
Qed.
Lemma question_returned c start ls tr s t a body n2 d ms m rest c1 c2 src :
  exec c start ls tr s -> Forall bytes (arrived tr) -> s_rx_alive s = true ->
  in_call t (ORead a) tr body -> In (n2, EvSend (Cl t) d) body ->
  queued tr = taken tr ++ ms ++ m :: rest -> Forall (not_for a) ms ->
  is_ind m -> src < 65536 -> ce_service m = ldata_bytes c1 c2 src (addr_to_u16 a) 1 apci_group_read [] -> addr_to_u16 a < 65536 ->
  exists s' tr', run c s (repeat (LCl t true) (S (length ms))) = Some (s', tr') /\
    evs tr' = map (EvDeq t) (ms ++ [m]) ++ [EvRet t (ORead a) (RBytes [0])].
Proof.
  intros H B A I S Q N M Rs E Ra.
  refine (read_served c start ls tr s t a body n2 d ms m
    {| li_cemi := m; li_data := {| ld_src := src; ld_dest := addr_to_u16 a; ld_frame_type := N.testbit c1 7;
         ld_repetition := N.testbit c1 5; ld_system_broadcast := N.testbit c1 4; ld_ack_request := N.testbit c1 1 |}; li_value := [0] |}
    rest H B A I S Q N M _ eq_refl).
  exists c1, c2, src, (addr_to_u16 a), 1, apci_group_read, []. split; [exact Rs|]. split; [exact Ra|]. split; [reflexivity|]. split; [exact E|reflexivity].
Qed.

(** ** The address in a search request *)
Lemma search_names p e r x (mine : list N -> Prop) :
  wf_local (se_local e) -> search_call p e = (r, [x]) ->
  ((exists ip port, snd x = request_from ip port /\ length ip = 4%nat /\ mine ip) <-> (exists ip port, se_local e = LocalV4 ip port /\ mine ip)).
Proof.
  intros W E. destruct (search_call_sent p e r [x] x W E (or_introl eq_refl)) as (ip&port&(S1&S2&S3)&_&->). cbn [snd].
  rewrite S2 in W. destruct W as (L&_&_). split.
  - intros (ip'&port'&E1&L'&M). exists ip, port. split; [exact S2|]. replace ip with ip'; [exact M|].
    destruct ip as [|a1 [|a2 [|a3 [|a4 [|]]]]]; try discriminate L. destruct ip' as [|b1 [|b2 [|b3 [|b4 [|]]]]]; try discriminate L'.
    unfold request_from, frame, hpai_bytes in E1. cbn in E1. injection E1. intros. subst. reflexivity.
  - intros (ip'&port'&E1&M). rewrite S2 in E1. injection E1 as <- <-. eauto.
Qed.
