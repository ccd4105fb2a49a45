(** Lemmas about the datagram dispatcher and the receive buffer. *)
From Verif Require Import Base Wire Spec BaseProofs Addresses Apdu Emi Tunneling Core CoreProofs EmiProofs Transport.
Open Scope N_scope.

Lemma rmap_ok {A B} (f : A -> B) x y : rmap f x = Ok y <-> exists a, x = Ok a /\ f a = y.
Proof.
  destruct x; cbn; split; try discriminate; try (intros (a0 & E & _); discriminate).
  - intro H. injection H. eauto.
  - intros (a0 & E & <-). injection E as ->. reflexivity.
Qed.
Lemma rmap_panic {A B} (f : A -> B) x : rmap f x = Panic <-> x = Panic.
Proof. destruct x; cbn; split; congruence. Qed.

(** Dispatch by the two service octets. *)
Lemma parse_response_dispatch h1 h2 a b rest :
  let bs := h1 :: h2 :: a :: b :: rest in
  a < 256 -> b < 256 ->
  parse_response bs =
  match a * 256 + b with
  | 0x0420 => rmap RTunReq (run_on tunneling_request_from_packet bs)
  | 0x0421 => rmap RTunAck (run_on tunneling_ack_from_packet bs)
  | 0x0423 => rmap RFeature (run_on feature_resp_from_packet bs)
  | 0x020a => rmap RDiscResp (run_on disconnect_response_from_packet bs)
  | 0x0208 => rmap RConnState (run_on connstate_response_from_packet bs)
  | _ => Err
  end.
Proof.
  intros bs Ha Hb. unfold bs, parse_response.
  assert (D : forall x y, x < 256 -> y < 256 -> (a =? x) && (b =? y) = (a * 256 + b =? x * 256 + y)).
  { intros x y Hx Hy. destruct (N.eqb_spec (a * 256 + b) (x * 256 + y)); lia. }
  rewrite !D by lia. clear D.
  set (s := a * 256 + b).
  change (4 * 256 + 32) with 0x0420. change (4 * 256 + 33) with 0x0421. change (4 * 256 + 35) with 0x0423.
  change (2 * 256 + 10) with 0x020a. change (2 * 256 + 8) with 0x0208. change (2 * 256 + 9) with 0x0209.
  destruct (N.eqb_spec s 0x0420) as [->|N1]; [reflexivity|].
  destruct (N.eqb_spec s 0x0421) as [->|N2]; [reflexivity|].
  destruct (N.eqb_spec s 0x0423) as [->|N3]; [reflexivity|].
  destruct (N.eqb_spec s 0x020a) as [->|N4]; [reflexivity|].
  destruct (N.eqb_spec s 0x0208) as [->|N5]; [reflexivity|].
  destruct (N.eqb_spec s 0x0209) as [E6|N6].
  { assert (a = 2 /\ b = 9) as [-> ->] by (unfold s in E6; lia). rewrite E6.
    unfold run_on. rewrite disconnect_request_0209_rejected. reflexivity. }
  repeat match goal with |- context [match ?x with _ => _ end] => is_var x; destruct x; try congruence end.
Qed.

Lemma parse_short bs : (length bs < 4)%nat -> parse_response bs = Err.
Proof. destruct bs as [|? [|? [|? [|? ?]]]]; cbn [length]; intro; try reflexivity; lia. Qed.

Lemma parse_code bs h1 h2 x rest : bytes bs -> x < 65536 -> bs = [h1; h2] ++ word x ++ rest ->
  exists a b r, bs = h1 :: h2 :: a :: b :: r /\ a < 256 /\ b < 256 /\ a * 256 + b = x.
Proof.
  intros Hb Hx ->. unfold word in *. cbn [app] in *. rewrite !bytes_cons in Hb.
  do 3 eexists. split; [reflexivity|]. lia.
Qed.

Lemma code_match_inj (A : Type) (s : N) (f1 f2 f3 f4 f5 d : A) (P : A -> Prop) :
  P (match s with 0x0420 => f1 | 0x0421 => f2 | 0x0423 => f3 | 0x020a => f4 | 0x0208 => f5 | _ => d end) ->
  (s = 0x0420 /\ P f1) \/ (s = 0x0421 /\ P f2) \/ (s = 0x0423 /\ P f3) \/ (s = 0x020a /\ P f4) \/
  (s = 0x0208 /\ P f5) \/
  (s <> 0x0420 /\ s <> 0x0421 /\ s <> 0x0423 /\ s <> 0x020a /\ s <> 0x0208 /\ P d).
Proof.
  intro H.
  destruct (N.eq_dec s 0x0420) as [->|N1]; [auto|].
  destruct (N.eq_dec s 0x0421) as [->|N2]; [auto|].
  destruct (N.eq_dec s 0x0423) as [->|N3]; [auto|].
  destruct (N.eq_dec s 0x020a) as [->|N4]; [auto 10|].
  destruct (N.eq_dec s 0x0208) as [->|N5]; [auto 10|].
  do 5 right. repeat split; auto.
  revert H. repeat match goal with |- context [match ?x with _ => _ end] => is_var x; destruct x; try congruence end; auto.
Qed.


Lemma parse_response_sound bs r : bytes bs -> parse_response bs = Ok r -> looks_like bs r.
Proof.
  intros Hb H.
  destruct bs as [|h1 [|h2 [|a [|b rest]]]]; try discriminate.
  assert (Ha : a < 256 /\ b < 256) by (rewrite !bytes_cons in Hb; tauto).
  rewrite parse_response_dispatch in H by tauto.
  apply (code_match_inj _ _ _ _ _ _ _ _ (fun x => x = Ok r)) in H.
  destruct H as [[E H]|[[E H]|[[E H]|[[E H]|[[E H]|(_ & _ & _ & _ & _ & H)]]]]]; [..|discriminate];
  apply rmap_ok in H; destruct H as (x & H & <-); apply run_on_ok in H; destruct H as (r' & H).
  - apply tunneling_request_decode_iff in H; auto. destruct H as (size & pad & tail & Hs & -> & Hc & _).
    exists size, pad, tail. split; [exact Hs|]. split; [reflexivity|].
    rewrite Hc. unfold take_padded. replace (N.to_nat (size - 10)) with (N.to_nat size - 10)%nat by lia. reflexivity.
  - apply tunneling_ack_decode_iff in H; auto. rewrite H. eexists; reflexivity.
  - apply feature_resp_decode_iff in H; auto. destruct H as [y ->]. do 3 eexists. split; reflexivity.
  - apply disconnect_response_decode_iff in H; auto. rewrite H. eexists; reflexivity.
  - apply connstate_response_decode_iff in H; auto. rewrite H. eexists; reflexivity.
Qed.
Lemma parse_response_complete bs r : bytes bs -> looks_like bs r -> parse_response bs = Ok r.
Proof.
  intros Hb H. destruct r as [t|t|t|t|t|t]; cbn [looks_like] in H.
  - destruct H as (size & pad & tail & Hs & E & Hc).
    destruct (parse_code bs 6 16 0x0420 _ Hb eq_refl E) as (a & b & r & Eb & H1 & H2 & H3).
    rewrite Eb, parse_response_dispatch, <- Eb, H3 by assumption. apply rmap_ok. exists t. split; [|reflexivity].
    apply run_on_ok. eexists. apply tunneling_request_decode_iff; [assumption|].
    exists size, pad, tail. split; [assumption|]. split; [assumption|]. split; [|reflexivity].
    rewrite Hc. unfold take_padded. replace (N.to_nat (size - 10)) with (N.to_nat size - 10)%nat by lia. reflexivity.
  - destruct H as (rest & E). rewrite E. destruct t. reflexivity.
  - destruct H as (rest & x & y & Ey & E).
    destruct (parse_code bs 6 16 0x0423 (word 0x0d ++ [4; fr_chan t; fr_seq t; x; y; fr_status t; fr_value t] ++ rest) Hb eq_refl E) as (a & b & r & Eb & H1 & H2 & H3).
    rewrite Eb, parse_response_dispatch, <- Eb, H3 by assumption. apply rmap_ok. exists t. split; [|reflexivity].
    apply run_on_ok. eexists. apply feature_resp_decode_iff; [assumption|]. subst y. eauto.
  - destruct H as (rest & E). rewrite E. destruct t. reflexivity.
  - destruct H as (rest & E). rewrite E. destruct t. reflexivity.
  - destruct H.
Qed.

(** ** Panics *)
Lemma tunneling_request_panic_iff bs :
  bytes bs ->
  (tunneling_request_from_packet bs = Panic <->
   exists size chan seq pad rest, size < 10 /\
     bs = [0x06; 0x10] ++ word 0x0420 ++ word size ++ [4; chan; seq; pad] ++ rest).
Proof.
  intro Hb. split.
  - intro H. unfold tunneling_request_from_packet in H.
    unfold pbind at 1 in H.
    destruct (verify_header bs) as [[u r]| |] eqn:V; [|discriminate|destruct (np_verify_header _ V)].
    apply verify_header_ok in V. subst bs. rewrite !bytes_cons in Hb. destruct Hb as (_ & _ & Hb).
    unfold pbind at 1 in H.
    destruct (read_u16 r) as [[code r1]| |] eqn:R; [|discriminate|destruct (np_u16 _ R)].
    apply read_u16_ok in R; [|assumption]. destruct R as [Hc ->]. apply bytes_app in Hb. destruct Hb as [_ Hb].
    unfold pbind at 1, ensure at 1 in H. destruct (N.eqb_spec code 0x0420) as [->|]; [|discriminate].
    unfold pbind at 1 in H.
    destruct (read_u16 r1) as [[size r2]| |] eqn:R; [|discriminate|destruct (np_u16 _ R)].
    apply read_u16_ok in R; [|assumption]. destruct R as [Hs ->].
    destruct r2 as [|x1 r2]; [discriminate|]. unfold pbind at 1 in H. cbn [read_u8] in H.
    unfold pbind at 1, ensure at 1 in H. destruct (N.eqb_spec x1 4) as [->|]; [|discriminate].
    destruct r2 as [|x2 r2]; [discriminate|]. unfold pbind at 1 in H. cbn [read_u8] in H.
    destruct r2 as [|x3 r2]; [discriminate|]. unfold pbind at 1 in H. cbn [read_u8] in H.
    destruct r2 as [|x4 r2]; [discriminate|]. unfold pbind at 1 in H. cbn [read_u8] in H.
    unfold pbind at 1, lift, cemi_len in H. destruct (N.leb_spec 10 size); [discriminate|].
    exists size, x2, x3, x4, r2. split; [assumption|]. reflexivity.
  - intros (size & chan & seq & pad & rest & Hs & ->).
    unfold tunneling_request_from_packet, pbind, verify_header, pbind. pgo.
    unfold lift, cemi_len. replace (10 <=? size) with false by lia. reflexivity.
Qed.
Lemma parse_response_panic_iff bs :
  bytes bs ->
  (parse_response bs = Panic <->
   exists size chan seq pad rest, size < 10 /\
     bs = [0x06; 0x10] ++ word 0x0420 ++ word size ++ [4; chan; seq; pad] ++ rest).
Proof.
  intro Hb. rewrite <- tunneling_request_panic_iff by assumption. split.
  - intro H. destruct bs as [|h1 [|h2 [|a [|b rest]]]]; try discriminate.
    assert (Ha : a < 256 /\ b < 256) by (rewrite !bytes_cons in Hb; tauto).
    rewrite parse_response_dispatch in H by tauto.
    apply (code_match_inj _ _ _ _ _ _ _ _ (fun x => x = Panic)) in H.
    destruct H as [[E H]|[[E H]|[[E H]|[[E H]|[[E H]|(_ & _ & _ & _ & _ & H)]]]]]; [..|discriminate];
    apply rmap_panic, run_on_panic in H.
    + exact H.
    + destruct (np_tunneling_ack _ H).
    + destruct (np_feature_resp _ H).
    + destruct (np_disconnect_response _ H).
    + destruct (np_connstate_response _ H).
  - intro H. pose proof H as H0. apply tunneling_request_panic_iff in H0; [|assumption].
    destruct H0 as (size & chan & seq & pad & rest & Hs & E).
    destruct (parse_code bs 6 16 0x0420 _ Hb eq_refl E) as (a & b & r & Eb & H1 & H2 & H3).
    rewrite Eb, parse_response_dispatch, <- Eb, H3 by assumption.
    apply rmap_panic, run_on_panic, H.
Qed.

(** ** The receive buffer *)
Lemma recv_buffer_pad d : (length d <= 100)%nat -> recv_buffer d = d ++ repeat 0 (100 - length d).
Proof. intro H. unfold recv_buffer. rewrite firstn_all2 by assumption. reflexivity. Qed.
Lemma recv_buffer_length d : length (recv_buffer d) = 100%nat.
Proof. unfold recv_buffer. rewrite app_length, firstn_length, repeat_length. lia. Qed.
Lemma recv_buffer_bytes d : bytes d -> bytes (recv_buffer d).
Proof. intro H. unfold recv_buffer. apply bytes_app. split; [apply bytes_firstn, H|apply bytes_zeros]. Qed.

Lemma repeat_firstn k n : firstn n (repeat 0 k) = repeat 0 (Nat.min n k).
Proof. revert k. induction n; destruct k; cbn; auto. f_equal. apply IHn. Qed.
(** Zero filling in the buffer and in the decoder is the same filling. *)
Lemma take_padded_zeros n (d : list N) k : take_padded n (d ++ repeat 0 k) = take_padded n d.
Proof.
  unfold take_padded. rewrite firstn_app, <- app_assoc. f_equal.
  rewrite repeat_firstn, app_length, repeat_length, <- repeat_app. f_equal. lia.
Qed.

(** A datagram that decodes also decodes with zeros behind it, to the same value. *)
Lemma parse_padded d k r :
  bytes d -> parse_response d = Ok r -> parse_response (d ++ repeat 0 k) = Ok r.
Proof.
  intros Hb H. apply parse_response_sound in H; [|assumption].
  apply parse_response_complete; [apply bytes_app; split; [assumption|apply bytes_zeros]|].
  destruct r as [t|t|t|t|t|t]; cbn [looks_like] in *.
  - destruct H as (size & pad & tail & Hs & -> & Hc).
    exists size, pad, (tail ++ repeat 0 k). split; [assumption|]. split; [rewrite <- !app_assoc; reflexivity|].
    rewrite Hc. symmetry. apply (take_padded_zeros (N.to_nat size - 10) tail k).
  - destruct H as (rest & ->). exists (rest ++ repeat 0 k). rewrite <- app_assoc. reflexivity.
  - destruct H as (rest & x & y & Ey & ->). exists (rest ++ repeat 0 k), x, y. split; [assumption|]. rewrite <- app_assoc. reflexivity.
  - destruct H as (rest & ->). exists (rest ++ repeat 0 k). rewrite <- app_assoc. reflexivity.
  - destruct H as (rest & ->). exists (rest ++ repeat 0 k). rewrite <- app_assoc. reflexivity.
  - destruct H.
Qed.
Lemma recv_buffer_transparent d r :
  bytes d -> (length d <= 100)%nat -> parse_response d = Ok r -> parse_response (recv_buffer d) = Ok r.
Proof. intros Hb Hl H. rewrite recv_buffer_pad by assumption. apply parse_padded; assumption. Qed.


Lemma parse_frame_padded service body k :
  bytes (frame service body) -> service < 65536 -> 6 + N.of_nat (length body) < 65536 ->
  (min_body service <= length body)%nat ->
  parse_response (frame service body ++ repeat 0 k) = parse_response (frame service body).
Proof.
  intros Hb Hs Hl Hm.
  destruct (parse_response (frame service body)) as [r| |] eqn:E.
  - apply parse_padded; assumption.
  - assert (Hb' : bytes (frame service body ++ repeat 0 k)) by (apply bytes_app; split; [assumption|apply bytes_zeros]).
    destruct (parse_response (frame service body ++ repeat 0 k)) as [r| |] eqn:F; [exfalso|reflexivity|exfalso].
    + apply parse_response_sound in F; [|assumption].
      enough (L : looks_like (frame service body) r).
      { apply parse_response_complete in L; [|assumption]. congruence. }
      assert (Eserv : forall s x tl, frame service body ++ repeat 0 k = [0x06; 0x10] ++ word s ++ word x ++ tl ->
                service = s /\ 6 + N.of_nat (length body) = x /\ body ++ repeat 0 k = tl).
      { intros s x tl Q. unfold frame in Q. rewrite <- !app_assoc in Q. cbn [app] in Q.
        unfold word in Q. cbn [app] in Q. injection Q as Q1 Q2 Q3 Q4 Q5. split; [|split; [|assumption]]; lia. }
      assert (Fix : forall s b2 tl, frame service body ++ repeat 0 k = frame s b2 ++ tl ->
                frame service body = frame s b2 ++ []).
      { intros s b2 tl Q. unfold frame in Q at 2. rewrite <- !app_assoc in Q.
        destruct (Eserv _ _ _ Q) as (-> & Q1 & Q2).
        assert (Q3 : length body = length b2) by lia.
        apply (f_equal (firstn (length body))) in Q2.
        rewrite firstn_app, Nat.sub_diag, firstn_all, Q3, firstn_app, Nat.sub_diag, firstn_all in Q2.
        cbn in Q2. rewrite !app_nil_r in Q2. subst b2. rewrite app_nil_r. reflexivity. }
      destruct r as [t|t|t|t|t|t]; cbn [looks_like] in F |- *.
      * destruct F as (size & pad & tail & Hsz & Q & Hc).
        destruct (Eserv _ _ _ Q) as (-> & Q1 & Q2). cbn [min_body] in Hm.
        do 4 (destruct body as [|? body]; [cbn [length] in Hm; lia|]).
        cbn [app] in Q2. injection Q2 as -> -> -> -> Q2.
        exists size, pad, body. split; [assumption|]. split; [unfold frame; rewrite Q1; reflexivity|].
        rewrite Hc, <- Q2. apply (take_padded_zeros (N.to_nat size - 10) body k).
      * destruct F as (rest & Q). exists []. exact (Fix _ _ _ Q).
      * destruct F as (rest & x & y & Ey & Q). exists [], x, y. split; [assumption|]. exact (Fix _ _ _ Q).
      * destruct F as (rest & Q). exists []. exact (Fix _ _ _ Q).
      * destruct F as (rest & Q). exists []. exact (Fix _ _ _ Q).
      * destruct F.
    + apply parse_response_panic_iff in F; [|assumption].
      destruct F as (size & chan & seq & pad & rest & Hsz & Q).
      unfold frame in Q. rewrite <- !app_assoc in Q. unfold word in Q. cbn [app] in Q.
      injection Q as Q1 Q2 Q3 Q4 Q5. assert (service = 0x0420) by lia. subst service. cbn [min_body] in Hm. lia.
  - apply parse_response_panic_iff in E; [|assumption].
    apply parse_response_panic_iff; [apply bytes_app; split; [assumption|apply bytes_zeros]|].
    destruct E as (size & chan & seq & pad & rest & Hsz & ->).
    exists size, chan, seq, pad, (rest ++ repeat 0 k). split; [assumption|]. rewrite <- !app_assoc. reflexivity.
Qed.
Lemma recv_buffer_frame service d body :
  valid_frame service d -> d = frame service body -> service < 65536 -> (length d <= 100)%nat ->
  (min_body service <= length body)%nat ->
  parse_response (recv_buffer d) = parse_response d.
Proof.
  intros (Hb & Hl & _) -> Hs H100 Hm. rewrite recv_buffer_pad by assumption.
  apply parse_frame_padded; auto. rewrite length_frame in Hl. lia.
Qed.
Lemma connection_response_padded d r rest k :
  bytes d -> connection_response_from_packet d = Ok (r, rest) ->
  connection_response_from_packet (d ++ repeat 0 k) = Ok (r, rest ++ repeat 0 k).
Proof.
  intros Hb H. apply connection_response_decode_iff in H; [|assumption].
  apply connection_response_decode_iff; [apply bytes_app; split; [assumption|apply bytes_zeros]|].
  destruct H as (size & n & H1 & H2 & -> & H3). exists size, n. split; [assumption|]. split; [assumption|].
  split; [rewrite <- !app_assoc; reflexivity|assumption].
Qed.
Lemma connection_response_buffer d r :
  bytes d -> (length d <= 100)%nat -> run_on connection_response_from_packet d = Ok r ->
  run_on connection_response_from_packet (recv_buffer d) = Ok r.
Proof.
  intros Hb Hl H. apply run_on_ok in H. destruct H as [rest H]. apply run_on_ok.
  rewrite recv_buffer_pad by assumption. eexists. apply connection_response_padded; eassumption.
Qed.

(** ** Truncated and oversized tunnelling requests *)
Lemma recv_tunneling_any size chan seq tail :
  10 <= size < 65536 -> byte chan -> byte seq -> bytes tail ->
  parse_response (recv_buffer ([0x06; 0x10] ++ word 0x0420 ++ word size ++ [4; chan; seq; 0] ++ tail)) =
  Ok (RTunReq {| tr_chan := chan; tr_seq := seq;
                 tr_cemi := take_padded (N.to_nat size - 10) (firstn 90 tail) |}).
Proof.
  intros Hs Hc Hq Ht.
  set (d := [0x06; 0x10] ++ word 0x0420 ++ word size ++ [4; chan; seq; 0] ++ tail).
  assert (Hd : bytes d).
  { unfold d. rewrite !bytes_app, !bytes_cons. repeat split; auto using bytes_word, bytes_nil; try lia.
    - apply bytes_word; lia.
    - apply bytes_word; lia. }
  apply parse_response_complete; [apply recv_buffer_bytes, Hd|]. cbn [looks_like tr_chan tr_seq tr_cemi].
  exists size, 0, (firstn 90 tail ++ repeat 0 (90 - length tail)).
  split; [assumption|]. split.
  - unfold recv_buffer, d, word. cbn [app firstn length]. cbn [Nat.sub]. reflexivity.
  - symmetry. apply (take_padded_zeros (N.to_nat size - 10) (firstn 90 tail) (90 - length tail)).
Qed.

(** ** A group write seen by another reader *)
Lemma addr_to_u16_bound a : wf_addr a -> addr_to_u16 a < 65536.
Proof.
  assert (S : forall x k, shl_u16 x k < 65536) by (intros; unfold shl_u16, as_u16; lia).
  assert (L : forall x y, x < 65536 -> y < 65536 -> N.lor x y < 65536).
  { intros x y Hx Hy. change 65536 with (2 ^ 16) in *.
    destruct (N.eq_dec (N.lor x y) 0) as [->|Hn]; [lia|].
    apply N.log2_lt_pow2; [lia|]. rewrite N.log2_lor.
    destruct (N.eq_dec x 0) as [->|Hx0]; destruct (N.eq_dec y 0) as [->|Hy0]; cbn [N.log2] in *;
    rewrite ?N.max_0_l, ?N.max_0_r; try lia; try (apply N.log2_lt_pow2; lia).
    apply N.max_lub_lt; apply N.log2_lt_pow2; lia. }
  destruct a as [a|a|a|a]; cbn [wf_addr addr_to_u16]; unfold wf_individual, wf_group3, wf_group2, byte.
  - intros (H1 & H2 & H3). unfold individual_to_u16. repeat apply L; auto; lia.
  - intros (H1 & H2 & H3). unfold group3_to_u16. repeat apply L; auto; lia.
  - intros (H1 & H2). unfold group2_to_u16. repeat apply L; auto; lia.
  - intro H. exact H.
Qed.


Lemma write_packet_shape p dest v small a :
  wf_addr dest -> v <> [] -> (length v <= 253)%nat -> group_value_write v small = Ok a ->
  ldata_req_packet p (ldata_req_new dest (t_data_group a)) =
  Ok (cemi_bytes 0x11 []
       (ldata_bytes 0xbc 0xe0 0 (addr_to_u16 dest) (if small then 1 else 1 + N.of_nat (length v))
          (if small then 0x80 + hd 0 v mod 64 else 0x80) (if small then [] else v))).
Proof.
  intros Hw Hv Hl Ha.
  assert (E : tpdu_packet (t_data_group a) =
     word (if small then 0x80 + hd 0 v mod 64 else 0x80) ++ (if small then [] else v)).
  { unfold tpdu_packet. cbn [tp_apdu t_data_group]. destruct small.
    - destruct v as [|b v]; [congruence|]. rewrite (group_write_small _ _ _ Ha), app_nil_r. reflexivity.
    - rewrite (group_write_big _ _ Ha). reflexivity. }
  rewrite ldata_req_packet_eq.
  - cbn [ldata_req_new lr_priority lr_dest lr_tpdu]. rewrite E.
    unfold cemi_bytes, ldata_bytes. cbn [infos_bytes map concat length].
    f_equal. unfold lenN. rewrite app_length, length_word.
    destruct small; cbn [length app].
    + reflexivity.
    + replace (N.of_nat (2 + length v) - 1) with (1 + N.of_nat (length v)) by lia. reflexivity.
  - cbn [ldata_req_new lr_dest]. apply addr_to_u16_bound, Hw.
  - cbn [ldata_req_new lr_tpdu]. rewrite E, app_length, length_word. destruct small; cbn [length]; lia.
Qed.

Lemma group_write_survives p dest v small a pkt chan seq c1 c2 src :
  wf_addr dest -> bytes v -> v <> [] -> (length v <= 79)%nat ->
  group_value_write v small = Ok a ->
  ldata_req_packet p (ldata_req_new dest (t_data_group a)) = Ok pkt ->
  byte chan -> byte seq -> byte c1 -> byte c2 -> src < 65536 ->
  exists t c i,
    parse_response (recv_buffer (frame 0x0420 ([4; chan; seq; 0] ++
       [0x29; 0; c1; c2] ++ word src ++ skipn 6 pkt))) = Ok (RTunReq t) /\
    tr_chan t = chan /\ tr_seq t = seq /\
    run_on (cemi_from_packet p) (tr_cemi t) = Ok c /\ ce_code c = 0x29 /\
    ldata_ind_from_cemi c = Ok i /\
    ld_src (li_data i) = src /\ ld_dest (li_data i) = addr_to_u16 dest /\ li_value i = carried v small.
Proof.
  intros Hw Hb Hv Hl Ha Hp Hc Hs H1 H2 H3.
  assert (Hda : addr_to_u16 dest < 65536) by apply addr_to_u16_bound, Hw.
  rewrite (write_packet_shape p dest v small a) in Hp by (assumption || lia). injection Hp as <-.
  set (len := if small then 1 else 1 + N.of_nat (length v)).
  set (ap := if small then 0x80 + hd 0 v mod 64 else 0x80).
  set (dat := if small then [] else v).
  set (cb := [0x29; 0; c1; c2] ++ word src ++ skipn 6 (cemi_bytes 17 [] (ldata_bytes 188 224 0 (addr_to_u16 dest) len ap dat))).
  assert (Ecb : cb = cemi_bytes 0x29 (map info_pair []) (ldata_bytes c1 c2 src (addr_to_u16 dest) len ap dat)) by reflexivity.
  assert (Hlen : len < 256) by (unfold len; destruct small; lia).
  assert (Hap : ap < 65536) by (unfold ap; destruct small; lia).
  assert (Hdat : bytes dat) by (unfold dat; destruct small; [apply bytes_nil|assumption]).
  assert (Ldat : (length dat <= 79)%nat) by (unfold dat; destruct small; cbn [length]; lia).
  assert (Bcb : bytes cb).
  { rewrite Ecb. unfold cemi_bytes, ldata_bytes. cbn [map infos_bytes concat length].
    rewrite !bytes_app, !bytes_cons. repeat split; auto using bytes_word, bytes_nil; lia. }
  assert (Lcb : (length cb <= 90)%nat).
  { rewrite Ecb. unfold cemi_bytes, ldata_bytes. cbn [map infos_bytes concat length app word]. lia. }
  exists {| tr_chan := chan; tr_seq := seq; tr_cemi := cb |},
    {| ce_code := 0x29; ce_infos := []; ce_service := ldata_bytes c1 c2 src (addr_to_u16 dest) len ap dat |}.
  eexists. split; [|split; [reflexivity|]]; [|split; [reflexivity|]]; [|split].
  - apply recv_buffer_transparent.
    + apply bytes_frame; [lia| unfold lenN; cbn [length app]; fold cb; rewrite ?app_length; cbn [length]; lia|].
      cbn [app]. rewrite !bytes_cons. repeat split; auto; lia.
    + rewrite length_frame. cbn [app length]. fold cb. lia.
    + apply parse_response_complete.
      * apply bytes_frame; [lia| unfold lenN; cbn [length app]; lia|].
        cbn [app]. rewrite !bytes_cons. repeat split; auto; lia.
      * cbn [looks_like tr_chan tr_seq tr_cemi]. exists (10 + N.of_nat (length cb)), 0, cb.
        split; [lia|]. split.
        { unfold frame. cbn [app length]. fold cb.
          replace (6 + N.of_nat (S (S (S (S (length cb)))))) with (10 + N.of_nat (length cb)) by lia. reflexivity. }
        replace (N.to_nat (10 + N.of_nat (length cb)) - 10)%nat with (length cb) by lia.
        rewrite firstn_all, Nat.sub_diag. cbn [repeat]. rewrite app_nil_r. reflexivity.
  - cbn [tr_cemi]. apply run_on_ok. eexists. rewrite Ecb. apply cemi_read. cbn. lia.
  - split; [reflexivity|]. split.
    + match goal with |- ldata_ind_from_cemi ?c = _ =>
        eapply (proj2 (ldata_ind_value c _ c1 c2 src (addr_to_u16 dest) len ap dat H3 Hda Hap eq_refl)) end. reflexivity.
    + cbn [li_data ld_src ld_dest li_value]. split; [reflexivity|]. split; [reflexivity|].
      unfold carried, len, ap, dat. destruct small.
      * change (1 <=? 1) with true. cbv iota. f_equal. rewrite N.add_mod by lia.
        rewrite N.mod_mod by lia. change (128 mod 64) with 0. rewrite N.add_0_l, N.mod_mod by lia. reflexivity.
      * destruct v as [|b v]; [congruence|].
        replace (1 + N.of_nat (length (b :: v)) <=? 1) with false by (cbn [length]; lia).
        replace (N.to_nat (1 + N.of_nat (length (b :: v)) - 1)) with (length (b :: v)) by lia.
        rewrite <- (app_nil_r (b :: v)) at 2. apply take_padded_exact.
Qed.
