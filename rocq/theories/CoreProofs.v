(** Lemmas about Core.v and Tunneling.v. *)
From Verif Require Import Base Wire Spec BaseProofs Addresses Tunneling Core.
Open Scope N_scope.

(** ** Addresses in the KNX layout *)
Lemma land_ones_mod a k : N.land a (N.ones k) = a mod 2 ^ k.
Proof. apply N.land_ones. Qed.
Lemma individual_from_u16_layout n :
  n < 65536 -> individual_from_u16 n =
  {| ia_area := n / 4096; ia_line := n / 256 mod 16; ia_address := n mod 256 |}.
Proof.
  intro H. unfold individual_from_u16, as_u8.
  replace (N.land 0xf000 n) with (N.shiftl (N.land (N.shiftr n 12) (N.ones 4)) 12).
  2:{ apply N.bits_inj. intro k. rewrite N.land_spec.
      destruct (N.ltb_spec k 12) as [Hk|Hk].
      - rewrite N.shiftl_spec_low by lia.
        assert (N.testbit 0xf000 k = false) as ->; [|reflexivity].
        replace 0xf000 with (N.shiftl 15 12) by reflexivity. apply N.shiftl_spec_low; lia.
      - rewrite N.shiftl_spec_high' by lia. rewrite N.land_spec, N.shiftr_spec'.
        replace (k - 12 + 12) with k by lia.
        replace 0xf000 with (N.shiftl (N.ones 4) 12) by reflexivity.
        rewrite N.shiftl_spec_high' by lia. apply andb_comm. }
  replace (N.land 0x0f00 n) with (N.shiftl (N.land (N.shiftr n 8) (N.ones 4)) 8).
  2:{ apply N.bits_inj. intro k. rewrite N.land_spec.
      destruct (N.ltb_spec k 8) as [Hk|Hk].
      - rewrite N.shiftl_spec_low by lia.
        assert (N.testbit 0x0f00 k = false) as ->; [|reflexivity].
        replace 0x0f00 with (N.shiftl 15 8) by reflexivity. apply N.shiftl_spec_low; lia.
      - rewrite N.shiftl_spec_high' by lia. rewrite N.land_spec, N.shiftr_spec'.
        replace (k - 8 + 8) with k by lia.
        replace 0x0f00 with (N.shiftl (N.ones 4) 8) by reflexivity.
        rewrite N.shiftl_spec_high' by lia. apply andb_comm. }
  replace (N.land 0x00ff n) with (N.land n (N.ones 8)) by (rewrite N.land_comm; reflexivity).
  rewrite !N.shiftr_shiftl_l, !N.sub_diag, !N.shiftl_0_r by lia.
  rewrite !N.land_ones, !N.shiftr_div_pow2.
  change (2 ^ 12) with 4096. change (2 ^ 8) with 256. change (2 ^ 4) with 16.
  f_equal; lia.
Qed.

Lemma lor_disjoint_add a b k : a < 2 ^ k -> N.lor (b * 2 ^ k) a = b * 2 ^ k + a.
Proof.
  intro H. rewrite <- N.shiftl_mul_pow2.
  rewrite <- N.lxor_lor, N.add_nocarry_lxor; auto;
  apply N.bits_inj; intro i; rewrite N.land_spec, N.bits_0;
  (destruct (N.ltb_spec i k); [rewrite N.shiftl_spec_low by lia; reflexivity |]);
  rewrite andb_false_iff; right;
  (destruct (N.eq_dec a 0) as [->|Ha]; [apply N.bits_0|]);
  apply N.bits_above_log2; apply N.log2_lt_pow2; try lia;
  (eapply N.lt_le_trans; [exact H|apply N.pow_le_mono_r; lia]).
Qed.

Lemma individual_to_u16_layout a :
  ia_area a < 16 -> ia_line a < 16 -> ia_address a < 256 ->
  individual_to_u16 a = individual_layout (ia_area a) (ia_line a) (ia_address a).
Proof.
  intros H1 H2 H3. unfold individual_to_u16, individual_layout, shl_u16, as_u16.
  rewrite N.lor_0_l, !N.shiftl_mul_pow2.
  change (2 ^ 12) with 4096. rewrite !N.mod_small by (change (2 ^ 8) with 256; lia).
  change 4096 with (2 ^ 12).
  rewrite lor_disjoint_add by (change (2 ^ 12) with 4096; change (2 ^ 8) with 256; lia).
  replace (ia_area a * 2 ^ 12 + ia_line a * 2 ^ 8) with ((ia_area a * 16 + ia_line a) * 2 ^ 8)
    by (change (2 ^ 12) with 4096; change (2 ^ 8) with 256; lia).
  rewrite lor_disjoint_add by (change (2 ^ 8) with 256; lia).
  change (2 ^ 12) with 4096; change (2 ^ 8) with 256; lia.
Qed.
Lemma individual_to_from n : n < 65536 -> individual_to_u16 (individual_from_u16 n) = n.
Proof.
  intro H. rewrite individual_from_u16_layout by assumption.
  rewrite individual_to_u16_layout; unfold individual_layout; cbn [ia_area ia_line ia_address]; lia.
Qed.
Lemma individual_from_to a :
  ia_area a < 16 -> ia_line a < 16 -> ia_address a < 256 ->
  individual_from_u16 (individual_to_u16 a) = a.
Proof.
  intros H1 H2 H3. rewrite individual_to_u16_layout by assumption.
  rewrite individual_from_u16_layout; unfold individual_layout; [|lia].
  destruct a as [x y z]; cbn [ia_area ia_line ia_address] in *. f_equal; lia.
Qed.

(** ** HPAI *)
Lemma hpai_packet_eq h : hp_port h < 65536 ->
  hpai_packet h = hpai_bytes (hp_code h) (hp_ip h) (hp_port h).
Proof. intro H. unfold hpai_packet, hpai_bytes. rewrite be16_word by assumption. reflexivity. Qed.
Lemma hpai_packet_length h : length (hp_ip h) = 4%nat -> length (hpai_packet h) = 8%nat.
Proof. intro H. unfold hpai_packet. rewrite !app_length, H. reflexivity. Qed.
Lemma hpai_packet_lenN h : length (hp_ip h) = 4%nat -> lenN (hpai_packet h) = 8.
Proof. intro H. unfold lenN. rewrite hpai_packet_length by assumption. reflexivity. Qed.

Lemma ip_four {P : Prop} (l : list N) :
  length l = 4%nat -> (forall a b c d, l = [a; b; c; d] -> P) -> P.
Proof. destruct l as [|a [|b [|c [|d [|e l]]]]]; try discriminate. intros _ H. eapply H. reflexivity. Qed.

Lemma hpai_roundtrip h rest : wf_hpai h -> hpai_from_packet (hpai_packet h ++ rest) = Ok (h, rest).
Proof.
  intros (Hc & Hb & Hl & Hp). destruct h as [code ip port]; cbn [hp_code hp_ip hp_port] in *.
  apply (ip_four ip Hl). intros a b c d ->.
  unfold hpai_packet. cbn [hp_code hp_ip hp_port]. rewrite be16_word by assumption.
  unfold hpai_from_packet, pbind. cbn -[read_u16 word].
  rewrite read_u16_word by assumption. reflexivity.
Qed.
Lemma hpai_decode_iff bs h rest :
  bytes bs ->
  (hpai_from_packet bs = Ok (h, rest) <->
   wf_hpai h /\ bs = hpai_bytes (hp_code h) (hp_ip h) (hp_port h) ++ rest).
Proof.
  intro Hb. split.
  - unfold hpai_from_packet. intro H. pinv. cbn [hp_code hp_ip hp_port].
    rewrite N.eqb_eq in *. subst. unfold wf_hpai, hpai_bytes. cbn [hp_code hp_ip hp_port].
    rewrite !bytes_cons. unfold byte. repeat split; auto; apply bytes_nil.
  - intros [Hw ->]. rewrite <- hpai_packet_eq by apply Hw. apply hpai_roundtrip, Hw.
Qed.
Lemma hpai_accept_iff bs :
  bytes bs ->
  ((exists h rest, hpai_from_packet bs = Ok (h, rest)) <-> hd 0 bs = 8 /\ (8 <= length bs)%nat).
Proof.
  intro Hb. split.
  - intros (h & rest & H). apply hpai_decode_iff in H; auto. destruct H as [Hw ->].
    destruct Hw as (_ & _ & Hl & _). unfold hpai_bytes. rewrite !app_length, Hl. cbn. split; [reflexivity|lia].
  - intros [Hh Hl]. do 8 (destruct bs as [|? bs]; [cbn in Hl; lia|]). cbn in Hh. subst.
    do 2 eexists. unfold hpai_from_packet, pbind. cbn. reflexivity.
Qed.

(** ** Header *)
Lemma header_roundtrip h rest :
  h_service h < 65536 -> h_total h < 65536 ->
  header_from_packet (header_packet h ++ rest) = Ok (h, rest).
Proof.
  intros H1 H2. destruct h as [s t]; cbn [h_service h_total] in *.
  unfold header_packet. cbn [h_service h_total]. rewrite !be16_word by assumption.
  unfold header_from_packet, pbind. rewrite <- !app_assoc. cbn -[read_u16 word].
  rewrite read_u16_word by assumption. rewrite read_u16_word by assumption. reflexivity.
Qed.
Lemma header_decode_iff bs h rest :
  bytes bs ->
  (header_from_packet bs = Ok (h, rest) <->
   h_service h < 65536 /\ h_total h < 65536 /\
   bs = [0x06; 0x10] ++ word (h_service h) ++ word (h_total h) ++ rest).
Proof.
  intro Hb. split.
  - unfold header_from_packet. intro H. pinv. cbn [h_service h_total].
    rewrite N.eqb_eq in *. subst. auto.
  - intros (H1 & H2 & ->).
    pose proof (header_roundtrip h rest H1 H2) as E.
    unfold header_packet in E. rewrite !be16_word in E by assumption.
    rewrite <- !app_assoc in E. exact E.
Qed.

(** ** Frames *)
Lemma frame_eq service body bs :
  service < 65536 -> 6 + lenN body < 65536 ->
  bs = [6; 0x10] ++ be16 service ++ be16 (6 + lenN body) ++ body -> bs = frame service body.
Proof. intros H1 H2 ->. unfold frame. rewrite !be16_word by assumption. reflexivity. Qed.
Lemma length_frame service body : length (frame service body) = (6 + length body)%nat.
Proof. reflexivity. Qed.
Lemma bytes_frame service body :
  service < 65536 -> 6 + lenN body < 65536 -> bytes body -> bytes (frame service body).
Proof.
  intros H1 H2 H3. unfold frame. rewrite !bytes_app.
  repeat split; auto using bytes_word. repeat (apply bytes_cons; split; [lia|]). apply bytes_nil.
Qed.
Lemma valid_frame_intro service body :
  service < 65536 -> 6 + lenN body < 65536 -> bytes body -> valid_frame service (frame service body).
Proof.
  intros H1 H2 H3. split; [apply bytes_frame; auto|]. split; [|eauto].
  rewrite length_frame. unfold lenN in H2. lia.
Qed.
Lemma bytes_hpai h : wf_hpai h -> bytes (hpai_packet h).
Proof.
  intros (H1 & H2 & H3 & H4). unfold hpai_packet. rewrite be16_word by assumption.
  rewrite !bytes_app, !bytes_cons. repeat split; auto using bytes_word, bytes_nil; lia.
Qed.
Lemma wf_hpai_udp : wf_hpai hpai_udp.
Proof. repeat split; try reflexivity; repeat constructor. Qed.

Lemma connection_request_frame c :
  wf_hpai (cq_control c) -> wf_hpai (cq_data c) -> byte (cq_cri c) ->
  connection_request_packet c =
  frame 0x0205 (hpai_bytes (hp_code (cq_control c)) (hp_ip (cq_control c)) (hp_port (cq_control c))
                ++ hpai_bytes (hp_code (cq_data c)) (hp_ip (cq_data c)) (hp_port (cq_data c))
                ++ [4; 4; cq_cri c; 0]).
Proof.
  intros H1 H2 H3. rewrite <- !hpai_packet_eq by (apply H1 || apply H2).
  pose proof (hpai_packet_lenN _ (proj1 (proj2 (proj2 H1)))) as L1.
  pose proof (hpai_packet_lenN _ (proj1 (proj2 (proj2 H2)))) as L2.
  apply frame_eq; [lia| rewrite !lenN_app, L1, L2; reflexivity |].
  unfold connection_request_packet. rewrite !lenN_app, L1, L2. reflexivity.
Qed.
Lemma connection_request_valid c :
  wf_hpai (cq_control c) -> wf_hpai (cq_data c) -> byte (cq_cri c) ->
  valid_frame 0x0205 (connection_request_packet c).
Proof.
  intros H1 H2 H3. rewrite connection_request_frame by assumption.
  rewrite <- !hpai_packet_eq by (apply H1 || apply H2).
  apply valid_frame_intro; [lia| |].
  - rewrite !lenN_app, !hpai_packet_lenN by (apply H1 || apply H2). reflexivity.
  - rewrite !bytes_app. repeat split; auto using bytes_hpai.
    rewrite !bytes_cons. repeat split; auto using bytes_nil; lia.
Qed.

Lemma connstate_request_frame c :
  wf_hpai (sq_endpoint c) ->
  connstate_request_packet c =
  frame 0x0207 ([sq_chan c; 0] ++ hpai_bytes (hp_code (sq_endpoint c)) (hp_ip (sq_endpoint c)) (hp_port (sq_endpoint c))).
Proof.
  intros H1. rewrite <- !hpai_packet_eq by apply H1.
  pose proof (hpai_packet_lenN _ (proj1 (proj2 (proj2 H1)))) as L1.
  apply frame_eq; [lia| rewrite !lenN_app, L1; reflexivity |].
  unfold connstate_request_packet. rewrite !lenN_app, L1. reflexivity.
Qed.
Lemma disconnect_request_frame c :
  wf_hpai (dq_endpoint c) ->
  disconnect_request_packet c =
  frame 0x0209 ([dq_chan c; 0] ++ hpai_bytes (hp_code (dq_endpoint c)) (hp_ip (dq_endpoint c)) (hp_port (dq_endpoint c))).
Proof.
  intros H1. rewrite <- !hpai_packet_eq by apply H1.
  pose proof (hpai_packet_lenN _ (proj1 (proj2 (proj2 H1)))) as L1.
  apply frame_eq; [lia| rewrite !lenN_app, L1; reflexivity |].
  unfold disconnect_request_packet. rewrite !lenN_app, L1. reflexivity.
Qed.
Lemma chan_hpai_valid service c h :
  service < 65536 -> wf_hpai h -> byte c ->
  valid_frame service (frame service ([c; 0] ++ hpai_bytes (hp_code h) (hp_ip h) (hp_port h))).
Proof.
  intros H0 H1 H2. rewrite <- !hpai_packet_eq by apply H1.
  apply valid_frame_intro; [assumption| |].
  - rewrite !lenN_app, !hpai_packet_lenN by apply H1. reflexivity.
  - rewrite !bytes_app, !bytes_cons. repeat split; auto using bytes_hpai, bytes_nil; lia.
Qed.
Lemma two_byte_valid service a b :
  service < 65536 -> byte a -> byte b -> valid_frame service (frame service [a; b]).
Proof.
  intros H0 H1 H2. apply valid_frame_intro; [assumption|reflexivity|].
  rewrite !bytes_cons. repeat split; auto using bytes_nil.
Qed.
Lemma connstate_response_frame c : connstate_response_packet c = frame 0x0208 [ss_chan c; ss_status c].
Proof. reflexivity. Qed.
Lemma disconnect_response_frame c : disconnect_response_packet c = frame 0x020a [ds_chan c; ds_status c].
Proof. reflexivity. Qed.
Lemma search_request_frame e :
  wf_hpai e -> search_request_packet e = frame 0x0201 (hpai_bytes (hp_code e) (hp_ip e) (hp_port e)).
Proof.
  intros H1. rewrite <- !hpai_packet_eq by apply H1.
  pose proof (hpai_packet_lenN _ (proj1 (proj2 (proj2 H1)))) as L1.
  apply frame_eq; [lia| rewrite L1; reflexivity |].
  unfold search_request_packet. rewrite L1. reflexivity.
Qed.
Lemma search_request_valid e : wf_hpai e -> valid_frame 0x0201 (search_request_packet e).
Proof.
  intro H. rewrite search_request_frame by assumption. rewrite <- !hpai_packet_eq by apply H.
  apply valid_frame_intro; [lia| rewrite hpai_packet_lenN by apply H; reflexivity | apply bytes_hpai, H].
Qed.
Lemma tunneling_request_frame p t :
  lenN (tr_cemi t) <= 65525 ->
  tunneling_request_packet p t = Ok (frame 0x0420 ([4; tr_chan t; tr_seq t; 0] ++ tr_cemi t)).
Proof.
  intro H. unfold tunneling_request_packet, add_chk, as_u16, u16_max1.
  rewrite N.mod_small by lia.
  destruct (N.ltb_spec (10 + lenN (tr_cemi t)) 65536) as [_|Hx]; [|lia]. f_equal.
  apply frame_eq; [lia| rewrite lenN_app; change (lenN [4; tr_chan t; tr_seq t; 0]) with 4; lia|].
  rewrite lenN_app. change (lenN [4; tr_chan t; tr_seq t; 0]) with 4.
  rewrite N.add_assoc. reflexivity.
Qed.
Lemma tunneling_request_valid p t :
  lenN (tr_cemi t) <= 65525 -> byte (tr_chan t) -> byte (tr_seq t) -> bytes (tr_cemi t) ->
  exists bs, tunneling_request_packet p t = Ok bs /\ valid_frame 0x0420 bs.
Proof.
  intros H H1 H2 H3. rewrite tunneling_request_frame by assumption. eexists; split; [reflexivity|].
  apply valid_frame_intro; [lia| rewrite lenN_app; change (lenN [4; tr_chan t; tr_seq t; 0]) with 4; lia|].
  rewrite bytes_app, !bytes_cons. repeat split; auto using bytes_nil; lia.
Qed.
Lemma tunneling_ack_frame a : tunneling_ack_packet a = frame 0x0421 [4; ta_chan a; ta_seq a; ta_status a].
Proof. reflexivity. Qed.
Lemma tunneling_ack_valid a :
  byte (ta_chan a) -> byte (ta_seq a) -> byte (ta_status a) -> valid_frame 0x0421 (tunneling_ack_packet a).
Proof.
  intros. rewrite tunneling_ack_frame. apply valid_frame_intro; [lia|reflexivity|].
  rewrite !bytes_cons; repeat split; auto using bytes_nil; lia.
Qed.
Lemma feature_set_frame f :
  feature_set_packet f = frame 0x0424 [4; fs_chan f; fs_seq f; 0; feature_code (fs_feature f); 0; fs_value f].
Proof. reflexivity. Qed.
Lemma feature_set_valid f :
  byte (fs_chan f) -> byte (fs_seq f) -> byte (fs_value f) -> valid_frame 0x0424 (feature_set_packet f).
Proof.
  intros. rewrite feature_set_frame. apply valid_frame_intro; [lia|reflexivity|].
  rewrite !bytes_cons; repeat split; auto using bytes_nil; try lia.
  destruct (fs_feature f); cbn; lia.
Qed.

(** ** Decoders *)
Lemma status_rejected_iff s : status_rejected s = true <-> s = 0x22 \/ s = 0x23 \/ s = 0x24 \/ s = 0x29.
Proof. unfold status_rejected. rewrite !orb_true_iff, !N.eqb_eq. tauto. Qed.
Ltac pgo :=
  repeat first
    [ rewrite read_u16_word by (lia || assumption)
    | rewrite hpai_roundtrip by assumption
    | progress cbn -[read_u16 word hpai_from_packet hpai_packet crd_from_packet
                     individual_from_u16 Nat.leb N.leb lift read_zeroed read_exact
                     header_from_packet dib_from_packet read_to_end N.ltb] ].

Lemma crd_decode_iff bs a rest :
  bytes bs ->
  (crd_from_packet bs = Ok (a, rest) <->
   exists n, n < 65536 /\ bs = [4; 4] ++ word n ++ rest /\
     a = {| ia_area := n / 4096; ia_line := n / 256 mod 16; ia_address := n mod 256 |}).
Proof.
  intro Hb. split.
  - unfold crd_from_packet. intro H. pinv. rewrite N.eqb_eq in *. subst.
    eexists. split; [eassumption|]. split; [reflexivity|]. apply individual_from_u16_layout. assumption.
  - intros (n & Hn & -> & ->). unfold crd_from_packet, pbind. pgo.
    unfold ret. rewrite individual_from_u16_layout by assumption. reflexivity.
Qed.

Lemma connection_response_decode_iff bs r rest :
  bytes bs ->
  (connection_response_from_packet bs = Ok (r, rest) <->
   exists size n,
     8 <= size < 65536 /\ n < 65536 /\
     bs = [0x06; 0x10] ++ word 0x0206 ++ word size ++ [cr_chan r; cr_status r]
          ++ hpai_bytes (hp_code (cr_endpoint r)) (hp_ip (cr_endpoint r)) (hp_port (cr_endpoint r))
          ++ [4; 4] ++ word n ++ rest /\
     wf_hpai (cr_endpoint r) /\
     ~ In (cr_status r) [0x22; 0x23; 0x24; 0x29] /\
     cr_crd r = {| ia_area := n / 4096; ia_line := n / 256 mod 16; ia_address := n mod 256 |}).
Proof.
  intro Hb. split.
  - unfold connection_response_from_packet. intro H. pinv.
    rewrite N.eqb_eq in *. rewrite N.leb_le in *. subst.
    match goal with H : hpai_from_packet _ = _ |- _ => apply hpai_decode_iff in H; [|assumption]; destruct H; subst end.
    pinv.
    match goal with H : crd_from_packet _ = _ |- _ => apply crd_decode_iff in H; [|assumption]; destruct H as (n & Hn & -> & ->) end.
    match goal with H : word 0x0206 = _ |- _ => idtac | |- _ => idtac end.
    cbn [cr_chan cr_status cr_endpoint cr_crd].
    match goal with H : negb (status_rejected ?s) = true |- _ =>
      apply negb_true_iff in H;
      assert (~ In s [0x22; 0x23; 0x24; 0x29])
        by (intro Hin; assert (status_rejected s = true) by (apply status_rejected_iff; cbn in Hin; intuition congruence); congruence)
    end.
    do 2 eexists. split; [split; eassumption|]. split; [eassumption|].
    split; [|split; [assumption|split; [assumption|reflexivity]]].
    unfold hpai_bytes. rewrite <- !app_assoc. reflexivity.
  - intros (size & n & [Hs1 Hs2] & Hn & -> & Hw & Hst & Hcrd).
    rewrite <- hpai_packet_eq by apply Hw.
    unfold connection_response_from_packet, pbind. pgo.
    rewrite (proj2 (N.leb_le 8 size)) by assumption. pgo.
    replace (status_rejected (cr_status r)) with false.
    2:{ symmetry. apply not_true_is_false. intro Hx. apply status_rejected_iff in Hx. apply Hst. cbn. intuition. }
    pgo. match goal with |- context [crd_from_packet ?b] => 
      replace (crd_from_packet b) with (Ok (cr_crd r, rest)) end.
    + destruct r; reflexivity.
    + symmetry. unfold crd_from_packet, pbind. pgo. unfold ret. rewrite Hcrd, individual_from_u16_layout by assumption. reflexivity.
Qed.

(** ** Panic freedom *)
Ltac np := repeat (intros; first [ apply np_bind | apply np_ret | apply np_fail | apply np_ensure
  | apply np_u8 | apply np_u16 | apply np_exact | apply np_zeroed | apply np_to_end
  | (apply np_lift; fail) | assumption ]).
Lemma np_hpai : no_panic hpai_from_packet.
Proof. unfold hpai_from_packet. np. Qed.
Lemma np_crd : no_panic crd_from_packet.
Proof. unfold crd_from_packet. np. Qed.
Lemma np_header : no_panic header_from_packet.
Proof. unfold header_from_packet. np. Qed.
Lemma np_connection_response : no_panic connection_response_from_packet.
Proof. unfold connection_response_from_packet. pose proof np_hpai. pose proof np_crd. np. Qed.
Lemma np_connstate_request : no_panic connstate_request_from_packet.
Proof. unfold connstate_request_from_packet. pose proof np_hpai. np. Qed.
Lemma np_connstate_response : no_panic connstate_response_from_packet.
Proof. unfold connstate_response_from_packet. np. Qed.
Lemma np_disconnect_request : no_panic disconnect_request_from_packet.
Proof. unfold disconnect_request_from_packet. pose proof np_hpai. np. Qed.
Lemma np_disconnect_response : no_panic disconnect_response_from_packet.
Proof. unfold disconnect_response_from_packet. np. Qed.
Lemma np_search_request : no_panic search_request_from_packet.
Proof. unfold search_request_from_packet. pose proof np_hpai. pose proof np_header. np. Qed.
Lemma np_verify_header : no_panic verify_header.
Proof. unfold verify_header. np. Qed.
Lemma np_tunneling_ack : no_panic tunneling_ack_from_packet.
Proof. unfold tunneling_ack_from_packet. pose proof np_verify_header. np. Qed.
Lemma np_feature_resp : no_panic feature_resp_from_packet.
Proof.
  unfold feature_resp_from_packet. pose proof np_verify_header. np.
  apply np_lift. unfold feature_try_from.
  repeat match goal with |- context [if ?c then _ else _] => destruct c end; discriminate.
Qed.

(** Invert a successful run on a concrete prefix. *)
Ltac papply E :=
  repeat (let E1 := fresh "P" in
          apply pbind_ok in E; destruct E as (? & ? & E1 & E);
          first [ apply ensure_ok in E1; destruct E1 as [? ->]
                | progress cbn in E1; injection E1 as <- <-
                | idtac ]).

(** The library's own bytes of a connection response are always rejected when
    the endpoint is UDP or TCP. *)
Lemma connection_response_own_rejected r rest :
  wf_hpai (cr_endpoint r) -> hp_code (cr_endpoint r) <> 8 ->
  connection_response_from_packet (connection_response_packet r ++ rest) = Err.
Proof.
  intros (_ & _ & Hl & _) H8. unfold connection_response_packet, hpai_packet.
  apply (ip_four _ Hl). intros a b c d E. rewrite E.
  match goal with |- ?x = Err => destruct x as [[y r']| |] eqn:X; [exfalso|reflexivity|exfalso] end.
  2:{ revert X. apply (np_connection_response). }
  unfold connection_response_from_packet in X. papply X.
  match goal with E : hpai_from_packet _ = _ |- _ => unfold hpai_from_packet in E; papply E end.
  rewrite N.eqb_eq in *. congruence.
Qed.
(** Whatever the endpoint, they never decode to the response itself, unless the
    channel, status and first address bytes conspire; with status 0 never. *)
Lemma connection_response_own_not_roundtrip r rest :
  wf_hpai (cr_endpoint r) -> cr_status r <> 8 ->
  connection_response_from_packet (connection_response_packet r ++ rest) <> Ok (r, rest).
Proof.
  intros Hw Hs E. unfold connection_response_packet in E.
  unfold connection_response_from_packet in E. papply E.
  match goal with E : ret _ _ = _ |- _ => apply ret_ok in E; destruct E as [E _] end.
  apply (f_equal cr_status) in E. cbn in E. congruence.
Qed.

(** ** Connection-state, disconnect *)
Lemma connstate_request_roundtrip c rest :
  wf_hpai (sq_endpoint c) -> connstate_request_from_packet (connstate_request_packet c ++ rest) = Ok (c, rest).
Proof.
  intro H. rewrite connstate_request_frame by assumption. rewrite <- hpai_packet_eq by apply H.
  unfold frame. rewrite <- !app_assoc. unfold connstate_request_from_packet, pbind.
  assert (6 + N.of_nat (length ([sq_chan c; 0] ++ hpai_packet (sq_endpoint c))) = 16) as ->.
  { rewrite app_length, hpai_packet_length by apply H. reflexivity. }
  pgo. destruct c; reflexivity.
Qed.
Lemma connstate_response_decode_iff bs r rest :
  bytes bs ->
  (connstate_response_from_packet bs = Ok (r, rest) <-> bs = frame 0x0208 [ss_chan r; ss_status r] ++ rest).
Proof.
  intro Hb. split.
  - unfold connstate_response_from_packet. intro H. pinv. rewrite N.eqb_eq in *. subst. reflexivity.
  - intros ->. destruct r. reflexivity.
Qed.
Lemma connstate_request_decode_iff bs r rest :
  bytes bs ->
  (connstate_request_from_packet bs = Ok (r, rest) <->
   exists size pad, size < 65536 /\ wf_hpai (sq_endpoint r) /\
     bs = [0x06; 0x10] ++ word 0x0207 ++ word size ++ [sq_chan r; pad]
          ++ hpai_bytes (hp_code (sq_endpoint r)) (hp_ip (sq_endpoint r)) (hp_port (sq_endpoint r)) ++ rest).
Proof.
  intro Hb. split.
  - unfold connstate_request_from_packet. intro H. pinv. rewrite N.eqb_eq in *. subst.
    match goal with H : hpai_from_packet _ = _ |- _ => apply hpai_decode_iff in H; [|assumption]; destruct H; subst end.
    cbn [sq_chan sq_endpoint]. do 2 eexists. split; [eassumption|]. split; [assumption|]. reflexivity.
  - intros (size & pad & Hs & Hw & ->). rewrite <- hpai_packet_eq by apply Hw.
    unfold connstate_request_from_packet, pbind. pgo. destruct r; reflexivity.
Qed.
Lemma disconnect_response_decode_iff bs r rest :
  bytes bs ->
  (disconnect_response_from_packet bs = Ok (r, rest) <-> bs = frame 0x020a [ds_chan r; ds_status r] ++ rest).
Proof.
  intro Hb. split.
  - unfold disconnect_response_from_packet. intro H. pinv. rewrite N.eqb_eq in *. subst. reflexivity.
  - intros ->. destruct r. reflexivity.
Qed.
(** Every frame of service 0x0209 is rejected by the disconnect-request reader. *)
Lemma disconnect_request_0209_rejected a b rest :
  disconnect_request_from_packet (a :: b :: 0x02 :: 0x09 :: rest) = Err.
Proof.
  unfold disconnect_request_from_packet, pbind. cbn -[N.leb]. unfold ensure.
  destruct (8 <=? a); reflexivity.
Qed.

(** ** Search *)
Lemma search_request_decode_iff bs e rest :
  bytes bs ->
  (search_request_from_packet bs = Ok (e, rest) <->
   exists size, size < 65536 /\ wf_hpai e /\
     bs = [0x06; 0x10] ++ word 0x0201 ++ word size ++ hpai_bytes (hp_code e) (hp_ip e) (hp_port e) ++ rest).
Proof.
  intro Hb. split.
  - unfold search_request_from_packet. intro H. pinv.
    match goal with H : header_from_packet _ = _ |- _ => apply header_decode_iff in H; [|assumption]; destruct H as (? & ? & ->) end.
    pinv. rewrite N.eqb_eq in *.
    match goal with H : hpai_from_packet _ = _ |- _ => apply hpai_decode_iff in H; [|assumption]; destruct H; subst end.
    match goal with H : h_service _ = _ |- _ => rewrite H end. eauto.
  - intros (size & Hs & Hw & ->). rewrite <- hpai_packet_eq by apply Hw.
    unfold search_request_from_packet, header_from_packet, pbind. pgo. reflexivity.
Qed.
Lemma search_request_roundtrip e rest :
  wf_hpai e -> search_request_from_packet (search_request_packet e ++ rest) = Ok (e, rest).
Proof.
  intro H. rewrite search_request_frame by assumption. rewrite <- hpai_packet_eq by apply H.
  unfold frame. rewrite hpai_packet_length by apply H.
  unfold search_request_from_packet, header_from_packet, pbind. rewrite <- !app_assoc.
  change (6 + N.of_nat 8) with 14. pgo. reflexivity.
Qed.

(** ** Tunnelling *)
Lemma verify_header_run r : verify_header (0x06 :: 0x10 :: r) = Ok (tt, r).
Proof. reflexivity. Qed.
Lemma verify_header_ok bs u r : verify_header bs = Ok (u, r) <-> bs = 0x06 :: 0x10 :: r.
Proof.
  split.
  - unfold verify_header. intro H. pinv. rewrite N.eqb_eq in *. subst. reflexivity.
  - intros ->. destruct u. reflexivity.
Qed.
Lemma cemi_len_ok s n : cemi_len s = Ok n <-> 10 <= s /\ n = N.to_nat (s - 10).
Proof. unfold cemi_len. destruct (N.leb_spec 10 s); split; try discriminate; intuition (try congruence); lia. Qed.

Lemma take_padded_exact bs rest : take_padded (length bs) (bs ++ rest) = bs.
Proof.
  unfold take_padded. rewrite firstn_app, Nat.sub_diag, firstn_all, app_length.
  replace (length bs - (length bs + length rest))%nat with 0%nat by lia. cbn. rewrite !app_nil_r. reflexivity.
Qed.
Lemma take_padded_length n bs : length (take_padded n bs) = n.
Proof. unfold take_padded. rewrite app_length, firstn_length, repeat_length. lia. Qed.

Lemma tunneling_request_decode_iff bs t rest :
  bytes bs ->
  (tunneling_request_from_packet bs = Ok (t, rest) <->
   exists size pad tail,
     10 <= size < 65536 /\
     bs = [0x06; 0x10] ++ word 0x0420 ++ word size ++ [4; tr_chan t; tr_seq t; pad] ++ tail /\
     tr_cemi t = take_padded (N.to_nat (size - 10)) tail /\
     rest = skipn (N.to_nat (size - 10)) tail).
Proof.
  intro Hb. split.
  - unfold tunneling_request_from_packet. intro H. pinv.
    match goal with H : verify_header _ = _ |- _ => apply verify_header_ok in H; subst end. pinv.
    rewrite N.eqb_eq in *. subst.
    match goal with H : cemi_len _ = _ |- _ => apply cemi_len_ok in H; destruct H; subst end.
    match goal with H : read_zeroed _ _ = _ |- _ => unfold read_zeroed in H; injection H as <- <- end.
    do 3 eexists. split; [split; eassumption|]. cbn [tr_chan tr_seq tr_cemi].
    split; [|split; [unfold take_padded; reflexivity|reflexivity]]. reflexivity.
  - intros (size & pad & tail & [Hs1 Hs2] & -> & Hc & ->).
    unfold tunneling_request_from_packet, pbind, verify_header, pbind. pgo.
    unfold lift. rewrite (proj2 (cemi_len_ok size _) (conj Hs1 eq_refl)).
    unfold read_zeroed, ret. fold (take_padded (N.to_nat (size - 10)) tail). rewrite <- Hc. destruct t; reflexivity.
Qed.
Lemma tunneling_request_roundtrip p t rest bs :
  lenN (tr_cemi t) <= 65525 ->
  tunneling_request_packet p t = Ok bs ->
  tunneling_request_from_packet (bs ++ rest) = Ok (t, rest).
Proof.
  intros H E. rewrite tunneling_request_frame in E by assumption. injection E as <-.
  unfold frame. rewrite <- !app_assoc.
  assert (6 + N.of_nat (length (4 :: tr_chan t :: tr_seq t :: 0 :: tr_cemi t)) = 10 + lenN (tr_cemi t)) as ->.
  { unfold lenN. cbn [length]. lia. }
  unfold tunneling_request_from_packet, pbind, verify_header, pbind. pgo.
  unfold lift. rewrite (proj2 (cemi_len_ok _ _) (conj (N.le_add_r 10 (lenN (tr_cemi t))) eq_refl)).
  replace (N.to_nat (10 + lenN (tr_cemi t) - 10)) with (length (tr_cemi t)) by (unfold lenN; lia).
  rewrite read_zeroed_app by reflexivity. destruct t; reflexivity.
Qed.
Lemma tunneling_ack_decode_iff bs a rest :
  bytes bs ->
  (tunneling_ack_from_packet bs = Ok (a, rest) <->
   bs = frame 0x0421 [4; ta_chan a; ta_seq a; ta_status a] ++ rest).
Proof.
  intro Hb. split.
  - unfold tunneling_ack_from_packet. intro H. pinv.
    match goal with H : verify_header _ = _ |- _ => apply verify_header_ok in H; subst end. pinv.
    rewrite N.eqb_eq in *. subst. reflexivity.
  - intros ->. destruct a. reflexivity.
Qed.
Lemma feature_try_from_iff v f : feature_try_from v = Ok f <-> v = feature_code f.
Proof.
  split.
  - unfold feature_try_from. repeat match goal with |- context [if ?c then _ else _] => destruct c eqn:? end;
    intro H; try discriminate; injection H as <-; lia.
  - intros ->. destruct f; reflexivity.
Qed.
Lemma feature_resp_decode_iff bs f rest :
  bytes bs ->
  (feature_resp_from_packet bs = Ok (f, rest) <->
   exists res, bs = frame 0x0423 [4; fr_chan f; fr_seq f; res; feature_code (fr_feature f); fr_status f; fr_value f] ++ rest).
Proof.
  intro Hb. split.
  - unfold feature_resp_from_packet. intro H. pinv.
    match goal with H : verify_header _ = _ |- _ => apply verify_header_ok in H; subst end. pinv.
    rewrite N.eqb_eq in *. subst.
    match goal with H : feature_try_from _ = _ |- _ => apply feature_try_from_iff in H; subst end.
    eexists. reflexivity.
  - intros (res & ->). unfold feature_resp_from_packet, frame. destruct f as [ff fv fst fc fs].
    cbn [fr_chan fr_seq fr_feature fr_status fr_value].
    destruct ff; reflexivity.
Qed.
Lemma feature_resp_own_rejected f rest : feature_resp_from_packet (feature_resp_packet f ++ rest) = Err.
Proof. reflexivity. Qed.
