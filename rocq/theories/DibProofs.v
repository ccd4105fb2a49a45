(** Lemmas about description information blocks and search responses. *)
From Verif Require Import Base Wire Spec BaseProofs Addresses Core CoreProofs.
Open Scope N_scope.

Lemma medium_try_from_iff v m : medium_try_from v = Ok m <-> v = medium_num m.
Proof.
  split; [|intros ->; destruct m; reflexivity].
  unfold medium_try_from. intro H.
  repeat match type of H with context [match ?x with _ => _ end] => destruct x; try discriminate end;
  injection H as <-; reflexivity.
Qed.
Lemma type_code_try_from_iff v t : type_code_try_from v = Ok t <-> v = type_code_num t.
Proof.
  split; [|intros ->; destruct t; reflexivity].
  unfold type_code_try_from. intro H.
  repeat match type of H with context [match ?x with _ => _ end] => destruct x; try discriminate end;
  injection H as <-; reflexivity.
Qed.
Lemma medium_try_from_np v : medium_try_from v <> Panic.
Proof.
  unfold medium_try_from.
  repeat match goal with |- context [match ?x with _ => _ end] => destruct x; try discriminate end.
Qed.
Lemma type_code_try_from_np v : type_code_try_from v <> Panic.
Proof.
  unfold type_code_try_from.
  repeat match goal with |- context [match ?x with _ => _ end] => destruct x; try discriminate end.
Qed.


Lemma status_truncate_mod v : status_truncate v = v mod 2.
Proof. unfold status_truncate. change 1 with (N.ones 1). rewrite N.land_ones. reflexivity. Qed.

Lemma device_info_read sl m st addr project serial multicast mac name rest :
  addr < 65536 -> project < 65536 ->
  length serial = 6%nat -> length multicast = 4%nat -> length mac = 6%nat -> length name = 30%nat ->
  device_info_from_packet sl
    (device_body (medium_num m) st addr project serial multicast mac name ++ rest) =
  Ok ({| di_len := sl; di_medium := m; di_status := st mod 2; di_addr := individual_from_u16 addr;
         di_project := project; di_serial := serial; di_multicast := multicast; di_mac := mac;
         di_name := name |}, rest).
Proof.
  intros. unfold device_body. rewrite <- !app_assoc.
  unfold device_info_from_packet, pbind. pgo. unfold lift.
  rewrite (proj2 (medium_try_from_iff _ m)) by reflexivity. pgo.
  rewrite !read_exact_app by assumption. unfold ret. rewrite status_truncate_mod. reflexivity.
Qed.
Lemma device_info_decode_iff sl bs d rest :
  bytes bs ->
  (device_info_from_packet sl bs = Ok (d, rest) <->
   exists st addr, st < 256 /\ addr < 65536 /\ di_project d < 65536 /\
     bs = device_body (medium_num (di_medium d)) st addr (di_project d) (di_serial d)
            (di_multicast d) (di_mac d) (di_name d) ++ rest /\
     di_len d = sl /\ di_status d = st mod 2 /\ di_addr d = individual_from_u16 addr /\
     length (di_serial d) = 6%nat /\ length (di_multicast d) = 4%nat /\
     length (di_mac d) = 6%nat /\ length (di_name d) = 30%nat).
Proof.
  intro Hb. split.
  - unfold device_info_from_packet. intro H. pinv.
    match goal with H : medium_try_from _ = _ |- _ => apply medium_try_from_iff in H; subst end.
    do 2 eexists. cbn [di_len di_medium di_status di_addr di_project di_serial di_multicast di_mac di_name].
    match goal with |- ?A /\ ?B /\ ?C /\ ?D /\ ?E => cut (D /\ A /\ B /\ C /\ E); [tauto|] end.
    unfold device_body. rewrite <- !app_assoc. split; [reflexivity|].
    rewrite status_truncate_mod. auto 15.
  - intros (st & addr & H1 & H2 & H3 & -> & H4 & H5 & H6 & H7 & H8 & H9 & H10).
    rewrite device_info_read by assumption. rewrite <- H4, <- H5, <- H6. destruct d; reflexivity.
Qed.
Lemma device_info_packet_eq d :
  wf_device d ->
  device_info_packet d = device_body (medium_num (di_medium d)) (di_status d) (individual_to_u16 (di_addr d))
    (di_project d) (di_serial d) (di_multicast d) (di_mac d) (di_name d).
Proof.
  intros (H1 & H2 & H3 & H4 & H5 & _). unfold device_info_packet, device_body.
  rewrite !be16_word; auto. rewrite individual_to_u16_layout by assumption. unfold individual_layout. lia.
Qed.
Lemma device_info_packet_length d : wf_device d -> length (device_info_packet d) = 52%nat.
Proof.
  intros (H1 & H2 & H3 & H4 & H5 & H6 & H7 & H8 & H9).
  unfold device_info_packet. rewrite !app_length, H6, H7, H8, H9. reflexivity.
Qed.

(** ** Families *)
Lemma families_packet_eq d : families_packet d = family_body (sf_list d).
Proof. unfold families_packet, family_body. rewrite flat_map_concat_map. reflexivity. Qed.
Lemma family_body_length fs : length (family_body fs) = (2 * length fs)%nat.
Proof. unfold family_body. induction fs as [|f fs IH]; cbn [map concat app length]; lia. Qed.
Lemma read_families_app fs rest : read_families (length fs) (family_body fs ++ rest) = Ok (fs, rest).
Proof.
  induction fs as [|[f v] fs IH]; [reflexivity|].
  unfold family_body in *. cbn [map concat fst snd length read_families app].
  unfold pbind at 1. cbn [read_u8]. unfold pbind at 1. cbn [read_u8]. unfold pbind. rewrite IH. reflexivity.
Qed.
Lemma read_families_ok n bs fs rest :
  read_families n bs = Ok (fs, rest) <-> length fs = n /\ bs = family_body fs ++ rest.
Proof.
  split; [|intros [<- ->]; apply read_families_app].
  revert bs fs. induction n as [|n IH]; cbn [read_families]; intros bs fs H.
  - apply ret_ok in H. destruct H as [-> ->]. auto.
  - pinv. match goal with H : read_families _ _ = _ |- _ => apply IH in H; destruct H as [<- ->] end.
    auto.
Qed.
Lemma np_read_families n : no_panic (read_families n).
Proof. induction n; cbn [read_families]; np. Qed.
Lemma families_read p sl fs rest :
  sl = 2 + 2 * N.of_nat (length fs) -> 
  families_from_packet p sl (family_body fs ++ rest) = Ok ({| sf_len := sl; sf_list := fs |}, rest).
Proof.
  intros ->. unfold families_from_packet, pbind, lift, sub_chk.
  replace (2 <=? 2 + 2 * N.of_nat (length fs)) with true by lia.
  replace (N.to_nat ((2 + 2 * N.of_nat (length fs) - 2) / 2)) with (length fs) by lia.
  rewrite read_families_app. reflexivity.
Qed.

(** ** Blocks *)
Lemma dib_run p t sl rest :
  dib_from_packet p ([sl; type_code_num t] ++ rest) =
  match t with
  | TDeviceInfo => pbind (device_info_from_packet sl) (fun d => ret (DibDevice d))
  | TFamilies => pbind (families_from_packet p sl) (fun d => ret (DibFamilies d))
  | TIpConfig => pbind (ip_config_from_packet sl) (fun d => ret (DibIpConfig d))
  | TIpCurrent => pbind (ip_current_from_packet sl) (fun d => ret (DibIpCurrent d))
  | TAddresses => pbind (knx_addresses_from_packet p sl) (fun d => ret (DibAddresses d))
  | TManufacturer => pbind (manufacturer_from_packet sl) (fun d => ret (DibManufacturer d))
  end rest.
Proof. destruct t; reflexivity. Qed.

Lemma block_eq t body : block (type_code_num t) body = [2 + lenN body; type_code_num t] ++ body.
Proof. reflexivity. Qed.

Lemma dib_packet_block d :
  2 + lenN (snd (dib_body d)) < 256 ->
  dib_packet d = block (type_code_num (fst (dib_body d))) (snd (dib_body d))
                 ++ (if N.odd (2 + lenN (snd (dib_body d))) then [0] else []).
Proof.
  intro H. unfold dib_packet. destruct (dib_body d) as [t data]. cbn [fst snd] in *.
  unfold as_u8. rewrite N.mod_small by assumption. rewrite block_eq.
  rewrite <- !app_assoc. reflexivity.
Qed.

Lemma dib_device_roundtrip p d rest :
  wf_device d -> di_len d = 54 ->
  dib_from_packet p (dib_packet (DibDevice d) ++ rest) = Ok (DibDevice d, rest).
Proof.
  intros Hw Hl. pose proof (device_info_packet_length d Hw) as L.
  rewrite dib_packet_block; cbn [dib_body fst snd]; unfold lenN; rewrite L; [|reflexivity].
  change (N.odd (2 + N.of_nat 52)) with false. cbv iota. rewrite app_nil_r.
  unfold block. rewrite L. rewrite <- app_assoc. change (2 + N.of_nat 52) with 54.
  rewrite dib_run. unfold pbind. rewrite device_info_packet_eq by assumption.
  destruct Hw as (H1 & H2 & H3 & H4 & H5 & H6 & H7 & H8 & H9).
  rewrite device_info_read; auto.
  2:{ rewrite individual_to_u16_layout by assumption. unfold individual_layout. lia. }
  unfold ret. rewrite individual_from_to by assumption. rewrite N.mod_small by lia.
  rewrite <- Hl. destruct d; reflexivity.
Qed.
Lemma dib_families_roundtrip p d rest :
  (length (sf_list d) <= 126)%nat -> sf_len d = 2 + 2 * N.of_nat (length (sf_list d)) ->
  dib_from_packet p (dib_packet (DibFamilies d) ++ rest) = Ok (DibFamilies d, rest).
Proof.
  intros H Hl. pose proof (family_body_length (sf_list d)) as L.
  rewrite dib_packet_block; cbn [dib_body fst snd]; rewrite families_packet_eq; unfold lenN; rewrite L; [|lia].
  replace (N.odd (2 + N.of_nat (2 * length (sf_list d)))) with false.
  2:{ symmetry. rewrite <- N.negb_even. apply negb_false_iff, N.even_spec. exists (1 + N.of_nat (length (sf_list d))). lia. }
  rewrite app_nil_r. unfold block. rewrite L, <- app_assoc, dib_run. unfold pbind.
  rewrite families_read by lia. unfold ret.
  replace (2 + N.of_nat (2 * length (sf_list d))) with (sf_len d) by lia. destruct d; reflexivity.
Qed.
Lemma dib_ip_config_roundtrip p d rest :
  length (ic_ip d) = 4%nat -> length (ic_mask d) = 4%nat -> length (ic_gateway d) = 4%nat -> ic_len d = 16 ->
  dib_from_packet p (dib_packet (DibIpConfig d) ++ rest) = Ok (DibIpConfig d, rest).
Proof.
  intros H1 H2 H3 Hl.
  assert (L : length (ip_config_packet d) = 14%nat)
    by (unfold ip_config_packet; rewrite !app_length, H1, H2, H3; reflexivity).
  rewrite dib_packet_block; cbn [dib_body fst snd]; unfold lenN; rewrite L; [|reflexivity].
  change (N.odd (2 + N.of_nat 14)) with false. cbv iota. rewrite app_nil_r.
  unfold block. rewrite L, <- app_assoc, dib_run. unfold pbind, ip_config_from_packet, pbind, ip_config_packet.
  rewrite <- !app_assoc, !read_exact_app by assumption.
  change (2 + N.of_nat 14) with 16; change (2 + N.of_nat 18) with 20.
  rewrite <- Hl. destruct d; reflexivity.
Qed.
Lemma dib_ip_current_roundtrip p d rest :
  length (iu_ip d) = 4%nat -> length (iu_mask d) = 4%nat -> length (iu_gateway d) = 4%nat ->
  length (iu_dhcp d) = 4%nat -> iu_len d = 20 ->
  dib_from_packet p (dib_packet (DibIpCurrent d) ++ rest) = Ok (DibIpCurrent d, rest).
Proof.
  intros H1 H2 H3 H4 Hl.
  assert (L : length (ip_current_packet d) = 18%nat)
    by (unfold ip_current_packet; rewrite !app_length, H1, H2, H3, H4; reflexivity).
  rewrite dib_packet_block; cbn [dib_body fst snd]; unfold lenN; rewrite L; [|reflexivity].
  change (N.odd (2 + N.of_nat 18)) with false. cbv iota. rewrite app_nil_r.
  unfold block. rewrite L, <- app_assoc, dib_run. unfold pbind, ip_current_from_packet, pbind, ip_current_packet.
  rewrite <- !app_assoc, !read_exact_app by assumption.
  change (2 + N.of_nat 14) with 16; change (2 + N.of_nat 18) with 20.
  rewrite <- Hl. destruct d; reflexivity.
Qed.

(** Manufacturer blocks: the reader wants [structure_length] bytes of data
    after the identifier, four more than the writer wrote. *)
Lemma read_exact_short n bs : (length bs < n)%nat -> read_exact n bs = Err.
Proof. intro H. unfold read_exact. destruct (Nat.leb_spec n (length bs)); [lia|reflexivity]. Qed.
Lemma dib_manufacturer_rejected p d :
  md_id d < 65536 -> lenN (md_data d) <= 251 ->
  dib_from_packet p (dib_packet (DibManufacturer d)) = Err.
Proof.
  intros Hi Hl.
  assert (L : lenN (manufacturer_packet d) = 2 + lenN (md_data d))
    by (unfold manufacturer_packet; rewrite lenN_app; reflexivity).
  rewrite dib_packet_block; cbn [dib_body fst snd]; rewrite L; [|lia].
  rewrite block_eq, L, <- app_assoc, dib_run. unfold pbind, manufacturer_from_packet, pbind.
  unfold manufacturer_packet. rewrite be16_word by assumption. rewrite <- app_assoc.
  rewrite read_u16_word by assumption. rewrite read_exact_short; [reflexivity|].
  rewrite app_length. unfold lenN in *.
  match goal with |- context [if ?c then _ else _] => destruct c end; cbn [length]; lia.
Qed.
Lemma read_quads_short n bs : (length bs < 4 * n)%nat -> read_quads n bs = Err.
Proof.
  revert bs. induction n as [|n IH]; cbn [read_quads]; intros bs H; [lia|].
  unfold pbind. destruct (Nat.ltb_spec (length bs) 4) as [Hs|Hs].
  - rewrite read_exact_short by assumption. reflexivity.
  - unfold read_exact. rewrite (proj2 (Nat.leb_le 4 (length bs)) Hs).
    rewrite IH; [reflexivity|]. rewrite skipn_length. lia.
Qed.
Lemma dib_addresses_rejected p d :
  length (ka_addr d) = 4%nat -> Forall (fun a => length a = 4%nat) (ka_more d) ->
  (length (ka_more d) <= 62)%nat ->
  dib_from_packet p (dib_packet (DibAddresses d)) = Err.
Proof.
  intros H1 H2 H3.
  assert (L0 : length (concat (ka_more d)) = (4 * length (ka_more d))%nat).
  { clear H3. induction H2 as [|a l Ha _ IH]; cbn [concat length]; [reflexivity|]. rewrite app_length, Ha, IH. lia. }
  assert (L : lenN (knx_addresses_packet d) = 4 + 4 * N.of_nat (length (ka_more d)))
    by (unfold knx_addresses_packet, lenN; rewrite app_length, H1, L0; lia).
  rewrite dib_packet_block; cbn [dib_body fst snd]; rewrite L; [|lia].
  replace (N.odd (2 + (4 + 4 * N.of_nat (length (ka_more d))))) with false.
  2:{ symmetry. rewrite <- N.negb_even. apply negb_false_iff, N.even_spec. exists (3 + 2 * N.of_nat (length (ka_more d))). lia. }
  rewrite app_nil_r, block_eq, L, dib_run. unfold pbind, knx_addresses_from_packet, pbind.
  unfold knx_addresses_packet. rewrite read_exact_app by assumption.
  unfold lift, sub_chk.
  replace (4 <=? 2 + (4 + 4 * N.of_nat (length (ka_more d)))) with true by lia.
  rewrite read_quads_short; [reflexivity|]. rewrite L0. lia.
Qed.

(** ** Search response *)
Lemma search_response_read p c m st addr project serial multicast mac name fs rest :
  wf_hpai c -> addr < 65536 -> project < 65536 ->
  length serial = 6%nat -> length multicast = 4%nat -> length mac = 6%nat -> length name = 30%nat ->
  (length fs <= 126)%nat ->
  search_response_from_packet p
    (frame 0x0202 (hpai_bytes (hp_code c) (hp_ip c) (hp_port c)
                   ++ block 0x01 (device_body (medium_num m) st addr project serial multicast mac name)
                   ++ block 0x02 (family_body fs)) ++ rest) =
  Ok ({| sr_control := c;
         sr_device := {| di_len := 54; di_medium := m; di_status := st mod 2;
                         di_addr := {| ia_area := addr / 4096; ia_line := addr / 256 mod 16; ia_address := addr mod 256 |};
                         di_project := project; di_serial := serial; di_multicast := multicast;
                         di_mac := mac; di_name := name |};
         sr_families := {| sf_len := 2 + 2 * N.of_nat (length fs); sf_list := fs |} |}, rest).
Proof.
  intros Hw Ha Hp H1 H2 H3 H4 H5.
  set (dev := device_body (medium_num m) st addr project serial multicast mac name).
  assert (Ld : length dev = 52%nat).
  { unfold dev, device_body. rewrite !app_length, H1, H2, H3, H4. reflexivity. }
  rewrite <- hpai_packet_eq by apply Hw.
  set (body := hpai_packet c ++ block 1 dev ++ block 2 (family_body fs)).
  assert (Lb : N.of_nat (length body) < 65000).
  { unfold body. rewrite !app_length, hpai_packet_length by apply Hw. unfold block.
    rewrite !app_length, Ld, family_body_length. cbn [length]. lia. }
  unfold frame. rewrite <- !app_assoc.
  unfold search_response_from_packet, header_from_packet, pbind. pgo. unfold body. rewrite <- !app_assoc.
  rewrite hpai_roundtrip by assumption.
  change (block 1 dev) with ([2 + N.of_nat (length dev); type_code_num TDeviceInfo] ++ dev).
  rewrite <- !app_assoc, dib_run. unfold pbind. unfold dev at 2. rewrite device_info_read by assumption.
  unfold ret at 1. unfold ret at 1.
  change (block 2 (family_body fs)) with ([2 + N.of_nat (length (family_body fs)); type_code_num TFamilies] ++ family_body fs).
  rewrite <- !app_assoc, dib_run. unfold pbind. rewrite families_read by (rewrite family_body_length; lia).
  unfold ret. rewrite Ld, family_body_length, individual_from_u16_layout by assumption.
  replace (2 + N.of_nat (2 * length fs)) with (2 + 2 * N.of_nat (length fs)) by lia. reflexivity.
Qed.

Lemma search_response_own_rejected p s rest :
  wf_hpai (sr_control s) -> di_status (sr_device s) = 0 ->
  search_response_from_packet p (search_response_packet s ++ rest) = Err.
Proof.
  intros Hw Hs.
  unfold search_response_packet, device_info_packet. rewrite Hs, <- !app_assoc.
  rewrite be16_word by (unfold as_u16; lia).
  change [0x06; 0x10; 0x02; 0x02] with ([0x06; 0x10] ++ word 0x0202). rewrite <- !app_assoc.
  unfold search_response_from_packet, header_from_packet, pbind.
  set (X := as_u16 _). assert (HX : X < 65536) by (unfold X, as_u16; lia). clearbody X.
  pgo. reflexivity.
Qed.

(** ** Panics *)
Lemma np_device_info sl : no_panic (device_info_from_packet sl).
Proof.
  unfold device_info_from_packet. apply np_bind; [apply np_u8|]. intro m.
  apply np_bind; [apply np_lift, medium_try_from_np|]. intro. np.
Qed.
Lemma np_read_quads n : no_panic (read_quads n).
Proof. induction n; cbn [read_quads]; np. Qed.
Lemma np_families_release sl : no_panic (families_from_packet Release sl).
Proof.
  unfold families_from_packet. apply np_bind.
  - apply np_lift. unfold sub_chk. destruct (2 <=? sl); discriminate.
  - intro d. apply np_bind; [apply np_read_families | intro; apply np_ret].
Qed.
Lemma np_addresses_release sl : no_panic (knx_addresses_from_packet Release sl).
Proof.
  unfold knx_addresses_from_packet. apply np_bind; [apply np_exact|]. intro a. apply np_bind.
  - apply np_lift. unfold sub_chk. destruct (4 <=? sl); discriminate.
  - intro d. apply np_bind; [apply np_read_quads | intro; apply np_ret].
Qed.

Lemma dib_panic_iff p bs :
  dib_from_packet p bs = Panic <->
  p = Debug /\ exists sl rest,
    (bs = [sl; 0x02] ++ rest /\ sl < 2) \/ (bs = [sl; 0x05] ++ rest /\ sl < 4 /\ (4 <= length rest)%nat).
Proof.
  split.
  - intro H. destruct bs as [|sl [|tc rest]]; try discriminate.
    unfold dib_from_packet in H. unfold pbind at 1 in H. cbn [read_u8] in H.
    unfold pbind at 1 in H. cbn [read_u8] in H. unfold pbind at 1, lift at 1 in H.
    destruct (type_code_try_from tc) as [t| |] eqn:T; [|discriminate|destruct (type_code_try_from_np _ T)].
    apply type_code_try_from_iff in T. subst tc.
    destruct t; cbn [type_code_num] in *.
    + exfalso. revert H. apply np_bind; [apply np_device_info|intro; apply np_ret].
    + destruct p.
      * split; [reflexivity|]. exists sl, rest. left. split; [reflexivity|].
        destruct (N.ltb_spec sl 2) as [L|L]; [exact L|exfalso].
        revert H. apply np_bind; [|intro; apply np_ret]. unfold families_from_packet.
        apply np_bind; [|intro; apply np_bind; [apply np_read_families|intro; apply np_ret]].
        apply np_lift. unfold sub_chk. replace (2 <=? sl) with true by lia. discriminate.
      * exfalso. revert H. apply np_bind; [apply np_families_release|intro; apply np_ret].
    + exfalso. revert H. apply np_bind; [unfold ip_config_from_packet; np|intro; apply np_ret].
    + exfalso. revert H. apply np_bind; [unfold ip_current_from_packet; np|intro; apply np_ret].
    + destruct p.
      * split; [reflexivity|]. exists sl, rest. right. split; [reflexivity|].
        destruct (Nat.leb_spec 4 (length rest)) as [Hl|Hl].
        2:{ exfalso. unfold pbind, knx_addresses_from_packet, pbind in H.
            rewrite read_exact_short in H by assumption. discriminate. }
        split; [|assumption].
        destruct (N.ltb_spec sl 4) as [L|L]; [exact L|exfalso].
        revert H. apply np_bind; [|intro; apply np_ret]. unfold knx_addresses_from_packet.
        apply np_bind; [apply np_exact|intro].
        apply np_bind; [|intro; apply np_bind; [apply np_read_quads|intro; apply np_ret]].
        apply np_lift. unfold sub_chk. replace (4 <=? sl) with true by lia. discriminate.
      * exfalso. revert H. apply np_bind; [apply np_addresses_release|intro; apply np_ret].
    + exfalso. revert H. apply np_bind; [unfold manufacturer_from_packet; np|intro; apply np_ret].
  - intros (-> & sl & rest & [(-> & H)|(-> & H & Hl)]).
    + unfold dib_from_packet, pbind. cbn. unfold families_from_packet, pbind, lift, sub_chk.
      replace (2 <=? sl) with false by lia. reflexivity.
    + unfold dib_from_packet, pbind. cbn -[read_exact]. unfold knx_addresses_from_packet, pbind.
      unfold read_exact at 1. rewrite (proj2 (Nat.leb_le _ _) Hl).
      unfold lift, sub_chk. replace (4 <=? sl) with false by lia. reflexivity.
Qed.

(** ** Friendly name *)
Lemma device_info_new_iff sl m st a pr ser mc mac name :
  ((exists d, device_info_new sl m st a pr ser mc mac name = Ok d) <->
   length name = 30%nat /\ bytes name) /\
  (forall d, device_info_new sl m st a pr ser mc mac name = Ok d -> friendly_name d = Ok name /\ bytes (di_name d)) /\
  device_info_new sl m st a pr ser mc mac name <> Panic.
Proof.
  unfold device_info_new, iso_encode, friendly_name.
  destruct (forallb (fun c => c <=? 255) name) eqn:F.
  - assert (B : bytes name).
    { rewrite forallb_forall in F. apply Forall_forall. intros x Hx. apply F in Hx. unfold byte. lia. }
    destruct (Nat.eqb_spec (length name) 30).
    + split; [split; [auto | eauto]|]. split; [|discriminate].
      intros d H. injection H as <-. auto.
    + split; [split; [intros [d H]; discriminate | tauto]|]. split; [discriminate|discriminate].
  - split; [split|split; discriminate].
    + intros [d H]; discriminate.
    + intros [_ B]. exfalso. assert (forallb (fun c => c <=? 255) name = true); [|congruence].
      apply forallb_forall. intros x Hx. unfold bytes in B. rewrite Forall_forall in B. specialize (B x Hx). unfold byte in B. lia.
Qed.
