(** Which octets are read as which description information block and as which
    search response. *)
From Verif Require Import Base Wire Spec DibSpec BaseProofs Addresses Core CoreProofs DibProofs CodecMore SearchProofs.
From Coq Require Import Lia ZifyBool ZifyNat ZifyN.
Open Scope N_scope.

Lemma entries_iff p sl head n : sl < 256 -> head <= 256 ->
  (exists d, sub_chk p u8_max1 sl head = Ok d /\ N.to_nat (d / 2) = n) <-> entries p sl head n.
Proof.
  intros Hs Hh. unfold sub_chk, entries, u8_max1. split.
  - intros (d&E&<-). destruct (N.leb_spec head sl).
    + injection E as <-. left. split; [assumption|]. apply N2Nat.id.
    + destruct p; [discriminate E|]. injection E as <-. right. split; [assumption|]. split; [reflexivity|].
      rewrite N2Nat.id, N.mod_small by lia. f_equal. lia.
  - intros [(L&E)|(L&->&E)].
    + exists (sl - head). rewrite (proj2 (N.leb_le _ _) L), <- E. split; [reflexivity|]. apply Nat2N.id.
    + exists (256 + sl - head). rewrite (proj2 (N.leb_gt _ _) L), <- E. split; [|apply Nat2N.id].
      f_equal. rewrite N.mod_small; lia.
Qed.
Lemma read_quads_ok n bs qs rest :
  read_quads n bs = Ok (qs, rest) <-> length qs = n /\ Forall (fun x => length x = 4%nat) qs /\ bs = concat qs ++ rest.
Proof.
  split.
  - revert bs qs. induction n as [|n IH]; cbn [read_quads]; intros bs qs H.
    + apply ret_ok in H. destruct H as [-> ->]. auto.
    + pinv. match goal with H : read_quads _ _ = _ |- _ => apply IH in H; destruct H as (<-&F&->) end.
      cbn [length concat]. rewrite <- app_assoc. auto.
  - intros (<-&F&->). induction F as [|q qs Hq F IH]; [reflexivity|]. cbn [length read_quads concat].
    unfold pbind. rewrite <- app_assoc, read_exact_app by exact Hq. rewrite IH. reflexivity.
Qed.
Lemma dib_decode_iff p bs d rest :
  bytes bs -> (dib_from_packet p bs = Ok (d, rest) <-> exists x, bs = x ++ rest /\ dib_octets p d x).
Proof.
  intro Hb. split.
  - unfold dib_from_packet. intro H. pinv.
    match goal with H : type_code_try_from _ = _ |- _ => apply type_code_try_from_iff in H; subst end.
    match goal with |- context [type_code_num ?t] => destruct t end; pinv; cbn [dib_octets type_code_num].
    + match goal with H : device_info_from_packet _ _ = _ |- _ => apply device_info_decode_iff in H; [|assumption];
        destruct H as (st&addr&K1&K2&K3&->&K4&K5&K6&K7) end.
      eexists (_ ++ _). split; [|exists st, addr; split; [exact K2|]; split; [exact K3|]; split; [reflexivity|];
        rewrite <- individual_from_u16_layout by exact K2; auto].
      rewrite <- app_assoc, K4. reflexivity.
    + unfold families_from_packet in *. pinv.
      match goal with H : read_families _ _ = _ |- _ => apply read_families_ok in H; destruct H as [L ->] end.
      eexists (_ ++ _). cbn [sf_len sf_list]. split; [|split; [reflexivity|]]; [reflexivity|].
      apply entries_iff; [assumption|lia|]. eauto.
    + unfold ip_config_from_packet in *. pinv. eexists (_ ++ _). cbn [ic_len ic_ip ic_mask ic_gateway ic_caps ic_method].
      split; [|split; [reflexivity|auto]]. rewrite <- !app_assoc. reflexivity.
    + unfold ip_current_from_packet in *. pinv. eexists (_ ++ _). cbn [iu_len iu_ip iu_mask iu_gateway iu_dhcp iu_method iu_reserved].
      split; [|split; [reflexivity|auto]]. rewrite <- !app_assoc. reflexivity.
    + unfold knx_addresses_from_packet in *. pinv.
      match goal with H : read_quads _ _ = _ |- _ => apply read_quads_ok in H; destruct H as (L&F&->) end.
      eexists (_ ++ _). cbn [ka_len ka_addr ka_more]. split; [|split; [reflexivity|]]; [rewrite <- !app_assoc; reflexivity|].
      split; [assumption|]. split; [assumption|]. apply entries_iff; [assumption|lia|]. eauto.
    + unfold manufacturer_from_packet in *. pinv. eexists (_ ++ _). cbn [md_len md_id md_data].
      split; [|split; [assumption|split; [reflexivity|lia]]]. rewrite <- !app_assoc. reflexivity.
  - intros (x&->&H). destruct d as [d|d|d|d|d|d]; cbn [dib_octets] in H.
    + destruct H as (st&addr&H1&H2&->&H3&H4&H5&H6&H7&H8). rewrite <- app_assoc.
      change 0x01 with (type_code_num TDeviceInfo). rewrite dib_run. unfold pbind. rewrite device_info_read by assumption.
      unfold ret. rewrite individual_from_u16_layout, <- H3, <- H4 by assumption. destruct d; reflexivity.
    + destruct H as (->&H). assert (Hl : sf_len d < 256) by (apply bytes_app in Hb; destruct Hb as (Hb&_); apply bytes_app in Hb; destruct Hb as (Hb&_); apply bytes_cons in Hb; apply Hb).
      apply entries_iff in H; [|exact Hl|lia]. destruct H as (n&E&L).
      rewrite <- app_assoc. change 0x02 with (type_code_num TFamilies). rewrite dib_run. unfold families_from_packet, lift, pbind.
      rewrite E, L, read_families_app. destruct d; reflexivity.
    + destruct H as (->&H1&H2&H3). rewrite <- app_assoc. change 0x03 with (type_code_num TIpConfig). rewrite dib_run.
      unfold ip_config_from_packet, pbind. rewrite <- !app_assoc, !read_exact_app by assumption. destruct d; reflexivity.
    + destruct H as (->&H1&H2&H3&H4). rewrite <- app_assoc. change 0x04 with (type_code_num TIpCurrent). rewrite dib_run.
      unfold ip_current_from_packet, pbind. rewrite <- !app_assoc, !read_exact_app by assumption. destruct d; reflexivity.
    + destruct H as (->&H1&H2&H).
      assert (Hl : ka_len d < 256) by (apply bytes_app in Hb; destruct Hb as (Hb&_); apply bytes_app in Hb; destruct Hb as (Hb&_); apply bytes_cons in Hb; apply Hb).
      apply entries_iff in H; [|exact Hl|lia]. destruct H as (n&E&L).
      rewrite <- !app_assoc. change 0x05 with (type_code_num TAddresses). rewrite dib_run. unfold knx_addresses_from_packet, lift, pbind.
      rewrite read_exact_app by assumption. rewrite E, (proj2 (read_quads_ok _ _ (ka_more d) rest)); [destruct d; reflexivity|auto].
    + destruct H as (H1&->&H2). rewrite <- app_assoc. change 0xfe with (type_code_num TManufacturer). rewrite dib_run.
      unfold manufacturer_from_packet, pbind. rewrite <- !app_assoc, read_u16_word by assumption.
      rewrite read_exact_app by lia. destruct d; reflexivity.
Qed.
Lemma search_response_decode_iff p bs r rest :
  bytes bs -> (search_response_from_packet p bs = Ok (r, rest) <-> exists x, bs = x ++ rest /\ search_octets p r x).
Proof.
  intro Hb. split.
  - unfold search_response_from_packet. intro H.
    apply pbind_ok in H. destruct H as (h&b1&H1&H). apply header_decode_iff in H1; [|exact Hb]. destruct H1 as (_&Ht&->).
    pinv. match goal with H : (_ =? _) = true |- _ => apply N.eqb_eq in H; rewrite H in * end.
    match goal with H : hpai_from_packet _ = _ |- _ => apply hpai_decode_iff in H; [|assumption]; destruct H as (Hw&->) end.
    pinv.
    match goal with H : dib_from_packet _ _ = _ |- _ => apply dib_decode_iff in H; [|assumption]; destruct H as (o1&->&O1) end.
    match goal with H : match ?d with _ => _ end _ = Ok (?v, _), O : dib_octets _ ?d _ |- _ => destruct d; try discriminate H end. pinv.
    match goal with H : dib_from_packet _ _ = _ |- _ => apply dib_decode_iff in H; [|assumption]; destruct H as (o2&->&O2) end.
    match goal with H : match ?d with _ => _ end _ = Ok _ |- _ => destruct d; try discriminate H end. pinv.
    eexists. split; [|exists (h_total h), o1, o2; split; [exact Ht|]; split; [exact Hw|]; split; [exact O1|]; split; [exact O2|reflexivity]].
    cbn [sr_control]. rewrite <- !app_assoc. reflexivity.
  - intros (x&->&size&o1&o2&Hs&Hw&O1&O2&->). rewrite <- !app_assoc in *.
    apply bytes_app in Hb. destruct Hb as (_&Hb). apply bytes_app in Hb. destruct Hb as (_&Hb). apply bytes_app in Hb. destruct Hb as (_&Hb).
    assert (B2 : bytes (o1 ++ o2 ++ rest)) by (apply bytes_app in Hb; apply Hb).
    assert (B3 : bytes (o2 ++ rest)) by (apply bytes_app in B2; apply B2).
    rewrite <- hpai_packet_eq by apply Hw.
    unfold search_response_from_packet, header_from_packet, pbind. pgo.
    rewrite (proj2 (dib_decode_iff p (o1 ++ o2 ++ rest) (DibDevice (sr_device r)) (o2 ++ rest) B2)) by eauto.
    unfold ret at 1.
    rewrite (proj2 (dib_decode_iff p (o2 ++ rest) (DibFamilies (sr_families r)) rest B3)) by eauto.
    destruct r; reflexivity.
Qed.
Lemma structure_length p bs d rest : bytes bs -> dib_from_packet p bs = Ok (d, rest) -> dib_structure_length d = hd 0 bs.
Proof.
  intros Hb H. apply dib_decode_iff in H; [|exact Hb]. destruct H as (x&->&H).
  destruct d; cbn [dib_octets dib_structure_length] in *;
    repeat match goal with H : exists _, _ |- _ => destruct H | H : _ /\ _ |- _ => destruct H end; subst; reflexivity.
Qed.
(** Two blocks that begin alike are the same block. *)
Lemma dib_octets_prefix p d d' x x' r r' : bytes (x ++ r) -> x ++ r = x' ++ r' -> dib_octets p d x -> dib_octets p d' x' ->
  d = d' /\ x = x' /\ r = r'.
Proof.
  intros Hb E H H'. assert (K : dib_from_packet p (x ++ r) = Ok (d, r)) by (apply dib_decode_iff; eauto).
  assert (K' : dib_from_packet p (x ++ r) = Ok (d', r')) by (apply dib_decode_iff; eauto).
  rewrite K in K'. injection K' as -> ->. split; [reflexivity|]. split; [|reflexivity]. apply app_inv_tail in E. exact E.
Qed.

(** ** Requests about a connection *)
Lemma requests_of_response bs r rest : bytes bs -> connection_response_from_packet bs = Ok (r, rest) ->
  connstate_request_packet (connstate_of_connection_response r) = frame 0x0207 ([nth 6 bs 0; 0] ++ firstn 8 (skipn 8 bs)) /\
  disconnect_request_packet (disconnect_of_connection_response r) = frame 0x0209 ([nth 6 bs 0; 0] ++ firstn 8 (skipn 8 bs)).
Proof.
  intros Hb H. apply connection_response_decode_iff in H; [|exact Hb]. destruct H as (size&n&_&_&->&Hw&_).
  assert (byte (cr_chan r)) as Hc by (rewrite !app_assoc in Hb; pinv; assumption).
  assert (firstn 8 (skipn 8 ([6; 16] ++ word 518 ++ word size ++ [cr_chan r; cr_status r] ++
    hpai_bytes (hp_code (cr_endpoint r)) (hp_ip (cr_endpoint r)) (hp_port (cr_endpoint r)) ++ [4; 4] ++ word n ++ rest)) =
    hpai_bytes (hp_code (cr_endpoint r)) (hp_ip (cr_endpoint r)) (hp_port (cr_endpoint r))) as ->.
  { cbn [skipn app word]. pose proof (hpai_bytes_length (cr_endpoint r) Hw) as L.
    rewrite firstn_app, L, firstn_all2 by lia. rewrite app_nil_r. reflexivity. }
  split; [apply (connstate_request_both (connstate_of_connection_response r))|
          apply (disconnect_request_both (disconnect_of_connection_response r))]; assumption.
Qed.

(** ** Octets taken by a block *)
Lemma concat_quads (l : list (list N)) : Forall (fun x => length x = 4%nat) l -> length (concat l) = (4 * length l)%nat.
Proof. induction 1 as [|a l Ha _ IH]; cbn [concat length]; [reflexivity|]. rewrite app_length, Ha, IH. lia. Qed.
Lemma dib_octets_length p d x : dib_octets p d x ->
  length x = match d with
             | DibDevice _ => 54
             | DibFamilies f => 2 + 2 * length (sf_list f)
             | DibIpConfig _ => 16
             | DibIpCurrent _ => 20
             | DibAddresses a => 6 + 4 * length (ka_more a)
             | DibManufacturer m => 4 + length (md_data m)
             end%nat.
Proof.
  destruct d; cbn [dib_octets]; intro H;
    repeat match goal with H : exists _, _ |- _ => destruct H | H : _ /\ _ |- _ => destruct H end; subst;
    unfold device_body; rewrite ?app_length, ?family_body_length; cbn [length word]; try lia.
  rewrite concat_quads by assumption. lia.
Qed.
Lemma takes_its_length p bs d rest : bytes bs -> dib_from_packet p bs = Ok (d, rest) ->
  (N.of_nat (length bs - length rest) = hd 0 bs <->
   match d with
   | DibDevice _ => hd 0 bs = 54
   | DibFamilies _ => exists k, hd 0 bs = 2 * k /\ k <> 0
   | DibIpConfig _ => hd 0 bs = 16
   | DibIpCurrent _ => hd 0 bs = 20
   | DibAddresses _ | DibManufacturer _ => False
   end).
Proof.
  intros Hb H. rewrite <- (structure_length _ _ _ _ Hb H). pose proof (structure_length _ _ _ _ Hb H) as Hh.
  assert (Hl : hd 0 bs < 256) by (destruct bs as [|b bs]; [reflexivity|apply bytes_cons in Hb; apply Hb]).
  rewrite <- Hh in Hl. clear Hh.
  apply dib_decode_iff in H; [|exact Hb]. destruct H as (x&->&H). pose proof (dib_octets_length _ _ _ H) as L.
  rewrite app_length. replace (length x + length rest - length rest)%nat with (length x) by lia. rewrite L.
  destruct d; cbn [dib_octets dib_structure_length] in *;
    repeat match goal with H : exists _, _ |- _ => destruct H | H : _ /\ _ |- _ => destruct H end; subst;
    unfold entries in *; try lia.
  split.
  - intro E. exists (1 + N.of_nat (length (sf_list d))). lia.
  - intros (k&E&Hk). rewrite E in *. lia.
Qed.
