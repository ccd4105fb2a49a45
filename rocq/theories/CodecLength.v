(** How much the decoders consume: what this library writes for a connection
    response or a search response is too short to be read back. *)
From Verif Require Import Base Addresses Tunneling Core Transport Wire Spec BaseProofs CoreProofs DibProofs ResponseProofs CodecMore.
From Coq Require Import Lia.
Open Scope N_scope.

Lemma u16_length r v r' : read_u16 r = Ok (v, r') -> length r = S (S (length r')).
Proof. destruct r as [|a [|b r]]; cbn; intro H; try discriminate H. injection H as _ <-. reflexivity. Qed.
Ltac measure := repeat first [pinv1 | match goal with H : read_u16 ?r = Ok (_, ?r') |- _ => apply u16_length in H end];
  repeat (rewrite app_length in * || cbn [length] in *).
Lemma hpai_takes r h r' : hpai_from_packet r = Ok (h, r') -> length (hp_ip h) = 4%nat /\ length r = (8 + length r')%nat.
Proof. intro H. unfold hpai_from_packet in H. measure. cbn [hp_ip length]. lia. Qed.
Lemma be16_length x : length (be16 x) = 2%nat. Proof. reflexivity. Qed.
Lemma header_takes r h r' : header_from_packet r = Ok (h, r') -> length r = (6 + length r')%nat.
Proof. intro H. unfold header_from_packet in H. measure. lia. Qed.
Lemma crd_takes r a r' : crd_from_packet r = Ok (a, r') -> length r = (4 + length r')%nat.
Proof. intro H. unfold crd_from_packet in H. measure. lia. Qed.
Lemma connection_response_takes r a r' : connection_response_from_packet r = Ok (a, r') ->
  length (hp_ip (cr_endpoint a)) = 4%nat /\ length r = (20 + length r')%nat.
Proof.
  intro H. unfold connection_response_from_packet in H. measure.
  match goal with G : hpai_from_packet _ = _ |- _ => apply hpai_takes in G end.
  match goal with G : crd_from_packet _ = _ |- _ => apply crd_takes in G end.
  cbn [cr_endpoint]. lia.
Qed.
Lemma connection_response_never r rest : connection_response_from_packet (connection_response_packet r ++ rest) <> Ok (r, rest).
Proof.
  intro H. apply connection_response_takes in H. destruct H as (H1&H2). unfold connection_response_packet, hpai_packet, crd_packet in H2.
  rewrite !app_length, !be16_length, H1 in H2. cbn [length] in H2. lia.
Qed.
Lemma families_take n r l r' : read_families n r = Ok (l, r') -> length l = n /\ length r = (2 * n + length r')%nat.
Proof.
  revert r l. induction n as [|n IH]; intros r l H; cbn [read_families] in H; measure; [lia|].
  match goal with G : read_families _ _ = _ |- _ => apply IH in G end. cbn [length]. lia.
Qed.
Lemma device_takes p r d r' : dib_from_packet p r = Ok (DibDevice d, r') ->
  length (di_serial d) = 6%nat /\ length (di_multicast d) = 4%nat /\ length (di_mac d) = 6%nat /\ length (di_name d) = 30%nat /\
  length r = (54 + length r')%nat.
Proof.
  intro H. unfold dib_from_packet in H. pinv.
  match goal with G : (match ?t with _ => _ end) _ = _ |- _ => destruct t; pinv; try discriminate end.
  match goal with G : DibDevice _ = DibDevice _ |- _ => injection G as <- end.
  match goal with G : device_info_from_packet _ _ = _ |- _ => unfold device_info_from_packet in G end. measure.
  cbn [di_serial di_multicast di_mac di_name]. lia.
Qed.
Lemma services_take p r f r' : dib_from_packet p r = Ok (DibFamilies f, r') -> length r = (2 + 2 * length (sf_list f) + length r')%nat.
Proof.
  intro H. unfold dib_from_packet in H. pinv.
  match goal with G : (match ?t with _ => _ end) _ = _ |- _ => destruct t; pinv; try discriminate end.
  match goal with G : DibFamilies _ = DibFamilies _ |- _ => injection G as <- end.
  match goal with G : families_from_packet _ _ _ = _ |- _ => unfold families_from_packet in G end. pinv.
  match goal with G : read_families _ _ = _ |- _ => apply families_take in G end. cbn [sf_list length]. lia.
Qed.
Lemma search_response_takes p r s r' : search_response_from_packet p r = Ok (s, r') ->
  length (hp_ip (sr_control s)) = 4%nat /\ length (device_info_packet (sr_device s)) = 52%nat /\
  length r = (70 + 2 * length (sf_list (sr_families s)) + length r')%nat.
Proof.
  intro H. unfold search_response_from_packet in H. pinv.
  repeat match goal with G : (match ?t with _ => _ end) _ = Ok _ |- _ => destruct t; try discriminate G; pinv end.
  match goal with G : hpai_from_packet _ = _ |- _ => apply hpai_takes in G end.
  match goal with G : header_from_packet _ = _ |- _ => apply header_takes in G end.
  match goal with G : dib_from_packet _ _ = Ok (DibDevice _, _) |- _ => apply device_takes in G end.
  match goal with G : dib_from_packet _ _ = Ok (DibFamilies _, _) |- _ => apply services_take in G end.
  cbn [sr_control sr_device sr_families]. unfold device_info_packet. rewrite !app_length, !be16_length. cbn [length]. lia.
Qed.
Lemma families_packet_length f : length (families_packet f) = (2 * length (sf_list f))%nat.
Proof. unfold families_packet. induction (sf_list f) as [|x l IH]; [reflexivity|]. cbn [flat_map app length]. lia. Qed.
Lemma search_response_never p s rest : search_response_from_packet p (search_response_packet s ++ rest) <> Ok (s, rest).
Proof.
  intro H. apply search_response_takes in H. destruct H as (H1&H2&H3). unfold search_response_packet, hpai_packet in H3.
  rewrite !app_length, !be16_length, H1, H2, families_packet_length in H3. cbn [length] in H3. lia.
Qed.
