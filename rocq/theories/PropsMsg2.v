(** C158-C160: what the errors about description blocks, L_Data messages and
    address texts say. *)
From Verif Require Import Base Addresses Core Emi Messages Messages2 Wire Spec MsgSpec MsgSpec2 MsgView MsgView2 MessageProofs2.
Open Scope N_scope.

(** ** C158: the error about a truncated description block names the field *)

(** The decoders with texts are the decoders all other theorems are about. *)
Theorem C158_same_decoders : forall debug p,
  same (m_dib p) (dib_from_packet p) /\ same m_search_request search_request_from_packet /\
  same (m_search_response debug p) (search_response_from_packet p).
Proof. intros debug p. exact (conj (same_dib p) (conj same_search_request (same_search_response debug p))). Qed.

(** FULL STATEMENT (false): the same for a block that is cut in its first two
    octets.  Missing: the type code, which is called "structure length" too. *)
Theorem C158_block_partial : forall p len code rest fs,
  block_fields code len = Some fs -> long_enough code len ->
  (code = 0x01 -> forall m r, rest = m :: r -> known_medium m) ->
  text_of (m_dib p (len :: code :: rest)) =
  option_map (fun what => "Unable to read " ++ what)%string (first_missing fs (List.length rest)).
Proof. exact dib_tail. Qed.
Theorem C158_head_refuted : forall p len,
  text_of (m_dib p []) = Some "Unable to read structure length"%string /\
  text_of (m_dib p [len]) = Some "Unable to read structure length"%string.
Proof. intros p len. split; reflexivity. Qed.
(** A type code or a medium nobody knows is stated. *)
Theorem C158_numbers : forall p len code rest, code < 65536 ->
  (block_fields code len = None -> exists t, text_of (m_dib p (len :: code :: rest)) = Some t /\ states t code) /\
  (forall m, m < 65536 -> ~ known_medium m -> exists t, text_of (m_dib p (len :: 0x01 :: m :: rest)) = Some t /\ states t m).
Proof. exact block_numbers. Qed.
(** In a search response the error of the first block that is wrong is passed on. *)
Theorem C158_search : forall debug p t1 t2 code a b c d p1 p2 rest t,
  let response := ([6; 0x10; 2; 2; t1; t2; 8; code; a; b; c; d; p1; p2] ++ rest)%list in
  (text_of (m_dib p rest) = Some t -> text_of (m_search_response debug p response) = Some t) /\
  (forall dev more, m_dib p rest = MOk (DibDevice dev, more) -> text_of (m_dib p more) = Some t ->
     text_of (m_search_response debug p response) = Some t).
Proof.
  intros debug p t1 t2 code a b c d p1 p2 rest t. split.
  - exact (search_first debug p t1 t2 code a b c d p1 p2 rest t).
  - intros dev more. exact (search_second debug p t1 t2 code a b c d p1 p2 dev rest more t).
Qed.
Theorem C158_search_service : forall debug p s1 s2 t1 t2 rest, s1 < 256 -> s2 < 256 -> (s1, s2) <> (2, 2) -> exists t,
  text_of (m_search_response debug p ([6; 0x10; s1; s2; t1; t2] ++ rest)) = Some t /\ states t (s1 * 256 + s2).
Proof. exact search_service. Qed.

(** Three families announced, the version of the second one is missing. *)
Example C158_example_families :
  text_of (m_dib Release [8; 0x02; 2; 1; 3]) = Some "Unable to read version"%string /\
  first_missing (times 3 [("service family", 1); ("version", 1)]%string%nat) 3 = Some "version"%string.
Proof. split; reflexivity. Qed.
Example C158_example_device :
  text_of (m_dib Debug [54; 0x01; 0x20; 0; 0x11; 0x05; 0; 0; 1; 2; 3; 4; 5]) = Some "Unable to read serial number"%string /\
  known_medium 0x20.
Proof. split; [reflexivity|unfold known_medium; tauto]. Qed.
Example C158_example_complete : text_of (m_dib Debug [8; 0x02; 2; 1; 3; 1; 4; 1]) = None.
Proof. reflexivity. Qed.
Example C158_example_numbers :
  text_of (m_dib Debug [8; 0x07; 1]) = Some "Unknown DescriptionTypeCode 7"%string /\
  text_of (m_dib Debug [54; 0x01; 1; 1]) = Some "Unknown KnxMedium 1"%string.
Proof. split; reflexivity. Qed.
Example C158_example_search : forall debug,
  text_of (m_search_response debug Debug [6; 0x10; 2; 2; 0; 20; 8; 1; 192; 168; 1; 2; 0x0e; 0x57; 14; 0x03; 1; 2; 3]) = Some "Unable to read ip address"%string /\
  text_of (m_search_response debug Debug [6; 0x10; 2; 6; 0; 20; 8; 1]) = Some "Search response should be 0x0202 instead of 206"%string.
Proof. split; reflexivity. Qed.

(** ** C159: the error about a truncated L_Data message names the field *)

Theorem C159_same_decoders : forall c,
  value_of (m_ldata_con c (ce_service c)) = ldata_con_from_cemi c /\
  value_of (m_ldata_ind c (ce_service c)) = ldata_ind_from_cemi c.
Proof. intro c. exact (conj (same_ldata_con c) (same_ldata_ind c)). Qed.
Theorem C159_indication : forall c,
  text_of (m_ldata_ind c (ce_service c)) =
  option_map (fun what => "Unable to read " ++ what ++ " " ++ eof)%string (first_missing ldata_fields (List.length (ce_service c))).
Proof. intro c. exact (ind_text c (ce_service c)). Qed.
(** A confirmation is read up to the destination. *)
Theorem C159_confirmation : forall c,
  text_of (m_ldata_con c (ce_service c)) =
  option_map (fun what => "Unable to read " ++ what ++ " " ++ eof)%string (first_missing (firstn 4 ldata_fields) (List.length (ce_service c))).
Proof. intro c. exact (runs_text _ _ _ (ce_service c) (runs_con c)). Qed.

Example C159_example :
  let c := {| ce_code := 0x29; ce_infos := []; ce_service := [0xbc; 0xe0; 0x11; 0x05; 0x09] |} in
  text_of (m_ldata_ind c (ce_service c)) = Some ("Unable to read destination address " ++ eof)%string /\
  ldata_ind_from_cemi c = Err.
Proof. split; reflexivity. Qed.
Example C159_example_fine :
  let c := {| ce_code := 0x29; ce_infos := []; ce_service := [0xbc; 0xe0; 0x11; 0x05; 0x09; 1; 1; 0; 0x81] |} in
  text_of (m_ldata_ind c (ce_service c)) = None.
Proof. reflexivity. Qed.

(** ** C160: the error about an address text says which part is wrong, and why *)

Theorem C160_same_decoders : forall quote s,
  terase (t_individual quote s) = individual_try_from s /\ terase (t_group3 s) = group3_try_from s /\
  terase (t_addr quote s) = addr_try_from s.
Proof. intros quote s. exact (conj (same_individual quote s) (conj (same_group3 s) (same_addr quote s))). Qed.
(** A part is a number in range, or there is one reason why it is not. *)
Theorem C160_reasons : forall max p,
  good max p /\ (forall why, ~ reason max p why) \/
  ~ good max p /\ exists why, reason max p why /\ forall w, reason max p w -> w = why.
Proof. exact good_or_reason. Qed.
Theorem C160_individual : forall quote a l d t, Forall (without 46) [a; l; d] ->
  ttext (t_individual quote (joined 46 [a; l; d])) = Some t <->
  exists part name why, first_wrong 255 [a; l; d] ["area"; "line"; "address"]%string part name why /\
    t = octets ("Unable to parse " ++ name ++ " value Some(") ++ quote part ++ octets ("), error ParseIntError { kind: " ++ why ++ " }").
Proof. exact individual_text. Qed.
(** Any text with a dot is taken as an individual address. *)
Theorem C160_dotted : forall quote s, In 46 s -> ttext (t_addr quote s) = ttext (t_individual quote s).
Proof. exact addr_dotted. Qed.
Theorem C160_one_level : forall quote m t, without 46 m -> without 47 m ->
  ttext (t_addr quote m) = Some t <->
  exists why, reason 65535 m why /\
    t = octets "Unable to parse main address " ++ m ++ octets (" ParseIntError { kind: " ++ why ++ " }").
Proof. exact one_text. Qed.
(** FULL STATEMENT (false): the same with the text of the part, as at one level.
    Missing: the part itself is not in the text. *)
Theorem C160_levels_partial : forall quote ps t, List.length ps = 2%nat \/ List.length ps = 3%nat ->
  Forall (without 46) ps -> Forall (without 47) ps ->
  ttext (t_addr quote (joined 47 ps)) = Some t <->
  exists part name why, first_wrong 255 ps (group_names (List.length ps)) part name why /\
    t = octets ("Unable to parse " ++ name ++ " address ParseIntError { kind: " ++ why ++ " }").
Proof. exact group_text. Qed.
Theorem C160_count : forall quote ps, Forall (without 46) ps ->
  (List.length ps <> 3%nat -> ps <> [] -> ttext (t_individual quote (joined 46 ps)) =
     Some (octets "Individial address should be in the format area.line.address instead of " ++ quote (joined 46 ps))) /\
  ((3 < List.length ps)%nat -> Forall (without 47) ps -> ttext (t_addr quote (joined 47 ps)) =
     Some (octets "Unable to parse group address " ++ quote (joined 47 ps) ++ octets ", parts should be 1 to 3")).
Proof.
  intros quote ps D. split.
  - intros L Z. exact (individual_count quote ps L Z D).
  - intros L F. exact (addr_count quote ps L D F).
Qed.
(** The text does not say what was written: x/1 and y/1 *)
Theorem C160_quoted_refuted :
  ~ (forall quote m1 m2 s, Forall (without 46) [m1; m2; s] -> Forall (without 47) [m1; m2; s] ->
       (exists t, ttext (t_addr quote (joined 47 [m1; s])) = Some t) ->
       ttext (t_addr quote (joined 47 [m1; s])) = ttext (t_addr quote (joined 47 [m2; s])) -> m1 = m2).
Proof.
  intro H. specialize (H (fun s => s) [120] [121] [49]).
  assert (E : [120] = [121 : N]); [|discriminate E].
  apply H; [| |exists (octets "Unable to parse main address ParseIntError { kind: InvalidDigit }"); reflexivity|reflexivity];
    repeat apply Forall_cons; try apply Forall_nil; intros [E|[]]; discriminate E.
Qed.
(** [Group3LevelAddress::try_from] never says which part is wrong, nor why. *)
Theorem C160_group3_refuted : forall s,
  ttext (t_group3 s) = None \/ ttext (t_group3 s) = Some (octets "Unable to parse parts in u8") \/
  ttext (t_group3 s) = Some (octets "Wrong fields count").
Proof. exact group3_texts. Qed.

(** 1.x.256: the line is wrong *)
Example C160_example_individual :
  first_wrong 255 [[49]; [120]; [50; 53; 54]] ["area"; "line"; "address"]%string [120] "line" "InvalidDigit" /\
  ttext (t_individual (fun s => 34 :: s ++ [34]) [49; 46; 120; 46; 50; 53; 54]) =
  Some (octets "Unable to parse line value Some(""x""), error ParseIntError { kind: InvalidDigit }").
Proof.
  split; [|reflexivity]. right. split.
  - exists 1. split; [|discriminate]. exists [49]. split; [left; reflexivity|]. split; [discriminate|].
    split; [repeat constructor; discriminate|reflexivity].
  - left. repeat split. apply (reason_digit _ _ [] 120 []); [|constructor|discriminate|].
    + split; [discriminate|]. right. split; [reflexivity|]. discriminate.
    + intros [A B]. apply B. reflexivity.
Qed.
(** 3//256 and 70000 and + *)
Example C160_example_group :
  ttext (t_addr (fun s => s) [51; 47; 47; 50; 53; 54]) = Some (octets "Unable to parse mid address ParseIntError { kind: Empty }") /\
  ttext (t_addr (fun s => s) [51; 47; 50; 53; 54]) = Some (octets "Unable to parse sub address ParseIntError { kind: PosOverflow }") /\
  ttext (t_addr (fun s => s) [55; 48; 48; 48; 48]) = Some (octets "Unable to parse main address 70000 ParseIntError { kind: PosOverflow }") /\
  ttext (t_addr (fun s => s) [43]) = Some (octets "Unable to parse main address + ParseIntError { kind: InvalidDigit }") /\
  ttext (t_addr (fun s => s) [43; 49]) = None.
Proof. repeat split; reflexivity. Qed.

(** ** C161: the error about a malformed cEMI message tells what is wrong *)

Theorem C161_same_decoder : forall p, same (m_cemi p) (cemi_from_packet p).
Proof. exact same_cemi. Qed.
Theorem C161_head : forall p code,
  text_of (m_cemi p []) = Some ("Unable to read message code " ++ eof)%string /\
  text_of (m_cemi p [code]) = Some ("Unable to read addition infos size " ++ eof)%string.
Proof. intros p code. split; reflexivity. Qed.
(** FULL STATEMENT (false): in the third case the text states the type.
    Missing: the conversion's error is [()], and that is what is printed. *)
Theorem C161_infos_partial : forall p code size is rest, size < 256 -> Forall (fun i => known_info (fst i)) is ->
  N.of_nat (List.length (infos_bytes is)) < size ->
  let b := (code :: size :: infos_bytes is ++ rest)%list in
  (rest = [] -> text_of (m_cemi p b) = Some ("Unable to read addition info type " ++ eof)%string) /\
  (forall t, rest = [t] -> known_info t -> text_of (m_cemi p b) = Some ("Unable to read addition info size " ++ eof)%string) /\
  (forall t more, rest = t :: more -> ~ known_info t -> text_of (m_cemi p b) = Some "Unknown additional info type ()"%string).
Proof. exact cemi_texts. Qed.
(** There are no other errors: missing octets of an element are zeros, and
    the service information may be empty. *)
Theorem C161_only : forall p b t, text_of (m_cemi p b) = Some t ->
  In t ["Unable to read message code " ++ eof; "Unable to read addition infos size " ++ eof;
        "Unable to read addition info type " ++ eof; "Unable to read addition info size " ++ eof;
        "Unknown additional info type ()"]%string.
Proof. exact cemi_only. Qed.
Theorem C161_type_refuted : forall p code size t more, 0 < size < 256 -> ~ known_info t ->
  text_of (m_cemi p (code :: size :: t :: more)) = Some "Unknown additional info type ()"%string.
Proof. exact cemi_unknown. Qed.

(** A time stamp of two octets, then an element cut after its type. *)
Example C161_example :
  text_of (m_cemi Debug [0x29; 8; 4; 2; 0x12; 0x34; 3]) = Some ("Unable to read addition info size " ++ eof)%string /\
  infos_bytes [(4, [0x12; 0x34])] = [4; 2; 0x12; 0x34] /\ known_info 4 /\
  text_of (m_cemi Debug [0x29; 8; 4; 2; 0x12; 0x34; 0x0b; 0]) = Some "Unknown additional info type ()"%string /\ ~ known_info 0x0b /\
  text_of (m_cemi Debug [0x29; 4; 4; 2; 0x12; 0x34]) = None.
Proof.
  split; [reflexivity|]. split; [reflexivity|]. split; [do 3 right; left; reflexivity|]. split; [reflexivity|].
  split; [|reflexivity]. intro H. repeat (destruct H as [H|H]; [discriminate H|]). exact H.
Qed.
