(** Properties C31-C35: addresses.  Proofs in CoreProofs.v and AddrProofs.v. *)
From Coq Require String Ascii.
From Verif Require Import Base Addresses Core Wire Spec BaseProofs CoreProofs AddrProofs.
Import String.StringSyntax.
Open Scope N_scope.
Delimit Scope string_scope with string.

(** A text in ASCII. *)
Fixpoint ascii (s : String.string) : list N :=
  match s with
  | String.EmptyString => []
  | String.String c s => Ascii.N_of_ascii c :: ascii s
  end.
Arguments ascii s%string.

(** ** C31 *)
Theorem C31_individual_layout : forall a,
  ia_area a < 16 -> ia_line a < 16 -> ia_address a < 256 ->
  individual_to_u16 a = individual_layout (ia_area a) (ia_line a) (ia_address a).
Proof. exact individual_to_u16_layout. Qed.
Theorem C31_individual_to_from : forall n, n < 65536 -> individual_to_u16 (individual_from_u16 n) = n.
Proof. exact individual_to_from. Qed.
Theorem C31_individual_from_to : forall a,
  ia_area a < 16 -> ia_line a < 16 -> ia_address a < 256 ->
  individual_from_u16 (individual_to_u16 a) = a.
Proof. exact individual_from_to. Qed.
Theorem C31_group3_layout : forall a,
  g3_main a < 32 -> g3_middle a < 8 -> g3_sub a < 256 ->
  group3_to_u16 a = group3_layout (g3_main a) (g3_middle a) (g3_sub a).
Proof. exact group3_to_u16_layout. Qed.
Theorem C31_group3_to_from : forall n, n < 65536 -> group3_to_u16 (group3_from_u16 n) = n.
Proof. exact group3_to_from. Qed.
Theorem C31_group3_from_to : forall a,
  g3_main a < 32 -> g3_middle a < 8 -> g3_sub a < 256 -> group3_from_u16 (group3_to_u16 a) = a.
Proof. exact group3_from_to. Qed.
(** The tests parse_group_address_from_u8 of addresses.rs:305-320. *)
Example C31_example :
  group3_to_u16 {| g3_main := 16; g3_middle := 4; g3_sub := 128 |} = 0x8480 /\
  group3_from_u16 0x8480 = {| g3_main := 16; g3_middle := 4; g3_sub := 128 |} /\
  individual_to_u16 {| ia_area := 1; ia_line := 2; ia_address := 3 |} = 0x1203.
Proof. repeat split. Qed.

(** ** C32: false outside the KNX ranges, which the constructors do not check. *)
Theorem C32_distinct_in_range_partial : forall a b,
  same_kind a b -> in_range a -> in_range b -> addr_to_u16 a = addr_to_u16 b -> a = b.
Proof. exact addr_to_u16_inj. Qed.
Theorem C32_distinct_refuted :
  mk_individual 16 0 0 <> mk_individual 0 0 0 /\
  addr_to_u16 (mk_individual 16 0 0) = addr_to_u16 (mk_individual 0 0 0) /\
  group_3_level 0 8 0 <> group_3_level 1 0 0 /\
  addr_to_u16 (group_3_level 0 8 0) = addr_to_u16 (group_3_level 1 0 0) /\
  (exists a b, addr_try_from (ascii "0/8/0") = Ok a /\ addr_try_from (ascii "1/0/0") = Ok b /\
     a <> b /\ addr_to_u16 a = addr_to_u16 b).
Proof.
  repeat split; try discriminate.
  eexists; eexists. split; [vm_compute; reflexivity|]. split; [vm_compute; reflexivity|].
  split; [discriminate|reflexivity].
Qed.
Example C32_example : in_range (group_3_level 31 7 255) /\ in_range (mk_individual 15 15 255).
Proof. repeat split; reflexivity. Qed.

(** ** C33: false.  The layout is 8/8; it agrees with 5/11 only for main 0. *)
Theorem C33_two_level_layout_refuted :
  exists main sub, main < 32 /\ sub < 256 /\ addr_to_u16 (group_2_level main sub) <> group2_layout main sub.
Proof. exists 1, 2. repeat split; discriminate. Qed.
Theorem C33_two_level_layout_partial : forall a,
  wf_group2 a ->
  group2_to_u16 a = g2_main a * 256 + g2_sub a /\
  (group2_to_u16 a = group2_layout (g2_main a) (g2_sub a) <-> g2_main a = 0).
Proof. intros a H. exact (conj (group2_to_u16_layout a H) (group2_5_11_iff a H)). Qed.
Example C33_example : addr_to_u16 (group_2_level 1 2) = 0x0102 /\ group2_layout 1 2 = 0x0802.
Proof. split; reflexivity. Qed.

(** ** C34 *)
Theorem C34_address_grammar : forall s a, addr_try_from s = Ok a <-> denotes s a.
Proof. exact addr_try_from_iff. Qed.
Theorem C34_individual_grammar : forall s a,
  individual_try_from s = Ok a <-> denotes s (Individual a).
Proof. exact individual_try_from_iff. Qed.
Theorem C34_group3_grammar : forall s a,
  group3_try_from s = Ok a <-> denotes s (Group3Level a).
Proof. exact group3_try_from_iff. Qed.
Theorem C34_never_panics : forall s,
  addr_try_from s <> Panic /\ individual_try_from s <> Panic /\ group3_try_from s <> Panic.
Proof. intro s. exact (conj (addr_try_from_np s) (conj (individual_try_from_np s) (group3_try_from_np s))). Qed.
(** The tests of addresses.rs:250-302. *)
Example C34_example :
  addr_try_from (ascii "1.2.3") = Ok (mk_individual 1 2 3) /\
  addr_try_from (ascii "1.2.3.4") = Err /\ addr_try_from (ascii "1.2") = Err /\
  addr_try_from (ascii "1.2.256") = Err /\
  addr_try_from (ascii "1") = Ok (group_1_level 1) /\
  addr_try_from (ascii "1/2") = Ok (group_2_level 1 2) /\
  addr_try_from (ascii "1/2/3") = Ok (group_3_level 1 2 3) /\
  addr_try_from (ascii "1/2/3/4") = Err /\
  addr_try_from (ascii "+1/002/3") = Ok (group_3_level 1 2 3) /\
  addr_try_from (ascii "") = Err /\ addr_try_from (ascii "65536") = Err.
Proof. repeat split. Qed.

(** ** C35 *)
Theorem C35_text_roundtrip : forall a, wf_addr a -> addr_try_from (addr_text a) = Ok a.
Proof. exact addr_text_roundtrip. Qed.
Theorem C35_group3_text_roundtrip : forall a, wf_group3 a -> group3_try_from (group3_debug a) = Ok a.
Proof. exact group3_text_roundtrip. Qed.
Theorem C35_individual_text_roundtrip : forall a, wf_individual a -> individual_try_from (individual_debug a) = Ok a.
Proof. exact individual_text_roundtrip. Qed.
Example C35_example : addr_text (group_3_level 31 7 255) = ascii "31/7/255" /\ addr_text (mk_individual 1 0 10) = ascii "1.0.10".
Proof. split; reflexivity. Qed.
