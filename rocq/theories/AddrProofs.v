(** Lemmas about addresses and their texts. *)
From Verif Require Import Base Wire Spec BaseProofs Addresses CoreProofs.
Open Scope N_scope.

(** ** 16-bit layout *)
Lemma field_extract v k m : N.shiftr (N.land v (N.shiftl (N.ones k) m)) m = v / 2 ^ m mod 2 ^ k.
Proof.
  rewrite N.shiftr_land, N.shiftr_shiftl_l, N.sub_diag, N.shiftl_0_r by lia.
  rewrite N.land_ones, N.shiftr_div_pow2. reflexivity.
Qed.
Lemma group3_from_u16_layout v : v < 65536 ->
  group3_from_u16 v = {| g3_main := v / 2048; g3_middle := v / 256 mod 8; g3_sub := v mod 256 |}.
Proof.
  intro H. unfold group3_from_u16, as_u8.
  change 31 with (N.ones 5). change 7 with (N.ones 3). change 255 with (N.ones 8).
  rewrite !field_extract, N.land_ones.
  change (2 ^ 11) with 2048. change (2 ^ 5) with 32. change (2 ^ 8) with 256. change (2 ^ 3) with 8.
  f_equal; lia.
Qed.
Lemma group3_to_u16_layout a :
  g3_main a < 32 -> g3_middle a < 8 -> g3_sub a < 256 ->
  group3_to_u16 a = group3_layout (g3_main a) (g3_middle a) (g3_sub a).
Proof.
  intros H1 H2 H3. unfold group3_to_u16, group3_layout, shl_u16, as_u16.
  rewrite N.lor_0_l, !N.shiftl_mul_pow2.
  rewrite !N.mod_small by (change (2 ^ 8) with 256; change (2 ^ 11) with 2048; lia).
  rewrite lor_disjoint_add by (change (2 ^ 11) with 2048; change (2 ^ 8) with 256; lia).
  replace (g3_main a * 2 ^ 11 + g3_middle a * 2 ^ 8) with ((g3_main a * 8 + g3_middle a) * 2 ^ 8)
    by (change (2 ^ 11) with 2048; change (2 ^ 8) with 256; lia).
  rewrite lor_disjoint_add by (change (2 ^ 8) with 256; lia).
  change (2 ^ 8) with 256. lia.
Qed.
Lemma group2_to_u16_layout a : wf_group2 a -> group2_to_u16 a = g2_main a * 256 + g2_sub a.
Proof.
  intros [H1 H2]. unfold byte in *. unfold group2_to_u16, shl_u16, as_u16.
  rewrite N.lor_0_l, N.shiftl_mul_pow2. rewrite N.mod_small by (change (2 ^ 8) with 256; lia).
  apply lor_disjoint_add. exact H2.
Qed.
Lemma group3_to_from v : v < 65536 -> group3_to_u16 (group3_from_u16 v) = v.
Proof.
  intro H. rewrite group3_from_u16_layout by assumption.
  rewrite group3_to_u16_layout; unfold group3_layout; cbn [g3_main g3_middle g3_sub]; lia.
Qed.
Lemma group3_from_to a :
  g3_main a < 32 -> g3_middle a < 8 -> g3_sub a < 256 -> group3_from_u16 (group3_to_u16 a) = a.
Proof.
  intros H1 H2 H3. rewrite group3_to_u16_layout by assumption.
  rewrite group3_from_u16_layout; unfold group3_layout; [|lia].
  destruct a as [x y z]; cbn [g3_main g3_middle g3_sub] in *. f_equal; lia.
Qed.
Lemma group2_5_11_iff a : wf_group2 a -> (group2_to_u16 a = group2_layout (g2_main a) (g2_sub a) <-> g2_main a = 0).
Proof. intro H. rewrite group2_to_u16_layout by assumption. unfold group2_layout. lia. Qed.

Lemma addr_to_u16_inj a b :
  same_kind a b -> in_range a -> in_range b -> addr_to_u16 a = addr_to_u16 b -> a = b.
Proof.
  destruct a as [a|a|a|a], b as [b|b|b|b]; cbn [same_kind in_range addr_to_u16]; intro S; try contradiction; intros Ha Hb E.
  - f_equal. destruct Ha as (?&?&?), Hb as (?&?&?).
    rewrite <- (individual_from_to a), <- (individual_from_to b), E by assumption. reflexivity.
  - f_equal. destruct Ha as (?&?&?), Hb as (?&?&?).
    rewrite <- (group3_from_to a), <- (group3_from_to b), E by assumption. reflexivity.
  - f_equal. rewrite !group2_to_u16_layout in E by assumption. destruct a as [x y], b as [z w]; cbn [g2_main g2_sub] in *. f_equal; lia.
  - f_equal. unfold group1_to_u16 in E. destruct a as [x], b as [z]; cbn [g1_main] in *. congruence.
Qed.

(** ** Digits *)
Definition dstep (v c : N) : N := v * 10 + (c - 48).
Lemma fold_digits_mono s : forall a b, a <= b -> fold_left dstep s a <= fold_left dstep s b.
Proof. induction s as [|c s IH]; cbn [fold_left]; intros a b H; [exact H|]. apply IH. unfold dstep. lia. Qed.
Lemma fold_digits_ge s : forall a, a <= fold_left dstep s a.
Proof.
  induction s as [|c s IH]; cbn [fold_left]; intro a; [lia|].
  etransitivity; [|apply IH]. unfold dstep. lia.
Qed.
Lemma parse_digits_iff max s : forall acc n, acc <= max ->
  (parse_digits max acc s = Some n <-> Forall is_digit s /\ fold_left dstep s acc = n /\ n <= max).
Proof.
  induction s as [|c s IH]; cbn [parse_digits fold_left]; intros acc n Ha.
  - split; [intro H; injection H as <-; auto | intros (_ & -> & _); reflexivity].
  - unfold c_zero. destruct ((48 <=? c) && (c <=? 57)) eqn:D.
    + change (acc * 10 + (c - 48)) with (dstep acc c).
      assert (Dc : is_digit c) by (unfold is_digit; lia).
      destruct (N.leb_spec (dstep acc c) max) as [L|L].
      * rewrite IH by assumption. split.
        { intros (H & E & Hn). split; [constructor; assumption|auto]. }
        { intros (H & E & Hn). inversion H; subst. auto. }
      * split; [discriminate|]. intros (_ & <- & Hn). exfalso.
        pose proof (fold_digits_ge s (dstep acc c)). lia.
    + split; [discriminate|]. intros (H & _). exfalso. inversion H; subst. unfold is_digit in *. lia.
Qed.
Lemma parse_uint_iff max s n : parse_uint max s = Some n <-> number s n /\ n <= max.
Proof.
  assert (D : forall s, digits_value s = fold_left dstep s 0) by reflexivity.
  assert (Z : 0 <= max) by lia.
  unfold parse_uint, number.
  destruct s as [|c [|c' s]].
  - split; [discriminate|]. intros ((ds & [<-|E] & Hn & _) & _); [congruence|discriminate].
  - rewrite parse_digits_iff by exact Z. split.
    + intros (F & E & Hn). split; [|exact Hn]. exists [c]. rewrite D. repeat split; auto. discriminate.
    + intros ((ds & [<-|E] & Hn & F & V) & Hm).
      * rewrite D in V. auto.
      * injection E as _ <-. congruence.
  - destruct (N.eqb_spec c c_plus) as [->|Hc].
    + rewrite parse_digits_iff by exact Z. split.
      * intros (F & E & Hn). split; [|exact Hn]. exists (c' :: s). rewrite D. split; [right; reflexivity|].
        split; [discriminate|]. auto.
      * intros ((ds & [<-|E] & Hn & F & V) & Hm).
        { exfalso. inversion F as [|x l Hd _]; subst. unfold is_digit, c_plus in Hd. lia. }
        { injection E as <-. rewrite D in V. auto. }
    + rewrite parse_digits_iff by exact Z. split.
      * intros (F & E & Hn). split; [|exact Hn]. exists (c :: c' :: s). rewrite D. split; [left; reflexivity|].
        split; [discriminate|]. auto.
      * intros ((ds & [<-|E] & Hn & F & V) & Hm).
        { rewrite D in V. auto. }
        { injection E as -> _. unfold c_plus in Hc. congruence. }
Qed.
Lemma number_chars s n c : number s n -> In c s -> is_digit c \/ c = 43.
Proof.
  intros (ds & [->| ->] & _ & F & _) H; rewrite Forall_forall in F.
  - left. auto.
  - destruct H as [<-|H]; [right; reflexivity|left; auto].
Qed.
Lemma number_fun s m n : number s m -> number s n -> m = n.
Proof.
  intros (d1 & E1 & N1 & F1 & V1) (d2 & E2 & N2 & F2 & V2).
  assert (d1 = d2); [|subst; congruence].
  destruct E1 as [<-|E1], E2 as [<-|E2]; subst; try congruence.
  - inversion F1 as [|x l Hx _]; subst; unfold is_digit in Hx; lia.
  - inversion F2 as [|x l Hx _]; subst; unfold is_digit in Hx; lia.
Qed.

(** ** Splitting *)
Fixpoint join (c : N) (ps : list (list N)) : list N :=
  match ps with
  | [] => []
  | [p] => p
  | p :: ps' => p ++ [c] ++ join c ps'
  end.
Lemma join_cons c p q ps : join c (p :: q :: ps) = p ++ [c] ++ join c (q :: ps).
Proof. reflexivity. Qed.
Lemma split_on_nonempty c s : split_on c s <> [].
Proof. induction s as [|x s IH]; cbn [split_on]; [discriminate|]. destruct (x =? c); [discriminate|]. destruct (split_on c s); discriminate. Qed.
Lemma split_on_join c s : join c (split_on c s) = s /\ Forall (fun p => ~ In c p) (split_on c s).
Proof.
  induction s as [|x s [IH1 IH2]]; cbn [split_on].
  - split; [reflexivity|]. constructor; [intros []|constructor].
  - pose proof (split_on_nonempty c s) as Hn. destruct (N.eqb_spec x c) as [->|Hx].
    + destruct (split_on c s) as [|q qs]; [congruence|]. split.
      * rewrite join_cons, IH1. reflexivity.
      * constructor; [intros []|exact IH2].
    + destruct (split_on c s) as [|q qs]; [congruence|]. split.
      * destruct qs as [|q' qs]; cbn [join] in *; [congruence|]. cbn [app]. f_equal. exact IH1.
      * inversion IH2 as [|? ? Hq Hqs]; subst. constructor; [|exact Hqs]. intros [->|H]; [congruence|auto].
Qed.
Lemma split_on_app c p s : ~ In c p -> split_on c (p ++ c :: s) = p :: split_on c s.
Proof.
  induction p as [|x p IH]; intro H; cbn [app split_on].
  - rewrite N.eqb_refl. reflexivity.
  - destruct (N.eqb_spec x c) as [->|Hx]; [exfalso; apply H; left; reflexivity|].
    rewrite IH by (intro Hp; apply H; right; exact Hp). reflexivity.
Qed.
Lemma split_on_single c p : ~ In c p -> split_on c p = [p].
Proof.
  induction p as [|x p IH]; intro H; cbn [split_on]; [reflexivity|].
  destruct (N.eqb_spec x c) as [->|Hx]; [exfalso; apply H; left; reflexivity|].
  rewrite IH by (intro Hp; apply H; right; exact Hp). reflexivity.
Qed.
Lemma split_on_iff c s ps :
  split_on c s = ps <-> ps <> [] /\ s = join c ps /\ Forall (fun p => ~ In c p) ps.
Proof.
  split.
  - intros <-. destruct (split_on_join c s) as [H1 H2]. auto using split_on_nonempty.
  - intros (Hn & -> & HF). induction ps as [|p ps IH]; [congruence|].
    inversion HF as [|? ? Hp Hps]; subst. destruct ps as [|q ps].
    + apply split_on_single, Hp.
    + rewrite join_cons. cbn [app]. rewrite split_on_app by assumption. f_equal. apply IH; [discriminate|assumption].
Qed.
Lemma contains_iff c s : contains c s = true <-> In c s.
Proof.
  unfold contains. rewrite existsb_exists. split.
  - intros (x & H & E). apply N.eqb_eq in E. subst. exact H.
  - intro H. exists c. split; [exact H|apply N.eqb_refl].
Qed.

(** ** Grammar *)
Lemma number_no_sep s n c : number s n -> c = 46 \/ c = 47 -> ~ In c s.
Proof. intros H Hc Hi. apply (number_chars _ _ _ H) in Hi. unfold is_digit in Hi. lia. Qed.

Lemma individual_try_from_iff s a :
  individual_try_from s = Ok a <->
  exists t1 t2 t3, s = t1 ++ [46] ++ t2 ++ [46] ++ t3 /\
    number t1 (ia_area a) /\ number t2 (ia_line a) /\ number t3 (ia_address a) /\
    ia_area a <= 255 /\ ia_line a <= 255 /\ ia_address a <= 255.
Proof.
  unfold individual_try_from. split.
  - destruct (split_on c_dot s) as [|t1 [|t2 [|t3 [|? ?]]]] eqn:E; try discriminate.
    destruct (parse_u8 t1) as [n1|] eqn:P1; try discriminate.
    destruct (parse_u8 t2) as [n2|] eqn:P2; try discriminate.
    destruct (parse_u8 t3) as [n3|] eqn:P3; try discriminate.
    apply parse_uint_iff in P1, P2, P3. intro H. injection H as <-.
    apply split_on_iff in E. destruct E as (_ & E & _). exists t1, t2, t3.
    split; [exact E|]. cbn [ia_area ia_line ia_address]. tauto.
  - intros (t1 & t2 & t3 & E & N1 & N2 & N3 & B1 & B2 & B3).
    assert (S : split_on c_dot s = [t1; t2; t3]).
    { apply split_on_iff. split; [discriminate|]. split; [exact E|].
      repeat constructor; eapply number_no_sep; eauto. }
    rewrite S. unfold parse_u8.
    rewrite (proj2 (parse_uint_iff _ _ _) (conj N1 B1)), (proj2 (parse_uint_iff _ _ _) (conj N2 B2)),
            (proj2 (parse_uint_iff _ _ _) (conj N3 B3)).
    destruct a; reflexivity.
Qed.
Lemma individual_try_from_np s : individual_try_from s <> Panic.
Proof.
  unfold individual_try_from. repeat match goal with |- context [match ?x with _ => _ end] => destruct x end; discriminate.
Qed.
Lemma group3_try_from_iff s a :
  group3_try_from s = Ok a <->
  exists t1 t2 t3, s = t1 ++ [47] ++ t2 ++ [47] ++ t3 /\
    number t1 (g3_main a) /\ number t2 (g3_middle a) /\ number t3 (g3_sub a) /\
    g3_main a <= 255 /\ g3_middle a <= 255 /\ g3_sub a <= 255.
Proof.
  unfold group3_try_from. split.
  - destruct (split_on c_slash s) as [|t1 [|t2 [|t3 [|? ?]]]] eqn:E; try discriminate.
    destruct (parse_u8 t1) as [n1|] eqn:P1; try discriminate.
    destruct (parse_u8 t2) as [n2|] eqn:P2; try discriminate.
    destruct (parse_u8 t3) as [n3|] eqn:P3; try discriminate.
    apply parse_uint_iff in P1, P2, P3. intro H. injection H as <-.
    apply split_on_iff in E. destruct E as (_ & E & _). exists t1, t2, t3.
    split; [exact E|]. cbn [g3_main g3_middle g3_sub]. tauto.
  - intros (t1 & t2 & t3 & E & N1 & N2 & N3 & B1 & B2 & B3).
    assert (S : split_on c_slash s = [t1; t2; t3]).
    { apply split_on_iff. split; [discriminate|]. split; [exact E|].
      repeat constructor; eapply number_no_sep; eauto. }
    rewrite S. unfold parse_u8.
    rewrite (proj2 (parse_uint_iff _ _ _) (conj N1 B1)), (proj2 (parse_uint_iff _ _ _) (conj N2 B2)),
            (proj2 (parse_uint_iff _ _ _) (conj N3 B3)).
    destruct a; reflexivity.
Qed.
Lemma group3_try_from_np s : group3_try_from s <> Panic.
Proof.
  unfold group3_try_from. repeat match goal with |- context [match ?x with _ => _ end] => destruct x end; discriminate.
Qed.


Lemma no_dot_numbers s : (forall c, In c s -> is_digit c \/ c = 43 \/ c = 47) -> contains c_dot s = false.
Proof.
  intro H. destruct (contains c_dot s) eqn:E; [exfalso|reflexivity].
  apply contains_iff in E. apply H in E. unfold is_digit, c_dot in E. lia.
Qed.
Lemma addr_try_from_iff s a : addr_try_from s = Ok a <-> denotes s a.
Proof.
  unfold addr_try_from. split.
  - destruct (contains c_dot s).
    + destruct (individual_try_from s) as [i| |] eqn:E; try discriminate.
      intro H. injection H as <-. cbn [denotes]. apply individual_try_from_iff, E.
    + destruct (split_on c_slash s) as [|t1 [|t2 [|t3 [|? ?]]]] eqn:E; try discriminate;
      apply split_on_iff in E; destruct E as (_ & E & _); cbn [join] in E.
      * destruct (parse_u16 t1) as [n1|] eqn:P1; try discriminate. apply parse_uint_iff in P1.
        intro H. injection H as <-. cbn [denotes g1_main]. subst t1. exact P1.
      * destruct (parse_u8 t1) as [n1|] eqn:P1; try discriminate.
        destruct (parse_u8 t2) as [n2|] eqn:P2; try discriminate. apply parse_uint_iff in P1, P2.
        intro H. injection H as <-. cbn [denotes g2_main g2_sub]. exists t1, t2. tauto.
      * destruct (parse_u8 t1) as [n1|] eqn:P1; try discriminate.
        destruct (parse_u8 t2) as [n2|] eqn:P2; try discriminate.
        destruct (parse_u8 t3) as [n3|] eqn:P3; try discriminate. apply parse_uint_iff in P1, P2, P3.
        intro H. injection H as <-. cbn [denotes g3_main g3_middle g3_sub]. exists t1, t2, t3. tauto.
  - destruct a as [a|a|a|a]; cbn [denotes].
    + intro H. assert (D : contains c_dot s = true).
      { apply contains_iff. destruct H as (t1 & t2 & t3 & -> & _). apply in_or_app. right. left. reflexivity. }
      rewrite D. rewrite (proj2 (individual_try_from_iff s a) H). reflexivity.
    + intros (t1 & t2 & t3 & -> & N1 & N2 & N3 & B1 & B2 & B3).
      rewrite no_dot_numbers.
      2:{ intros c Hc. rewrite !in_app_iff in Hc. cbn [In] in Hc.
          destruct Hc as [Hc|[[<-|[]]|[Hc|[[<-|[]]|Hc]]]]; auto;
          eapply number_chars in Hc; eauto; tauto. }
      assert (S : split_on c_slash (t1 ++ [47] ++ t2 ++ [47] ++ t3) = [t1; t2; t3]).
      { apply split_on_iff. split; [discriminate|]. split; [reflexivity|].
        repeat constructor; eapply number_no_sep; eauto. }
      rewrite S. unfold parse_u8.
      rewrite (proj2 (parse_uint_iff _ _ _) (conj N1 B1)), (proj2 (parse_uint_iff _ _ _) (conj N2 B2)),
              (proj2 (parse_uint_iff _ _ _) (conj N3 B3)).
      destruct a; reflexivity.
    + intros (t1 & t2 & -> & N1 & N2 & B1 & B2).
      rewrite no_dot_numbers.
      2:{ intros c Hc. rewrite !in_app_iff in Hc. cbn [In] in Hc.
          destruct Hc as [Hc|[[<-|[]]|Hc]]; auto; eapply number_chars in Hc; eauto; tauto. }
      assert (S : split_on c_slash (t1 ++ [47] ++ t2) = [t1; t2]).
      { apply split_on_iff. split; [discriminate|]. split; [reflexivity|].
        repeat constructor; eapply number_no_sep; eauto. }
      rewrite S. unfold parse_u8.
      rewrite (proj2 (parse_uint_iff _ _ _) (conj N1 B1)), (proj2 (parse_uint_iff _ _ _) (conj N2 B2)).
      destruct a; reflexivity.
    + intros (N1 & B1). rewrite no_dot_numbers.
      2:{ intros c Hc. eapply number_chars in Hc; eauto. tauto. }
      rewrite split_on_single by (eapply number_no_sep; eauto).
      unfold parse_u16. rewrite (proj2 (parse_uint_iff _ _ _) (conj N1 B1)). destruct a; reflexivity.
Qed.
Lemma addr_try_from_np s : addr_try_from s <> Panic.
Proof.
  unfold addr_try_from. destruct (contains c_dot s).
  - destruct (individual_try_from s) eqn:E; try discriminate. destruct (individual_try_from_np _ E).
  - repeat match goal with |- context [match ?x with _ => _ end] => destruct x end; discriminate.
Qed.

(** ** Printing *)
Lemma dec_fuel_spec f : forall n, n < 10 ^ N.of_nat f -> (0 < f)%nat ->
  dec_fuel f n <> [] /\ Forall is_digit (dec_fuel f n) /\ digits_value (dec_fuel f n) = n.
Proof.
  induction f as [|f IH]; intros n Hn Hf; [lia|]. cbn [dec_fuel].
  destruct (N.ltb_spec n 10) as [L|L].
  - split; [discriminate|]. split; [constructor; [unfold is_digit, c_zero; lia|constructor]|].
    unfold digits_value, c_zero. cbn [fold_left]. lia.
  - assert (Hf' : (0 < f)%nat).
    { destruct f; [|lia]. change (10 ^ N.of_nat 1) with 10 in Hn. lia. }
    rewrite Nat2N.inj_succ, N.pow_succ_r' in Hn.
    destruct (IH (n / 10)) as (H1 & H2 & H3); [apply N.div_lt_upper_bound; lia|exact Hf'|].
    split; [destruct (dec_fuel f (n / 10)); [congruence|discriminate]|].
    split; [apply Forall_app; split; [exact H2|constructor; [unfold is_digit, c_zero; lia|constructor]]|].
    unfold digits_value in *. rewrite fold_left_app, H3. cbn [fold_left]. unfold c_zero. lia.
Qed.
Lemma show_uint_number n : n < 65536 -> number (show_uint n) n.
Proof.
  intro H. destruct (dec_fuel_spec 5 n) as (H1 & H2 & H3); [change (10 ^ N.of_nat 5) with 100000; lia|lia|].
  exists (show_uint n). unfold show_uint. auto.
Qed.
Lemma addr_text_denotes a : wf_addr a -> denotes (addr_text a) a.
Proof.
  destruct a as [a|a|a|a]; cbn [wf_addr addr_text denotes]; unfold wf_individual, wf_group3, wf_group2, byte.
  - intros (H1 & H2 & H3). exists (show_uint (ia_area a)), (show_uint (ia_line a)), (show_uint (ia_address a)).
    split; [reflexivity|]. repeat split; try apply show_uint_number; lia.
  - intros (H1 & H2 & H3). exists (show_uint (g3_main a)), (show_uint (g3_middle a)), (show_uint (g3_sub a)).
    split; [reflexivity|]. repeat split; try apply show_uint_number; lia.
  - intros (H1 & H2). exists (show_uint (g2_main a)), (show_uint (g2_sub a)).
    split; [reflexivity|]. repeat split; try apply show_uint_number; lia.
  - intro H. split; [apply show_uint_number; exact H|lia].
Qed.
Lemma addr_text_roundtrip a : wf_addr a -> addr_try_from (addr_text a) = Ok a.
Proof. intro H. apply addr_try_from_iff, addr_text_denotes, H. Qed.
Lemma group3_text_roundtrip a : wf_group3 a -> group3_try_from (group3_debug a) = Ok a.
Proof. intro H. apply group3_try_from_iff. exact (addr_text_denotes (Group3Level a) H). Qed.
Lemma individual_text_roundtrip a : wf_individual a -> individual_try_from (individual_debug a) = Ok a.
Proof. intro H. apply individual_try_from_iff. exact (addr_text_denotes (Individual a) H). Qed.
