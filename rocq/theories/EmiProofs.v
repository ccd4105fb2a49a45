(** Lemmas about APDU, cEMI and L_Data messages. *)
From Verif Require Import Base Wire Spec BaseProofs Addresses Apdu Emi CoreProofs.
Open Scope N_scope.

(** ** Additional information types *)
Lemma info_try_from_iff v t : info_try_from v = Ok t <-> v = info_code t.
Proof.
  split; [|intros ->; destruct t; reflexivity].
  unfold info_try_from. intro H.
  repeat match type of H with
  | context [?a =? ?b] => destruct (N.eqb_spec a b); [injection H as <-; assumption|]
  end. discriminate.
Qed.
Lemma info_try_from_np v : info_try_from v <> Panic.
Proof.
  unfold info_try_from.
  repeat match goal with |- context [?a =? ?b] => destruct (a =? b); [discriminate|] end. discriminate.
Qed.
Lemma known_info_iff v : known_info v <-> exists t, v = info_code t.
Proof.
  unfold known_info. split.
  - cbn [In]. intro H.
    repeat (destruct H as [H|H]; [subst v; match goal with |- exists _, ?n = _ =>
      first [exists PLMediumInfo; reflexivity|exists RFMediumInfo; reflexivity|exists BusmonitorStatusInfo; reflexivity
            |exists TimestampRelative; reflexivity|exists TimeDelayUntilSending; reflexivity
            |exists ExtendedRelativeTime; reflexivity|exists BiBatInfo; reflexivity|exists RFMultiInfo; reflexivity
            |exists PreambleAndPostamble; reflexivity|exists RFFastAckInfo; reflexivity
            |exists ManufacturerSpecificData; reflexivity] end|]). destruct H.
  - intros [t ->]. destruct t; cbn; tauto.
Qed.
Lemma known_info_dec v : (exists t, info_try_from v = Ok t) \/ info_try_from v = Err.
Proof.
  destruct (info_try_from v) as [t| |] eqn:E; eauto. destruct (info_try_from_np _ E).
Qed.


Lemma infos_bytes_app a b : infos_bytes (a ++ b) = infos_bytes a ++ infos_bytes b.
Proof. unfold infos_bytes. rewrite map_app, concat_app. reflexivity. Qed.
Lemma infos_bytes_cons i is : infos_bytes (i :: is) = info_bytes i ++ infos_bytes is.
Proof. reflexivity. Qed.
Lemma info_bytes_length i : length (info_bytes i) = (2 + length (snd i))%nat.
Proof. reflexivity. Qed.

(** ** The loop *)
(** One iteration, on any input. *)
Lemma cemi_loop_unfold p f size pos acc bs :
  cemi_loop p (S f) size pos acc bs =
  if pos <? size then
    match bs with
    | tc :: k :: rest =>
        match info_try_from tc with
        | Ok t =>
            if k + 2 <? 256 then
              if pos + (k + 2) <? 256 then
                cemi_loop p f size (pos + (k + 2))
                  (acc ++ [{| ai_type := t; ai_value := firstn (N.to_nat k) rest ++ repeat 0 (N.to_nat k - length rest) |}])
                  (skipn (N.to_nat k) rest)
              else match p with
                   | Debug => Panic
                   | Release => cemi_loop p f size ((pos + (k + 2)) mod 256)
                       (acc ++ [{| ai_type := t; ai_value := firstn (N.to_nat k) rest ++ repeat 0 (N.to_nat k - length rest) |}])
                       (skipn (N.to_nat k) rest)
                   end
            else match p with
                 | Debug => Panic
                 | Release =>
                     if pos + (k + 2) mod 256 <? 256 then
                       cemi_loop p f size (pos + (k + 2) mod 256)
                       (acc ++ [{| ai_type := t; ai_value := firstn (N.to_nat k) rest ++ repeat 0 (N.to_nat k - length rest) |}])
                       (skipn (N.to_nat k) rest)
                     else
                       cemi_loop p f size ((pos + (k + 2) mod 256) mod 256)
                       (acc ++ [{| ai_type := t; ai_value := firstn (N.to_nat k) rest ++ repeat 0 (N.to_nat k - length rest) |}])
                       (skipn (N.to_nat k) rest)
                 end
        | Err => Err
        | Panic => Panic
        end
    | [tc] => match info_try_from tc with Panic => Panic | _ => Err end
    | [] => Err
    end
  else Ok (acc, bs).
Proof.
  cbn [cemi_loop]. destruct (pos <? size); [|reflexivity].
  destruct bs as [|tc bs]; [reflexivity|]. unfold pbind at 1. cbn [read_u8].
  unfold pbind at 1, lift at 1. destruct (info_try_from tc) as [t| |]; try (destruct bs; reflexivity).
  destruct bs as [|k rest]; [reflexivity|].
  unfold pbind at 1. cbn [read_u8]. unfold pbind at 1, read_zeroed.
  unfold pbind at 1, lift at 1, add_chk at 1. unfold u8_max1.
  destruct (N.ltb_spec (k + 2) 256) as [L|L].
  - unfold pbind, lift, add_chk. destruct (pos + (k + 2) <? 256); [reflexivity|]. destruct p; reflexivity.
  - destruct p; [reflexivity|]. unfold pbind, lift, add_chk. destruct (pos + (k + 2) mod 256 <? 256); reflexivity.
Qed.

(** Fuel equal to the number of unread bytes plus one is never exhausted: any
    larger fuel gives the same result. *)
Lemma cemi_loop_fuel p size f : forall g pos acc bs,
  (length bs < f)%nat -> (length bs < g)%nat ->
  cemi_loop p f size pos acc bs = cemi_loop p g size pos acc bs.
Proof.
  induction f as [|f IH]; intros [|g] pos acc bs Hf Hg; try lia.
  rewrite !cemi_loop_unfold.
  destruct (pos <? size); [|reflexivity].
  destruct bs as [|tc [|k rest]]; try reflexivity.
  destruct (info_try_from tc); try reflexivity.
  assert (L : (length (skipn (N.to_nat k) rest) < f /\ length (skipn (N.to_nat k) rest) < g)%nat).
  { rewrite skipn_length. cbn [length] in *. lia. }
  destruct L as [L1 L2].
  repeat match goal with
  | |- context [if ?c then _ else _] => destruct c
  | |- context [match p with _ => _ end] => destruct p
  end; auto.
Qed.

Lemma cemi_loop_step p f size pos acc i rest :
  pos < size -> pos + N.of_nat (length (info_bytes (info_pair i))) < 256 ->
  cemi_loop p (S f) size pos acc (info_bytes (info_pair i) ++ rest) =
  cemi_loop p f size (pos + N.of_nat (length (info_bytes (info_pair i)))) (acc ++ [i]) rest.
Proof.
  intros H1 H2. rewrite cemi_loop_unfold. replace (pos <? size) with true by lia.
  unfold info_bytes at 1, info_pair at 1 2. cbn [fst snd app]. change info_number with info_code.
  rewrite (proj2 (info_try_from_iff _ (ai_type i)) eq_refl).
  rewrite info_bytes_length in *. unfold info_pair in *. cbn [snd] in *.
  replace (N.of_nat (length (ai_value i)) + 2 <? 256) with true by lia.
  replace (pos + (N.of_nat (length (ai_value i)) + 2) <? 256) with true by lia.
  rewrite Nat2N.id, firstn_app, skipn_app, Nat.sub_diag, firstn_all, skipn_all.
  rewrite app_length. replace (length (ai_value i) - (length (ai_value i) + length rest))%nat with 0%nat by lia.
  cbn [firstn skipn repeat app]. rewrite !app_nil_r.
  replace (pos + (N.of_nat (length (ai_value i)) + 2)) with (pos + N.of_nat (2 + length (ai_value i))) by lia.
  destruct i; reflexivity.
Qed.

(** Running through a list of elements. *)
Lemma cemi_loop_run p size : forall is f pos acc rest,
  pos + N.of_nat (length (infos_bytes (map info_pair is))) < 256 ->
  (forall a b, is = a ++ b -> b <> [] -> pos + N.of_nat (length (infos_bytes (map info_pair a))) < size) ->
  cemi_loop p (length is + f) size pos acc (infos_bytes (map info_pair is) ++ rest) =
  cemi_loop p f size (pos + N.of_nat (length (infos_bytes (map info_pair is)))) (acc ++ is) rest.
Proof.
  induction is as [|i is IH]; intros f pos acc rest H1 H2.
  - cbn. rewrite app_nil_r, N.add_0_r. reflexivity.
  - cbn [map length Nat.add]. cbn [map] in H1. rewrite infos_bytes_cons in *. rewrite app_length in H1.
    rewrite <- app_assoc, cemi_loop_step.
    + rewrite IH.
      * rewrite app_length, <- app_assoc. cbn [app].
        f_equal. lia.
      * lia.
      * intros a b E Hb. specialize (H2 (i :: a) b).
        cbn [map app] in H2. rewrite infos_bytes_cons, app_length in H2.
        rewrite E in H2. specialize (H2 eq_refl Hb). lia.
    + specialize (H2 [] (i :: is) eq_refl). cbn in H2. rewrite N.add_0_r in H2. apply H2. discriminate.
    + lia.
Qed.

Lemma length_infos (is : list additional_info) : (2 * length is <= length (infos_bytes (map info_pair is)))%nat.
Proof.
  induction is as [|i is IH]; [reflexivity|].
  cbn [map]. rewrite infos_bytes_cons, app_length, info_bytes_length. cbn [length]. lia.
Qed.
Lemma cemi_read p code (is : list additional_info) service :
  (length (infos_bytes (map info_pair is)) <= 255)%nat ->
  cemi_from_packet p (cemi_bytes code (map info_pair is) service) =
  Ok ({| ce_code := code; ce_infos := is; ce_service := service |}, []).
Proof.
  intro H. unfold cemi_from_packet, cemi_bytes. cbn [app].
  unfold pbind at 1. cbn [read_u8]. unfold pbind at 1. cbn [read_u8]. unfold pbind at 1.
  set (S0 := infos_bytes (map info_pair is)) in *.
  pose proof (length_infos is) as Hl. fold S0 in Hl.
  rewrite (cemi_loop_fuel p _ _ (length is + S (length (S0 ++ service)))) by lia.
  unfold S0 at 2. rewrite cemi_loop_run; fold S0.
  - rewrite N.add_0_l, cemi_loop_unfold, N.ltb_irrefl. reflexivity.
  - lia.
  - intros a b E Hb. subst is. unfold S0. rewrite map_app, infos_bytes_app, app_length.
    destruct b as [|i b]; [congruence|]. cbn [map]. rewrite infos_bytes_cons, app_length, info_bytes_length. lia.
Qed.
Lemma known_infos_lift (is : list (N * list N)) :
  Forall (fun i => known_info (fst i)) is -> exists js, map info_pair js = is.
Proof.
  induction 1 as [|[t v] is Hk _ [js IH]]; [exists []; reflexivity|].
  apply known_info_iff in Hk. destruct Hk as [ty Hk]. cbn [fst] in Hk.
  exists ({| ai_type := ty; ai_value := v |} :: js). cbn [map]. rewrite IH, Hk. reflexivity.
Qed.

(** ** Factorisation *)
Lemma take_zeroed k (rest : list N) :
  rest ++ repeat 0 (k - length rest) = (firstn k rest ++ repeat 0 (k - length rest)) ++ skipn k rest.
Proof.
  destruct (Nat.leb_spec k (length rest)) as [L|L].
  - replace (k - length rest)%nat with 0%nat by lia. cbn [repeat]. rewrite !app_nil_r, firstn_skipn. reflexivity.
  - rewrite firstn_all2, skipn_all2 by lia. rewrite app_nil_r. reflexivity.
Qed.
(** The bytes consumed by the loop are the encodings of the elements returned,
    up to zeros appended at the very end of the input. *)
Lemma cemi_loop_factor p size f : forall pos acc bs out rest,
  bytes bs ->
  cemi_loop p f size pos acc bs = Ok (out, rest) ->
  exists is n, out = acc ++ is /\ bs ++ repeat 0 n = infos_bytes (map info_pair is) ++ rest /\
    (n <> 0%nat -> rest = []) /\
    (p = Debug -> pos + N.of_nat (length (infos_bytes (map info_pair is))) < 256 \/ is = []) /\
    (p = Debug -> size <= pos + N.of_nat (length (infos_bytes (map info_pair is)))) /\
    (p = Debug -> forall a b, is = a ++ b -> b <> [] ->
       pos + N.of_nat (length (infos_bytes (map info_pair a))) < size).
Proof.
  induction f as [|f IH]; intros pos acc bs out rest Hb H.
  - cbn [cemi_loop] in H. destruct (N.ltb_spec pos size); [discriminate|].
    apply ret_ok in H. destruct H as [-> ->]. exists [], 0%nat.
    cbn. rewrite !app_nil_r. repeat split; auto; try lia.
    intros _ a b E Hn. destruct a, b; try discriminate; congruence.
  - rewrite cemi_loop_unfold in H. destruct (N.ltb_spec pos size) as [L|L].
    2:{ injection H as <- <-. exists [], 0%nat.
        cbn. rewrite !app_nil_r. repeat split; auto; try lia.
        intros _ a b E Hn. destruct a, b; try discriminate; congruence. }
    destruct bs as [|tc [|k r]]; try discriminate.
    { destruct (info_try_from tc); discriminate. }
    destruct (info_try_from tc) as [t| |] eqn:T; try discriminate.
    apply info_try_from_iff in T. subst tc.
    set (v := firstn (N.to_nat k) r ++ repeat 0 (N.to_nat k - length r)) in *.
    assert (Lv : N.of_nat (length v) = k).
    { unfold v. rewrite app_length, firstn_length, repeat_length. lia. }
    assert (Hk : k < 256) by (rewrite !bytes_cons in Hb; tauto).
    assert (Hs : bytes (skipn (N.to_nat k) r)).
    { apply bytes_skipn. rewrite !bytes_cons in Hb. tauto. }
    assert (X : exists pos', cemi_loop p f size pos' (acc ++ [{| ai_type := t; ai_value := v |}]) (skipn (N.to_nat k) r) = Ok (out, rest)
                 /\ (p = Debug -> pos' = pos + (k + 2) /\ pos' < 256)).
    { destruct (N.ltb_spec (k + 2) 256); [destruct (N.ltb_spec (pos + (k + 2)) 256)|].
      - eexists; split; [exact H|]. auto.
      - destruct p; [discriminate|]. eexists; split; [exact H|]. discriminate.
      - destruct p; [discriminate|].
        destruct (pos + (k + 2) mod 256 <? 256); (eexists; split; [exact H|]; discriminate). }
    destruct X as (pos' & X & Hpos). clear H.
    destruct (IH _ _ _ _ _ Hs X) as (is & n & E1 & E2 & E3 & E4 & E5 & E6).
    set (i := {| ai_type := t; ai_value := v |}) in *.
    assert (Li : forall js, N.of_nat (length (infos_bytes (map info_pair (i :: js)))) =
                 k + 2 + N.of_nat (length (infos_bytes (map info_pair js)))).
    { intro js. cbn [map]. rewrite infos_bytes_cons, app_length, info_bytes_length.
      unfold info_pair, i; cbn [snd ai_value]. lia. }
    exists (i :: is), ((N.to_nat k - length r) + n)%nat.
    split; [rewrite E1, <- app_assoc; reflexivity|].
    split.
    { cbn [map]. rewrite infos_bytes_cons. change (info_pair i) with (info_code t, v).
      unfold info_bytes. cbn [fst snd app]. rewrite Lv. do 2 f_equal.
      rewrite repeat_app, app_assoc, take_zeroed. fold v. rewrite <- !app_assoc. f_equal. exact E2. }
    split.
    { intro Hn. destruct (Nat.eq_dec n 0) as [->|Hn']; [|exact (E3 Hn')].
      assert (skipn (N.to_nat k) r = []) as Es by (apply skipn_all2; lia).
      rewrite Es in E2. cbn in E2. symmetry in E2. apply app_eq_nil in E2. tauto. }
    split.
    { intro Hd. left. destruct (Hpos Hd) as [-> Hp]. rewrite Li.
      destruct (E4 Hd) as [Q|Q]; [lia|subst is; cbn; lia]. }
    split.
    { intro Hd. destruct (Hpos Hd) as [-> _]. rewrite Li. specialize (E5 Hd). lia. }
    intros Hd [|a0 a] b E Hne.
    + cbn. lia.
    + cbn [app] in E. injection E as <- E. rewrite Li.
      destruct (Hpos Hd) as [-> _]. specialize (E6 Hd a b E Hne). lia.
Qed.

Lemma cemi_factor p bs c rest :
  bytes bs -> cemi_from_packet p bs = Ok (c, rest) ->
  rest = [] /\ exists size n,
    bs ++ repeat 0 n =
      [ce_code c; size] ++ infos_bytes (map info_pair (ce_infos c)) ++ ce_service c /\
    (n <> 0%nat -> ce_service c = []) /\
    (p = Debug -> size <= N.of_nat (length (infos_bytes (map info_pair (ce_infos c)))) < 256 /\
       forall a b, ce_infos c = a ++ b -> b <> [] ->
         N.of_nat (length (infos_bytes (map info_pair a))) < size).
Proof.
  intros Hb H. unfold cemi_from_packet in H.
  apply pbind_ok in H; destruct H as (code & r1 & P1 & H). apply read_u8_ok in P1; subst.
  apply pbind_ok in H; destruct H as (size & r2 & P1 & H). apply read_u8_ok in P1; subst.
  apply pbind_ok in H; destruct H as (infos & r3 & P1 & H).
  unfold pbind, read_to_end, ret in H. injection H as <- <-.
  rewrite !bytes_cons in Hb. destruct Hb as (_ & Hs & Hb).
  apply cemi_loop_factor in P1; [|exact Hb]. destruct P1 as (is & n & -> & E2 & E3 & E4 & E5 & E6).
  cbn [app ce_code ce_infos ce_service] in *. split; [reflexivity|]. exists size, n.
  split; [cbn; do 2 f_equal; exact E2|]. split; [exact E3|].
  intro Hd. rewrite ?N.add_0_l in *. split; [|exact (E6 Hd)]. split; [exact (E5 Hd)|].
  destruct (E4 Hd) as [Q|Q]; [exact Q|subst is; cbn; lia].
Qed.

(** ** Panics: exactly the checked u8 additions *)
Lemma cemi_loop_panic p size f : forall pos acc bs,
  bytes bs -> (length bs < f)%nat -> size < 256 ->
  (cemi_loop p f size pos acc bs = Panic <->
   p = Debug /\ exists is t k rest,
     bs = infos_bytes (map info_pair is) ++ [info_code t; k] ++ rest /\
     pos + N.of_nat (length (infos_bytes (map info_pair is))) < size /\
     256 <= pos + N.of_nat (length (infos_bytes (map info_pair is))) + 2 + k).
Proof.
  induction f as [|f IH]; intros pos acc bs Hb Hf Hsz; [lia|].
  rewrite cemi_loop_unfold. destruct (N.ltb_spec pos size) as [L|L].
  2:{ split; [discriminate|]. intros (_ & is & t & k & rest & _ & H & _). lia. }
  destruct bs as [|tc bs].
  { split; [discriminate|]. intros (_ & is & t & k & rest & E & _).
    symmetry in E. apply app_eq_nil in E. destruct E; discriminate. }
  destruct (known_info_dec tc) as [[t T]|T].
  2:{ split.
      - rewrite T. destruct bs; discriminate.
      - intros (_ & is & t & k & rest & E & _). exfalso.
        assert (exists ty, tc = info_code ty) as [ty ->].
        { destruct is as [|i is]; cbn in E; [injection E; eauto|].
          injection E as -> _. exists (ai_type i). reflexivity. }
        rewrite (proj2 (info_try_from_iff _ ty) eq_refl) in T. discriminate. }
  destruct bs as [|k r].
  { rewrite T. split; [discriminate|]. intros (_ & is & t' & k & rest & E & _).
    apply (f_equal (@length N)) in E. rewrite app_length in E. cbn [length app] in E. lia. }
  rewrite T. apply info_try_from_iff in T. subst tc.
  set (v := firstn (N.to_nat k) r ++ repeat 0 (N.to_nat k - length r)).
  assert (Hk : k < 256) by (rewrite !bytes_cons in Hb; tauto).
  assert (Hs : bytes (skipn (N.to_nat k) r)).
  { apply bytes_skipn. rewrite !bytes_cons in Hb. tauto. }
  assert (Lr : (length (skipn (N.to_nat k) r) < f)%nat).
  { rewrite skipn_length. cbn [length] in *. lia. }
  destruct (N.ltb_spec (pos + (k + 2)) 256) as [Q|Q].
  - replace (k + 2 <? 256) with true by lia.
    rewrite IH by assumption.
    split; intros (-> & is & t' & k' & rest & E1 & E2 & E3); (split; [reflexivity|]).
    + assert (Lv : (N.to_nat k <= length r)%nat).
      { destruct (Nat.leb_spec (N.to_nat k) (length r)); [assumption|exfalso].
        rewrite skipn_all2 in E1 by lia. symmetry in E1. apply app_eq_nil in E1. destruct E1; discriminate. }
      assert (Ev : v = firstn (N.to_nat k) r).
      { unfold v. replace (N.to_nat k - length r)%nat with 0%nat by lia. apply app_nil_r. }
      set (i := {| ai_type := t; ai_value := v |}).
      assert (Lv' : N.of_nat (length v) = k) by (rewrite Ev, firstn_length; lia).
      assert (Li : N.of_nat (length (info_bytes (info_pair i))) = k + 2).
      { rewrite info_bytes_length. cbn [snd info_pair i ai_value]. lia. }
      exists (i :: is), t', k', rest. cbn [map]. rewrite infos_bytes_cons, <- app_assoc, app_length.
      split; [|split; lia].
      rewrite <- E1. unfold info_bytes. cbn [fst snd info_pair i ai_type ai_value app]. change info_number with info_code. rewrite Lv', Ev, firstn_skipn.
      reflexivity.
    + destruct is as [|i is].
      { cbn in E1, E3. injection E1 as _ -> _. lia. }
      cbn [map] in *. rewrite infos_bytes_cons, <- app_assoc in E1. rewrite infos_bytes_cons, app_length in E2, E3.
      rewrite info_bytes_length in E2, E3. unfold info_bytes in E1. cbn [fst snd info_pair app] in E1. change info_number with info_code in E1.
      injection E1 as Et Ek Er. cbn [snd info_pair] in E2, E3.
      exists is, t', k', rest. split; [|split; lia].
      rewrite Er, Ek, Nat2N.id, skipn_app, skipn_all, Nat.sub_diag. reflexivity.
  - assert (Hp : p = Debug ->
      (if k + 2 <? 256 then (Panic : res (list additional_info * list N)) else Panic) = Panic).
    { intros _. destruct (k + 2 <? 256); reflexivity. }
    split.
    + intro H. destruct p.
      * split; [reflexivity|]. exists [], t, k, r. cbn. split; [reflexivity|]. lia.
      * exfalso. destruct (k + 2 <? 256); [|destruct (pos + (k + 2) mod 256 <? 256)];
        apply IH in H; try assumption; destruct H; discriminate.
    + intros (-> & _). destruct (k + 2 <? 256); reflexivity.
Qed.

Lemma cemi_panic_iff p bs :
  bytes bs ->
  (cemi_from_packet p bs = Panic <->
   p = Debug /\ exists code size is t k rest,
     bs = [code; size] ++ infos_bytes (map info_pair is) ++ [info_code t; k] ++ rest /\
     N.of_nat (length (infos_bytes (map info_pair is))) < size /\
     256 <= N.of_nat (length (infos_bytes (map info_pair is))) + 2 + k).
Proof.
  intro Hb. unfold cemi_from_packet.
  destruct bs as [|code [|size r]].
  - split; [discriminate|]. intros (_ & c & s & is & t & k & rest & E & _). discriminate.
  - split; [discriminate|]. intros (_ & c & s & is & t & k & rest & E & _). discriminate.
  - rewrite !bytes_cons in Hb. destruct Hb as (Hc & Hs & Hb).
    unfold pbind at 1. cbn [read_u8]. unfold pbind at 1. cbn [read_u8]. unfold pbind at 1.
    transitivity (cemi_loop p (S (length r)) size 0 [] r = Panic).
    + destruct (cemi_loop p (S (length r)) size 0 [] r) as [[x y]| |]; split; try discriminate; reflexivity.
    + rewrite cemi_loop_panic by (assumption || lia). split.
      * intros (-> & is & t & k & rest & -> & H1 & H2). split; [reflexivity|].
        exists code, size, is, t, k, rest. rewrite N.add_0_l in *. auto.
      * intros (-> & c & s & is & t & k & rest & E & H1 & H2). split; [reflexivity|].
        cbn [app] in E. injection E as -> -> ->. exists is, t, k, rest. rewrite N.add_0_l. auto.
Qed.

(** ** L_Data *)
Lemma testbit_land_pos n b : (0 <? N.land n (2 ^ b)) = N.testbit n b.
Proof.
  destruct (N.testbit n b) eqn:E.
  - apply N.ltb_lt. destruct (N.eq_0_gt_0_cases (N.land n (2 ^ b))) as [H|H]; [|exact H].
    apply (f_equal (fun x => N.testbit x b)) in H. rewrite N.land_spec, N.pow2_bits_true, E in H. discriminate.
  - apply N.ltb_ge. enough (N.land n (2 ^ b) = 0) by lia.
    apply N.bits_inj. intro i. rewrite N.land_spec, N.bits_0.
    destruct (N.eq_dec i b) as [->|Hi]; [rewrite E; reflexivity|].
    rewrite N.pow2_bits_false by congruence. apply andb_false_r.
Qed.
Lemma ldata_of_bits c1 src dst :
  ldata_of c1 src dst =
  {| ld_src := src; ld_dest := dst; ld_frame_type := N.testbit c1 7; ld_repetition := N.testbit c1 5;
     ld_system_broadcast := N.testbit c1 4; ld_ack_request := N.testbit c1 1 |}.
Proof.
  unfold ldata_of. change 0x80 with (2 ^ 7). change (N.shiftl 1 5) with (2 ^ 5).
  change (N.shiftl 1 4) with (2 ^ 4). change (N.shiftl 1 1) with (2 ^ 1).
  rewrite !testbit_land_pos. reflexivity.
Qed.

Lemma ldata_ind_value c i c1 c2 src dst len apci data :
  src < 65536 -> dst < 65536 -> apci < 65536 ->
  ce_service c = ldata_bytes c1 c2 src dst len apci data ->
  (ldata_ind_from_cemi c = Ok i <->
   i = {| li_cemi := c;
          li_data := {| ld_src := src; ld_dest := dst; ld_frame_type := N.testbit c1 7;
                        ld_repetition := N.testbit c1 5; ld_system_broadcast := N.testbit c1 4;
                        ld_ack_request := N.testbit c1 1 |};
          li_value := if len <=? 1 then [apci mod 64]
                      else take_padded (N.to_nat (len - 1)) data |}).
Proof.
  intros H1 H2 H3 E. unfold ldata_ind_from_cemi. rewrite E. unfold ldata_bytes.
  match goal with |- ?L = Ok i <-> _ => assert (X : L = Ok {| li_cemi := c;
          li_data := {| ld_src := src; ld_dest := dst; ld_frame_type := N.testbit c1 7;
                        ld_repetition := N.testbit c1 5; ld_system_broadcast := N.testbit c1 4;
                        ld_ack_request := N.testbit c1 1 |};
          li_value := if len <=? 1 then [apci mod 64]
                      else take_padded (N.to_nat (len - 1)) data |}); [|rewrite X; split; congruence] end.
  unfold run_on, pbind. pgo.
  rewrite ldata_of_bits.
  destruct (N.leb_spec len 1) as [L|L].
  - replace (0 <? (if 0 <? len then len - 1 else 0)) with false.
    2:{ destruct (N.ltb_spec 0 len); symmetry; apply N.ltb_ge; lia. }
    unfold ret. change 63 with (N.ones 6). rewrite N.land_ones.
    unfold as_u8. change (2 ^ 6) with 64. rewrite (N.mod_small (apci mod 64)) by lia. reflexivity.
  - replace (0 <? len) with true by lia. replace (0 <? len - 1) with true by lia.
    unfold read_zeroed, ret, take_padded. reflexivity.
Qed.

Lemma service_nine (sv : list N) : bytes sv -> (9 <= length sv)%nat ->
  exists c1 c2 src dst len apci data, src < 65536 /\ dst < 65536 /\ apci < 65536 /\
    sv = ldata_bytes c1 c2 src dst len apci data.
Proof.
  intros Hb H.
  destruct sv as [|c1 [|c2 [|s1 [|s2 [|d1 [|d2 [|len [|a1 [|a2 data]]]]]]]]]; cbn [length] in H; try lia.
  rewrite !bytes_cons in Hb.
  exists c1, c2, (s1 * 256 + s2), (d1 * 256 + d2), len, (a1 * 256 + a2), data.
  split; [lia|]. split; [lia|]. split; [lia|].
  assert (W : forall a b, a < 256 -> b < 256 -> word (a * 256 + b) = [a; b]).
  { intros a b Ha Hb'. unfold word. f_equal; [lia|]. f_equal. lia. }
  unfold ldata_bytes. rewrite !W by tauto. reflexivity.
Qed.

Lemma ldata_ind_err_iff c : ldata_ind_from_cemi c = Err <-> (length (ce_service c) < 9)%nat.
Proof.
  unfold ldata_ind_from_cemi, run_on, pbind.
  destruct (ce_service c) as [|c1 [|c2 [|s1 [|s2 [|d1 [|d2 [|len [|a1 [|a2 data]]]]]]]]];
    cbn [length read_u8 read_u16]; (split; [intro; try lia|intro; try lia; try reflexivity]).
  - exfalso. revert H. destruct (0 <? (if 0 <? len then len - 1 else 0)); discriminate.
Qed.
Lemma ldata_ind_np c : ldata_ind_from_cemi c <> Panic.
Proof.
  unfold ldata_ind_from_cemi. apply np_run_on.
  repeat (apply np_bind; [solve [auto with np]|intro]).
  apply np_bind; [|intro; apply np_ret]. destruct (0 <? _); auto with np.
Qed.
Lemma ldata_con_err_iff c : ldata_con_from_cemi c = Err <-> (length (ce_service c) < 6)%nat.
Proof.
  unfold ldata_con_from_cemi, run_on, pbind.
  destruct (ce_service c) as [|c1 [|c2 [|s1 [|s2 [|d1 [|d2 data]]]]]];
    cbn [length read_u8 read_u16]; (split; [intro; try lia; try discriminate|intro; try lia; try reflexivity]).
Qed.
Lemma ldata_con_np c : ldata_con_from_cemi c <> Panic.
Proof.
  unfold ldata_con_from_cemi. apply np_run_on.
  repeat (apply np_bind; [solve [auto with np]|intro]). apply np_ret.
Qed.
Lemma ldata_con_value c i c1 c2 src dst rest :
  src < 65536 -> dst < 65536 ->
  ce_service c = [c1; c2] ++ word src ++ word dst ++ rest ->
  (ldata_con_from_cemi c = Ok i <->
   i = {| lc_cemi := c;
          lc_data := {| ld_src := src; ld_dest := dst; ld_frame_type := N.testbit c1 7;
                        ld_repetition := N.testbit c1 5; ld_system_broadcast := N.testbit c1 4;
                        ld_ack_request := N.testbit c1 1 |};
          lc_confirm := negb (N.testbit c1 0) |}).
Proof.
  intros H1 H2 E. unfold ldata_con_from_cemi. rewrite E.
  unfold run_on, pbind. pgo. unfold ret. rewrite ldata_of_bits.
  replace (N.land c1 1 =? 0) with (negb (N.testbit c1 0)).
  - split; congruence.
  - change 1 with (2 ^ 0). rewrite <- testbit_land_pos.
    destruct (N.eqb_spec (N.land c1 (2 ^ 0)) 0) as [Z|Z].
    + rewrite Z. reflexivity.
    + replace (0 <? N.land c1 (2 ^ 0)) with true; [reflexivity|]. symmetry. apply N.ltb_lt. lia.
Qed.

(** ** APDU *)
Lemma land63 b : N.land b 0x3f = b mod 64.
Proof. change 0x3f with (N.ones 6). apply N.land_ones. Qed.
Lemma apdu_any code ext pl : code < 16 ->
  apdu_packet {| apdu_apci := {| apci_code := code; apci_ext := ext |}; apdu_payload := pl |} =
  let e := match ext with Some e => e mod 64 | None => 0 end in
  match pl with
  | Small b => word (64 * code + N.lor e (b mod 64))
  | Big data => word (64 * code + e) ++ data
  end.
Proof.
  intro H. assert (B : forall x, x mod 64 < 64) by (intro; apply N.mod_lt; discriminate).
  assert (K : forall x y, x < 4 -> y < 64 -> N.lor (as_u8 (N.shiftl x 6)) y = 64 * x + y).
  { intros x y Hx Hy. assert (C : x = 0 \/ x = 1 \/ x = 2 \/ x = 3) by lia.
    destruct C as [->|[->|[->| ->]]]; cbn [as_u8 N.shiftl];
    [rewrite N.lor_0_l; lia| | | ].
    - exact (lor_disjoint_add y 1 6 Hy).
    - exact (lor_disjoint_add y 2 6 Hy).
    - exact (lor_disjoint_add y 3 6 Hy). }
  assert (L : forall e b, N.lor (e mod 64) (b mod 64) < 64).
  { intros e b. change 64 with (2 ^ 6). rewrite <- !N.land_ones, <- N.land_lor_distr_l, N.land_ones. apply N.mod_lt. discriminate. }
  assert (E3f : forall x, N.land x 0x3f = x mod 64) by (intro; exact (N.land_ones x 6)).
  assert (E3 : forall x, N.land x 3 = x mod 4) by (intro; exact (N.land_ones x 2)).
  assert (E12 : N.shiftr (N.land code 12) 2 = code / 4).
  { rewrite N.shiftr_land. change (N.shiftr 12 2) with (N.ones 2). rewrite N.land_ones, N.shiftr_div_pow2. apply N.mod_small.
    apply N.div_lt_upper_bound; lia. }
  assert (W : forall y, y < 64 -> word (64 * code + y) = [code / 4; 64 * (code mod 4) + y]).
  { intros y Hy. unfold word. f_equal; [|f_equal]; lia. }
  unfold apdu_packet, apci_packet. cbn [apdu_apci apdu_payload apci_code apci_ext]. rewrite E12, E3.
  assert (M4 : code mod 4 < 4) by (apply N.mod_lt; discriminate).
  destruct ext as [e|]; destruct pl as [b|data]; cbn zeta; rewrite ?E3f.
  - rewrite <- N.lor_assoc, K, W by auto. reflexivity.
  - rewrite K, W by auto. reflexivity.
  - rewrite K, N.lor_0_l, W by auto. reflexivity.
  - rewrite W by reflexivity. rewrite <- (K (code mod 4) 0 M4 ltac:(reflexivity)), N.lor_0_r. reflexivity.
Qed.
Lemma group_read_packet : apdu_packet group_value_read = word apci_group_read.
Proof. reflexivity. Qed.
Lemma group_write_big data a :
  group_value_write data false = Ok a -> apdu_packet a = word apci_group_write ++ data.
Proof. intro H. injection H as <-. reflexivity. Qed.
Lemma lor128 b : N.lor 128 (N.land b 0x3f) = 128 + b mod 64.
Proof.
  rewrite land63.
  assert (X : forallb (fun n => N.lor 128 (N.of_nat n) =? 128 + N.of_nat n) (seq 0 64) = true) by reflexivity.
  rewrite forallb_forall in X. specialize (X (N.to_nat (b mod 64))).
  rewrite in_seq, N2Nat.id in X. apply N.eqb_eq, X. lia.
Qed.
Lemma group_write_small b data a :
  group_value_write (b :: data) true = Ok a -> apdu_packet a = word (apci_group_write + b mod 64).
Proof.
  intro H. injection H as <-. unfold apdu_packet. cbn [apdu_apci apdu_payload].
  change (apci_packet a_group_value_write) with [0; 128]. cbv iota. rewrite lor128.
  unfold word, apci_group_write. f_equal; [lia|]. f_equal. lia.
Qed.
Lemma group_write_panic data small : group_value_write data small = Panic <-> small = true /\ data = [].
Proof. unfold group_value_write. destruct small, data; split; try discriminate; intuition discriminate. Qed.
Lemma group_write_ok data small :
  (exists a, group_value_write data small = Ok a) <-> small = false \/ data <> [].
Proof.
  unfold group_value_write. destruct small, data; split; intros; eauto.
  - destruct H; discriminate.
  - destruct H; congruence.
  - right. discriminate.
Qed.

(** ** L_Data requests *)
Lemma control1_value prio : 
  N.lor (N.lor (N.lor (N.lor 0 (N.shiftl 1 7)) (N.shiftl 1 5)) (N.shiftl 1 4)) (N.shiftl (N.land prio 3) 2)
  = 0xb0 + 4 * (prio mod 4).
Proof.
  change 3 with (N.ones 2). rewrite N.land_ones. change (2 ^ 2) with 4.
  assert (prio mod 4 = 0 \/ prio mod 4 = 1 \/ prio mod 4 = 2 \/ prio mod 4 = 3) as [E|[E|[E|E]]] by lia;
  rewrite E; reflexivity.
Qed.
Lemma ldata_req_packet_eq p m :
  addr_to_u16 (lr_dest m) < 65536 ->
  (1 <= length (tpdu_packet (lr_tpdu m)) <= 255)%nat ->
  ldata_req_packet p m =
  Ok ([0x11; 0; 0xb0 + 4 * (lr_priority m mod 4); 0xe0] ++ word 0 ++ word (addr_to_u16 (lr_dest m))
      ++ [lenN (tpdu_packet (lr_tpdu m)) - 1] ++ tpdu_packet (lr_tpdu m)).
Proof.
  intros Ha Hl. unfold ldata_req_packet. cbv zeta. rewrite control1_value.
  unfold sub_chk, as_u8, lenN.
  rewrite N.mod_small by lia. replace (1 <=? N.of_nat (length (tpdu_packet (lr_tpdu m)))) with true by lia.
  rewrite be16_word by assumption. reflexivity.
Qed.
Lemma ldata_req_len p m :
  addr_to_u16 (lr_dest m) < 65536 ->
  ldata_req_packet p m =
  (if lenN (tpdu_packet (lr_tpdu m)) mod 256 =? 0
   then match p with
        | Debug => Panic
        | Release => Ok ([0x11; 0; 0xb0 + 4 * (lr_priority m mod 4); 0xe0] ++ word 0
             ++ word (addr_to_u16 (lr_dest m)) ++ [255] ++ tpdu_packet (lr_tpdu m))
        end
   else Ok ([0x11; 0; 0xb0 + 4 * (lr_priority m mod 4); 0xe0] ++ word 0
             ++ word (addr_to_u16 (lr_dest m)) ++ [lenN (tpdu_packet (lr_tpdu m)) mod 256 - 1]
             ++ tpdu_packet (lr_tpdu m))).
Proof.
  intro Ha. unfold ldata_req_packet. cbv zeta. rewrite control1_value.
  unfold sub_chk, as_u8, u8_max1. set (l := lenN (tpdu_packet (lr_tpdu m)) mod 256).
  assert (l < 256) by (unfold l; lia).
  rewrite be16_word by assumption.
  destruct (N.eqb_spec l 0) as [->|H0].
  - destruct p; reflexivity.
  - replace (1 <=? l) with true by lia. reflexivity.
Qed.
