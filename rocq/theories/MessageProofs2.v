(** The remaining error texts. *)
From Verif Require Import Base Addresses Core Emi Messages Messages2 Wire Spec AddrProofs MsgSpec MsgSpec2 EmiProofs MsgView MessageProofs MsgView2.
From Coq Require Import ZifyBool ZifyNat ZifyN.
Open Scope N_scope.

(** ** Without texts *)
Lemma same_device len : same (m_device_info len) (device_info_from_packet len).
Proof. unfold m_device_info, device_info_from_packet. same_tac. Qed.
Lemma same_family_list n : same (m_family_list n) (read_families n).
Proof. induction n; cbn [m_family_list read_families]; same_tac. exact IHn. Qed.
Lemma same_families p len : same (m_families p len) (families_from_packet p len).
Proof. unfold m_families, families_from_packet. same_tac. apply same_family_list. Qed.
Lemma same_ip_config len : same (m_ip_config len) (ip_config_from_packet len).
Proof. unfold m_ip_config, ip_config_from_packet. same_tac. Qed.
Lemma same_ip_current len : same (m_ip_current len) (ip_current_from_packet len).
Proof. unfold m_ip_current, ip_current_from_packet. same_tac. Qed.
Lemma same_quads n : same (m_quads n) (read_quads n).
Proof. induction n; cbn [m_quads read_quads]; same_tac. exact IHn. Qed.
Lemma same_addresses p len : same (m_addresses p len) (knx_addresses_from_packet p len).
Proof. unfold m_addresses, knx_addresses_from_packet. same_tac. apply same_quads. Qed.
Lemma same_manufacturer len : same (m_manufacturer len) (manufacturer_from_packet len).
Proof. unfold m_manufacturer, manufacturer_from_packet. same_tac. Qed.
Lemma same_dib p : same (m_dib p) (dib_from_packet p).
Proof.
  unfold m_dib, dib_from_packet. apply same_bind; [apply same_read|intro sl]. apply same_bind; [apply same_read|intro tc].
  apply same_bind; [apply same_lift|]. intros []; (apply same_bind; [|intro; apply same_ret]).
  - apply same_device. - apply same_families. - apply same_ip_config. - apply same_ip_current. - apply same_addresses. - apply same_manufacturer.
Qed.
Lemma same_header : same m_header header_from_packet. Proof. exact (proj1 (proj2 (proj2 (proj2 (proj2 (proj2 (proj2 (proj2 same_all)))))))). Qed.
Lemma same_search_request : same m_search_request search_request_from_packet.
Proof.
  unfold m_search_request, search_request_from_packet. apply same_bind; [apply same_header|intro h].
  apply same_bind; [apply same_ensure|intro]. apply same_hpai.
Qed.
Lemma same_search_response debug p : same (m_search_response debug p) (search_response_from_packet p).
Proof.
  unfold m_search_response, search_response_from_packet. apply same_bind; [apply same_header|intro h].
  apply same_bind; [apply same_ensure|intro]. apply same_bind; [apply same_hpai|intro c].
  apply same_bind; [apply same_dib|intro d1]. apply same_bind; [destruct d1; intro r; reflexivity|intro dev].
  apply same_bind; [apply same_dib|intro d2]. apply same_bind; [destruct d2; intro r; reflexivity|intro fam]. apply same_ret.
Qed.
Lemma same_run {A} (m : mparser A) q b : same m q ->
  value_of (m b) = run_on q b.
Proof. intro H. unfold run_on, value_of. rewrite <- (H b). destruct (m b) as [[x r]| |]; reflexivity. Qed.
Lemma same_ldata_con c : value_of (m_ldata_con c (ce_service c)) = ldata_con_from_cemi c.
Proof. unfold ldata_con_from_cemi. apply same_run. unfold m_ldata_con. same_tac. Qed.
Lemma same_ldata_ind c : value_of (m_ldata_ind c (ce_service c)) = ldata_ind_from_cemi c.
Proof.
  unfold ldata_ind_from_cemi. apply same_run. unfold m_ldata_ind. do 5 (apply same_bind; [apply same_read|intro]). cbv zeta. apply same_bind; [apply same_read|intro].
  apply same_bind; [|intro; apply same_ret]. destruct (0 <? _); [apply same_read|apply same_ret].
Qed.

(** ** Fields of fixed sizes *)
Fixpoint total (fs : list part) : nat := match fs with [] => O | (_, k) :: fs' => (k + total fs')%nat end.
Definition runs {A} (f : string -> string) (m : mparser A) (fs : list part) : Prop := forall b,
  match first_missing fs (List.length b) with
  | Some w => m b = MErr (f w)
  | None => exists a, m b = MOk (a, skipn (total fs) b)
  end.
Lemma total_app fs gs : total (fs ++ gs)%list = (total fs + total gs)%nat.
Proof. induction fs as [|[w k] fs IH]; cbn; [reflexivity|]. rewrite IH. lia. Qed.
Lemma first_missing_app fs gs : forall n, first_missing (fs ++ gs)%list n =
  match first_missing fs n with Some w => Some w | None => first_missing gs (n - total fs) end.
Proof.
  induction fs as [|[w k] fs IH]; intro n; cbn [app first_missing total]; [rewrite Nat.sub_0_r; reflexivity|].
  destruct (Nat.ltb n k); [reflexivity|]. rewrite IH. destruct (first_missing fs (n - k)); [reflexivity|].
  rewrite Nat.sub_add_distr. reflexivity.
Qed.
Lemma skipn_skipn' {X} (l : list X) : forall n m, skipn n (skipn m l) = skipn (m + n) l.
Proof. intros n m. revert l. induction m as [|m IH]; intro l; [reflexivity|]. destruct l; [destruct n; reflexivity|]. cbn. apply IH. Qed.
Lemma runs_bind {A B} f (m : mparser A) (k : A -> mparser B) fs gs :
  runs f m fs -> (forall a, runs f (k a) gs) -> runs f (mbind m k) (fs ++ gs)%list.
Proof.
  intros H K b. specialize (H b). rewrite first_missing_app. unfold mbind.
  destruct (first_missing fs (List.length b)); [rewrite H; reflexivity|]. destruct H as (a&->).
  specialize (K a (skipn (total fs) b)). rewrite skipn_length in K.
  destruct (first_missing gs _); [exact K|]. destruct K as (c&K). exists c. rewrite K, skipn_skipn', total_app. reflexivity.
Qed.
Lemma runs_ret {A} f (a : A) : runs f (mret a) [].
Proof. intro b. cbn. exists a. reflexivity. Qed.
Lemma runs_u8 (f : string -> string) w : runs f (mread read_u8 (f w)) [(w, 1%nat)].
Proof. intro b. destruct b; cbn; [reflexivity|]. eexists. reflexivity. Qed.
Lemma runs_u16 (f : string -> string) w : runs f (mread read_u16 (f w)) [(w, 2%nat)].
Proof. intro b. destruct b as [|x [|y b]]; cbn; try reflexivity. eexists. reflexivity. Qed.
Lemma runs_exact (f : string -> string) n w : runs f (mread (read_exact n) (f w)) [(w, n)].
Proof.
  intro b. cbn [first_missing total]. unfold mread, read_exact. rewrite Nat.add_0_r.
  destruct (Nat.ltb_spec (List.length b) n) as [H|H].
  - destruct (Nat.leb_spec n (List.length b)); [lia|reflexivity].
  - destruct (Nat.leb_spec n (List.length b)); [eexists; reflexivity|lia].
Qed.
Lemma runs_one {A B} f (m : mparser A) (k : A -> mparser B) w n gs :
  runs f m [(w, n)] -> (forall a, runs f (k a) gs) -> runs f (mbind m k) ((w, n) :: gs).
Proof. exact (runs_bind f m k [(w, n)] gs). Qed.
Ltac runs_tac f := repeat first
  [ apply runs_ret
  | apply runs_one; [first [apply (runs_u8 f) | apply (runs_u16 f) | apply (runs_exact f)] | intros ?] ].
Lemma runs_then {A B} f (m : mparser A) (g : A -> B) fs : runs f m fs -> runs f (mbind m (fun a => mret (g a))) fs.
Proof. intro H. rewrite <- (app_nil_r fs). apply runs_bind; [exact H|intro; apply runs_ret]. Qed.
Lemma runs_family_list n : runs lacking (m_family_list n) (times n [("service family", 1); ("version", 1)]%string%nat).
Proof.
  unfold times. induction n as [|n IH]; cbn [m_family_list repeat concat app]; [apply runs_ret|].
  apply runs_one; [apply (runs_u8 lacking)|intro]. apply runs_one; [apply (runs_u8 lacking)|intro].
  apply runs_then. exact IH.
Qed.
Lemma runs_quads n : runs lacking (m_quads n) (times n [("additional individual address", 4)]%string%nat).
Proof.
  unfold times. induction n as [|n IH]; cbn [m_quads repeat concat app]; [apply runs_ret|].
  apply runs_one; [apply (runs_exact lacking)|intro].
  apply runs_then. exact IH.
Qed.

Lemma runs_text {A} f (m : mparser A) fs b : runs f m fs ->
  text_of (m b) = option_map f (first_missing fs (List.length b)).
Proof. intro H. specialize (H b). destruct (first_missing fs _); [rewrite H; reflexivity|]. destruct H as (a&->). reflexivity. Qed.

Lemma sub_ok p len k : k <= len -> sub_chk p u8_max1 len k = Ok (len - k).
Proof. intro H. unfold sub_chk. destruct (N.leb_spec k len); [reflexivity|lia]. Qed.
Lemma text_then {A B} (m : mparser A) (g : A -> B) b : text_of (mbind m (fun a => mret (g a)) b) = text_of (m b).
Proof. unfold mbind. destruct (m b) as [[x r]| |]; reflexivity. Qed.
Definition device_rest (len : N) (medium : knx_medium) : mparser device_info :=
  st <- c_u8 "knx device status" ;;
  addr <- c_u16 "knx individual address" ;;
  project <- c_u16 "project installation identifier" ;;
  serial <- c_exact 6 "serial number" ;;
  multicast <- c_exact 4 "routing multicast address" ;;
  mac <- c_exact 6 "mac address" ;;
  name <- c_exact 30 "friendly name" ;;
  mret {| di_len := len; di_medium := medium; di_status := status_truncate st;
          di_addr := individual_from_u16 addr; di_project := project; di_serial := serial;
          di_multicast := multicast; di_mac := mac; di_name := name |}.
Lemma device_text len rest fs : block_fields 1 len = Some fs ->
  (forall m r, rest = m :: r -> known_medium m) ->
  text_of (m_device_info len rest) = option_map lacking (first_missing fs (List.length rest)).
Proof.
  intros F M. cbn [block_fields] in F. apply some_inj in F. subst fs.
  destruct rest as [|m r]; [reflexivity|]. specialize (M m r eq_refl).
  assert (E : exists md, m_device_info len (m :: r) = device_rest len md r).
  { destruct M as [->|[->|[->| ->]]]; eexists; reflexivity. }
  destruct E as (md&->). rewrite runs_text with (f := lacking) (fs :=
      [("knx device status", 1); ("knx individual address", 2); ("project installation identifier", 2); ("serial number", 6);
       ("routing multicast address", 4); ("mac address", 6); ("friendly name", 30)]%string%nat).
  - cbn [first_missing List.length]. destruct (Nat.ltb_spec (S (List.length r)) 1); [lia|].
    replace (S (List.length r) - 1)%nat with (List.length r) by lia. reflexivity.
  - unfold device_rest. runs_tac lacking.
Qed.
Lemma dib_tail p len code rest fs : block_fields code len = Some fs -> long_enough code len ->
  (code = 0x01 -> forall m r, rest = m :: r -> known_medium m) ->
  text_of (m_dib p (len :: code :: rest)) = option_map lacking (first_missing fs (List.length rest)).
Proof.
  intros F L M.
  assert (C : code = 1 \/ code = 2 \/ code = 3 \/ code = 4 \/ code = 5 \/ code = 254).
  { clear -F. unfold block_fields in F. destruct code as [|c]; [discriminate|].
    repeat (destruct c as [c|c|]; try discriminate F; try lia). }
  destruct C as [->|[->|[->|[->|[->| ->]]]]].
  - change (text_of (mbind (m_device_info len) (fun a => mret (DibDevice a)) rest) = option_map lacking (first_missing fs (List.length rest))).
    rewrite text_then. apply device_text; [exact F|exact (M eq_refl)].
  - change (text_of (mbind (m_families p len) (fun a => mret (DibFamilies a)) rest) = option_map lacking (first_missing fs (List.length rest))).
    rewrite text_then. unfold m_families. cbn [long_enough] in L. rewrite (sub_ok p len 2 L).
    apply runs_text. cbn [block_fields] in F. apply some_inj in F. subst fs.
    change (runs lacking (mbind (m_family_list (N.to_nat ((len - 2) / 2))) (fun l => mret {| sf_len := len; sf_list := l |}))
      (times (N.to_nat ((len - 2) / 2)) [("service family", 1); ("version", 1)]%string%nat)).
    apply runs_then, runs_family_list.
  - change (text_of (mbind (m_ip_config len) (fun a => mret (DibIpConfig a)) rest) = option_map lacking (first_missing fs (List.length rest))).
    rewrite text_then. apply runs_text. cbn [block_fields] in F. apply some_inj in F. subst fs. unfold m_ip_config. runs_tac lacking.
  - change (text_of (mbind (m_ip_current len) (fun a => mret (DibIpCurrent a)) rest) = option_map lacking (first_missing fs (List.length rest))).
    rewrite text_then. apply runs_text. cbn [block_fields] in F. apply some_inj in F. subst fs. unfold m_ip_current. runs_tac lacking.
  - change (text_of (mbind (m_addresses p len) (fun a => mret (DibAddresses a)) rest) = option_map lacking (first_missing fs (List.length rest))).
    rewrite text_then. apply runs_text. cbn [block_fields] in F. apply some_inj in F. subst fs. unfold m_addresses.
    apply runs_one; [apply (runs_exact lacking)|intro a]. cbn [long_enough] in L. rewrite (sub_ok p len 4 L).
    change (runs lacking (mbind (m_quads (N.to_nat ((len - 4) / 2))) (fun more => mret {| ka_len := len; ka_addr := a; ka_more := more |}))
      (times (N.to_nat ((len - 4) / 2)) [("additional individual address", 4)]%string%nat)).
    apply runs_then, runs_quads.
  - change (text_of (mbind (m_manufacturer len) (fun a => mret (DibManufacturer a)) rest) = option_map lacking (first_missing fs (List.length rest))).
    rewrite text_then. apply runs_text. cbn [block_fields] in F. apply some_inj in F. subst fs. unfold m_manufacturer. runs_tac lacking.
Qed.
Lemma dib_unknown p len code rest : block_fields code len = None ->
  text_of (m_dib p (len :: code :: rest)) = Some ("Unknown DescriptionTypeCode " ++ show_dec code)%string.
Proof.
  intro F. unfold m_dib. assert (E : type_code_try_from code = Err).
  { destruct code as [|c]; [reflexivity|]. clear -F. unfold block_fields in F. unfold type_code_try_from.
    repeat (destruct c as [c|c|]; try discriminate F; try reflexivity). }
  cbn [mbind c_u8 mread read_u8]. rewrite E. reflexivity.
Qed.
Lemma medium_unknown m : ~ known_medium m -> medium_try_from m = Err.
Proof.
  intro H. unfold known_medium in H. destruct m as [|c]; [reflexivity|]. unfold medium_try_from.
  repeat (destruct c as [c|c|]; try reflexivity; try (exfalso; apply H; tauto)).
Qed.
Lemma dib_medium p len m rest : ~ known_medium m ->
  text_of (m_dib p (len :: 0x01 :: m :: rest)) = Some ("Unknown KnxMedium " ++ show_dec m)%string.
Proof.
  intro H. change (text_of (mbind (m_device_info len) (fun a => mret (DibDevice a)) (m :: rest)) = Some ("Unknown KnxMedium " ++ show_dec m)%string).
  rewrite text_then. unfold m_device_info. cbn [mbind c_u8 mread read_u8]. rewrite (medium_unknown m H). reflexivity.
Qed.
Lemma dib_head p b : (List.length b < 2)%nat -> text_of (m_dib p b) = Some (lacking "structure length").
Proof. destruct b as [|x [|y b]]; intro H; [reflexivity|reflexivity|cbn in H; lia]. Qed.

(** ** L_Data *)
Lemma runs_con c : runs missing (m_ldata_con c) (firstn 4 ldata_fields).
Proof. unfold m_ldata_con. cbn [firstn ldata_fields]. runs_tac missing. Qed.
Lemma ind_text c b : text_of (m_ldata_ind c b) = option_map missing (first_missing ldata_fields (List.length b)).
Proof.
  assert (H : runs missing (x <- m_u8 "control 1 byte" ;; y <- m_u8 "control 2 byte" ;; s <- m_u16 "source address" ;;
    d <- m_u16 "destination address" ;; l <- m_u8 "length" ;; o <- m_u16 "octets 6 and 7" ;; mret (x, s, d, l, o)) ldata_fields).
  { unfold ldata_fields. runs_tac missing. }
  rewrite <- (runs_text _ _ _ b H). unfold m_ldata_ind.
  do 6 (match goal with |- text_of (mbind ?m _ _) = text_of (mbind ?m _ _) =>
    unfold mbind at 1; symmetry; unfold mbind at 1; symmetry; let x := fresh in let r := fresh in
    match goal with |- text_of (match ?m ?z with _ => _ end) = _ => destruct (m z) as [[x r]| |]; [|reflexivity|reflexivity] end end; cbv zeta).
  unfold mret at 2. cbn [text_of]. unfold mbind, mread.
  match goal with |- context [if ?c then _ else _] => destruct c end; [|reflexivity].
  match goal with |- context [read_zeroed ?n ?z] => destruct (read_zeroed n z) as [[? ?]| |] eqn:E end; try reflexivity.
  unfold read_zeroed in E. cbn in E. discriminate E.
Qed.

(** ** Address texts *)
Lemma digits_same max : forall s acc, parse_digits max acc s = match k_digits max acc s with inl n => Some n | inr _ => None end.
Proof.
  induction s as [|c s IH]; intro acc; cbn [parse_digits k_digits]; [reflexivity|].
  destruct ((c_zero <=? c) && (c <=? 57))%bool; [|reflexivity]. cbv zeta. destruct (_ <=? max); [apply IH|reflexivity].
Qed.
Lemma uint_same max s : parse_uint max s = match k_uint max s with inl n => Some n | inr _ => None end.
Proof.
  unfold parse_uint, k_uint. destruct s as [|c [|d s]]; [reflexivity|apply digits_same|].
  destruct (c =? c_plus); apply digits_same.
Qed.

Definition kind (e : int_error) : string := match e with Empty => "Empty" | InvalidDigit => "InvalidDigit" | PosOverflow => "PosOverflow" end.
Lemma debug_kind e : int_error_debug e = ("ParseIntError { kind: " ++ kind e ++ " }")%string.
Proof. destruct e; reflexivity. Qed.
Lemma digit_b c : ((c_zero <=? c) && (c <=? 57))%bool = true <-> is_digit c.
Proof. unfold is_digit, c_zero. rewrite andb_true_iff, !N.leb_le. tauto. Qed.
Lemma k_digits_app max rest : forall ds acc, Forall is_digit ds -> fold_left dstep ds acc <= max ->
  k_digits max acc (ds ++ rest) = k_digits max (fold_left dstep ds acc) rest.
Proof.
  induction ds as [|c ds IH]; intros acc F L; cbn [app fold_left k_digits]; [reflexivity|].
  inversion F; subst. rewrite (proj2 (digit_b c)) by assumption. cbv zeta.
  assert (E : acc * 10 + (c - c_zero) <= max).
  { etransitivity; [|exact L]. cbn [fold_left]. apply fold_digits_ge. }
  rewrite (proj2 (N.leb_le _ _) E). apply IH; assumption.
Qed.
Lemma k_digits_cases max : forall s acc, acc <= max ->
  match k_digits max acc s with
  | inl n => n <= max /\ Forall is_digit s /\ fold_left dstep s acc = n
  | inr Empty => False
  | inr InvalidDigit => exists ds c rest, s = ds ++ c :: rest /\ Forall is_digit ds /\ fold_left dstep ds acc <= max /\ ~ is_digit c
  | inr PosOverflow => exists ds c rest, s = ds ++ c :: rest /\ Forall is_digit ds /\ fold_left dstep ds acc <= max /\ is_digit c /\
      max < fold_left dstep (ds ++ [c]) acc
  end.
Proof.
  induction s as [|c s IH]; intros acc L; cbn [k_digits].
  - repeat split; [exact L|constructor].
  - destruct ((c_zero <=? c) && (c <=? 57))%bool eqn:D.
    + apply digit_b in D. cbv zeta. destruct (N.leb_spec (acc * 10 + (c - c_zero)) max) as [M|M].
      * specialize (IH _ M). destruct (k_digits max (acc * 10 + (c - c_zero)) s) as [n|[]].
        -- destruct IH as (H&I&J). repeat split; [exact H|constructor; assumption|exact J].
        -- exact IH.
        -- destruct IH as (ds&x&r&->&F&B&X). exists (c :: ds), x, r. repeat split; [constructor; assumption|exact B|exact X].
        -- destruct IH as (ds&x&r&->&F&B&X&Y). exists (c :: ds), x, r. repeat split; [constructor; assumption|exact B|exact (proj1 X)|exact (proj2 X)|exact Y].
      * exists [], c, s. repeat split; [constructor|exact L|exact (proj1 D)|exact (proj2 D)|exact M].
    + exists [], c, s. repeat split; [constructor|exact L|]. intro H. apply digit_b in H. congruence.
Qed.
Definition body_of (p : list N) : list N := match p with c :: d :: s => if c =? c_plus then d :: s else p | _ => p end.
Lemma k_uint_body max p : k_uint max p = match p with [] => inr Empty | _ => k_digits max 0 (body_of p) end.
Proof. destruct p as [|c [|d s]]; [reflexivity|reflexivity|]. cbn [k_uint body_of]. destruct (c =? c_plus); reflexivity. Qed.
Lemma after_sign_body p body : after_sign p body <-> p <> [] /\ body = body_of p.
Proof.
  unfold after_sign. destruct p as [|c [|d s]]; cbn [body_of].
  - split; [intros (H&[E|(E&_)]); congruence|intros (H&_); congruence].
  - split.
    + intros (H&[E|(E&_)]); [injection E as -> <-; congruence|subst; split; [discriminate|reflexivity]].
    + intros (_&->). split; [discriminate|]. right. split; [reflexivity|]. intros x E. injection E as _ <-. reflexivity.
  - destruct (N.eqb_spec c c_plus) as [->|N].
    + split.
      * intros (H&[E|(E&F)]); [injection E as <-; split; [discriminate|reflexivity]|]. specialize (F _ eq_refl). discriminate F.
      * intros (_&->). split; [discriminate|left; reflexivity].
    + split.
      * intros (H&[E|(E&F)]); [injection E as E _; exfalso; apply N; exact E|split; [discriminate|symmetry; exact E]].
      * intros (_&->). split; [discriminate|]. right. split; [reflexivity|]. intros x E. injection E as E _. exfalso. apply N. exact E.
Qed.
Lemma reason_iff max p why : reason max p why <-> exists e, k_uint max p = inr e /\ why = kind e.
Proof.
  split.
  - intros [E|ds c rest A F L D|ds c rest A F L D M].
    + subst p. exists Empty. split; reflexivity.
    + exists InvalidDigit. split; [|reflexivity]. apply after_sign_body in A. destruct A as (Z&A). rewrite k_uint_body, <- A.
      destruct p; [congruence|]. rewrite k_digits_app by assumption. cbn [k_digits].
      destruct ((c_zero <=? c) && (c <=? 57))%bool eqn:B; [|reflexivity]. apply digit_b in B. tauto.
    + exists PosOverflow. split; [|reflexivity]. apply after_sign_body in A. destruct A as (Z&A). rewrite k_uint_body, <- A.
      destruct p; [congruence|]. rewrite k_digits_app by assumption. cbn [k_digits]. rewrite (proj2 (digit_b c) D). cbv zeta.
      change (max < fold_left dstep (ds ++ [c])%list 0) in M. rewrite fold_left_app in M. cbn [fold_left] in M.
      match goal with |- (if ?a <=? max then _ else _) = _ => destruct (N.leb_spec a max) as [H|H]; [|reflexivity] end.
      exfalso. revert M H. unfold dstep, c_zero. intros. lia.
  - intros (e&K&->). rewrite k_uint_body in K. destruct p as [|x p]; [injection K as <-; constructor; reflexivity|].
    pose proof (k_digits_cases max (body_of (x :: p)) 0 ltac:(lia)) as H. rewrite K in H. destruct e; cbn [kind].
    + contradiction.
    + destruct H as (ds&c&rest&E&F&B&X). apply (reason_digit max _ ds c rest); [|exact F|exact B|exact X].
      apply after_sign_body. split; [discriminate|symmetry; exact E].
    + destruct H as (ds&c&rest&E&F&B&X&Y). apply (reason_large max _ ds c rest); [|exact F|exact B|exact X|exact Y].
      apply after_sign_body. split; [discriminate|symmetry; exact E].
Qed.
Lemma good_iff max p : good max p <-> exists n, k_uint max p = inl n.
Proof.
  unfold good. split.
  - intros (n&H). apply parse_uint_iff in H. rewrite uint_same in H. destruct (k_uint max p) as [m|e]; [exists m; reflexivity|discriminate].
  - intros (n&H). exists n. apply parse_uint_iff. rewrite uint_same, H. reflexivity.
Qed.
Lemma good_or_reason max p : good max p /\ (forall why, ~ reason max p why) \/ ~ good max p /\ exists why, reason max p why /\ forall w, reason max p w -> w = why.
Proof.
  destruct (k_uint max p) as [n|e] eqn:K; [left|right]; split.
  - apply good_iff. exists n. exact K.
  - intros why H. apply reason_iff in H. destruct H as (e&H&_). congruence.
  - intro H. apply good_iff in H. destruct H as (n&H). congruence.
  - exists (kind e). split; [apply reason_iff; exists e; split; [exact K|reflexivity]|].
    intros w H. apply reason_iff in H. destruct H as (e'&H&->). congruence.
Qed.

(** ** The texts of address errors *)
Lemma same_individual quote s : terase (t_individual quote s) = individual_try_from s.
Proof.
  unfold t_individual, individual_try_from, parse_u8. destruct (split_on c_dot s) as [|a [|l [|d [|x ps]]]]; try reflexivity.
  rewrite !uint_same. unfold t_part.
  destruct (k_uint 255 a); [|reflexivity]. cbn [tbind]. destruct (k_uint 255 l); [|reflexivity]. cbn [tbind].
  destruct (k_uint 255 d); reflexivity.
Qed.
Lemma same_group3 s : terase (t_group3 s) = group3_try_from s.
Proof.
  unfold t_group3, group3_try_from, parse_u8. destruct (split_on c_slash s) as [|a [|l [|d [|x ps]]]]; try reflexivity.
  rewrite !uint_same. destruct (k_uint 255 a), (k_uint 255 l), (k_uint 255 d); reflexivity.
Qed.
Lemma same_addr quote s : terase (t_addr quote s) = addr_try_from s.
Proof.
  unfold t_addr, addr_try_from, parse_u8, parse_u16. destruct (contains c_dot s).
  - rewrite <- (same_individual quote s). destruct (t_individual quote s); reflexivity.
  - destruct (split_on c_slash s) as [|a [|l [|d [|x ps]]]]; try reflexivity; rewrite !uint_same; unfold t_part.
    + destruct (k_uint 65535 a); reflexivity.
    + destruct (k_uint 255 a); [|reflexivity]. cbn [tbind]. destruct (k_uint 255 l); reflexivity.
    + destruct (k_uint 255 a); [|reflexivity]. cbn [tbind]. destruct (k_uint 255 l); [|reflexivity]. cbn [tbind]. destruct (k_uint 255 d); reflexivity.
Qed.
Lemma split_joined c ps : ps <> [] -> Forall (without c) ps -> split_on c (joined c ps) = ps.
Proof. intros H F. apply split_on_iff. repeat split; [exact H|]. exact F. Qed.
(** The chain of [t_part]s over the parts. *)
Fixpoint chain (max : N) (text : string -> list N -> int_error -> list N) (parts : list (list N)) (names : list string) : option (list N) :=
  match parts, names with
  | q :: parts', n :: names' =>
      match k_uint max q with inl _ => chain max text parts' names' | inr e => Some (text n q e) end
  | _, _ => None
  end.
Lemma chain_iff max text : forall parts names t,
  chain max text parts names = Some t <-> exists p name e, first_wrong max parts names p name (kind e) /\ k_uint max p = inr e /\ t = text name p e.
Proof.
  induction parts as [|q parts IH]; intros [|n names] t; cbn [chain first_wrong];
    try (split; [discriminate|intros (?&?&?&[]&_)]; fail).
  destruct (k_uint max q) as [v|e] eqn:K.
  - rewrite IH. split; intros (p&name&e&H&E&->); exists p, name, e; repeat split; try assumption.
    + right. split; [|exact H]. apply good_iff. exists v. exact K.
    + destruct H as [(<-&_&H)|(_&H)]; [congruence|exact H].
  - split.
    + intro H. apply some_inj in H. subst t. exists q, n, e. repeat split; [|exact K]. left. repeat split.
      apply reason_iff. exists e. split; [exact K|reflexivity].
    + intros (p&name&e'&H&E&->). destruct H as [(<-&<-&H)|(G&_)].
      * f_equal. congruence.
      * apply good_iff in G. destruct G as (v&G). congruence.
Qed.
Lemma individual_chain quote a l d : Forall (without c_dot) [a; l; d] ->
  ttext (t_individual quote (joined c_dot [a; l; d])) = chain 255 (t_quoted quote) [a; l; d] ["area"; "line"; "address"]%string.
Proof.
  intro F. unfold t_individual. rewrite (split_joined c_dot [a; l; d]) by (discriminate || exact F).
  cbn [chain]. unfold t_part. destruct (k_uint 255 a); [|reflexivity]. cbn [tbind].
  destruct (k_uint 255 l); [|reflexivity]. cbn [tbind]. destruct (k_uint 255 d); reflexivity.
Qed.
Lemma individual_count quote ps : List.length ps <> 3%nat -> ps <> [] -> Forall (without c_dot) ps ->
  ttext (t_individual quote (joined c_dot ps)) =
  Some (octets "Individial address should be in the format area.line.address instead of " ++ quote (joined c_dot ps)).
Proof.
  intros L Z F. unfold t_individual. rewrite (split_joined c_dot ps) by assumption.
  destruct ps as [|a [|b [|c [|d ps]]]]; try reflexivity. cbn in L. lia.
Qed.
Lemma no_dot_joined ps : Forall (without c_dot) ps -> contains c_dot (joined c_slash ps) = false.
Proof.
  intro F. destruct (contains c_dot (joined c_slash ps)) eqn:E; [|reflexivity]. apply contains_iff in E. exfalso.
  revert E. induction F as [|p ps H F IH]; [intros []|]. cbn [joined]. destruct ps as [|q ps]; [exact H|].
  intro E. apply in_app_or in E. destruct E as [E|[E|E]]; [exact (H E)|discriminate E|exact (IH E)].
Qed.
Lemma addr_dotted quote s : In c_dot s -> ttext (t_addr quote s) = ttext (t_individual quote s).
Proof. intro H. unfold t_addr. rewrite (proj2 (contains_iff c_dot s) H). destruct (t_individual quote s); reflexivity. Qed.
Lemma addr_chain quote ps : List.length ps = 2%nat \/ List.length ps = 3%nat -> Forall (without c_dot) ps -> Forall (without c_slash) ps ->
  ttext (t_addr quote (joined c_slash ps)) = chain 255 (fun name _ => t_plain name) ps (group_names (List.length ps)).
Proof.
  intros L D F. unfold t_addr. rewrite (no_dot_joined ps D).
  assert (Z : ps <> []) by (destruct ps; [cbn in L; lia|discriminate]).
  rewrite (split_joined c_slash ps) by assumption.
  destruct ps as [|a [|b [|c [|d ps]]]]; cbn in L; try lia; cbn [group_names List.length chain]; unfold t_part.
  - destruct (k_uint 255 a); [|reflexivity]. cbn [tbind]. destruct (k_uint 255 b); reflexivity.
  - destruct (k_uint 255 a); [|reflexivity]. cbn [tbind]. destruct (k_uint 255 b); [|reflexivity]. cbn [tbind]. destruct (k_uint 255 c); reflexivity.
Qed.
Lemma addr_one quote m : without c_dot m -> without c_slash m ->
  ttext (t_addr quote m) = chain 65535 (fun name p e => octets ("Unable to parse " ++ name ++ " address ") ++ p ++ octets (" " ++ int_error_debug e)) [m] ["main"%string].
Proof.
  intros D F.
  assert (E : contains c_dot m = false) by exact (no_dot_joined [m] (Forall_cons _ D (Forall_nil _))).
  assert (S : split_on c_slash m = [m]) by (apply (split_joined c_slash [m]); [discriminate|exact (Forall_cons _ F (Forall_nil _))]).
  unfold t_addr. rewrite E, S. cbn [chain]. unfold t_part. destruct (k_uint 65535 m); reflexivity.
Qed.
Lemma addr_count quote ps : (3 < List.length ps)%nat -> Forall (without c_dot) ps -> Forall (without c_slash) ps ->
  ttext (t_addr quote (joined c_slash ps)) =
  Some (octets "Unable to parse group address " ++ quote (joined c_slash ps) ++ octets ", parts should be 1 to 3").
Proof.
  intros L D F. unfold t_addr. rewrite (no_dot_joined ps D).
  assert (Z : ps <> []) by (destruct ps; [cbn in L; lia|discriminate]).
  rewrite (split_joined c_slash ps) by assumption.
  destruct ps as [|a [|b [|c [|d ps]]]]; cbn in L; try lia. reflexivity.
Qed.
Lemma group3_texts s : ttext (t_group3 s) = None \/ ttext (t_group3 s) = Some (octets "Unable to parse parts in u8") \/
  ttext (t_group3 s) = Some (octets "Wrong fields count").
Proof.
  unfold t_group3. destruct (split_on c_slash s) as [|a [|l [|d [|x ps]]]]; try (right; right; reflexivity).
  destruct (k_uint 255 a), (k_uint 255 l), (k_uint 255 d); (left; reflexivity) || (right; left; reflexivity).
Qed.

(** ** Search datagrams *)
Definition search_head (t1 t2 code a b c d p1 p2 : N) : list N := [6; 16; 2; 2; t1; t2; 8; code; a; b; c; d; p1; p2].
Definition after_head (debug : dib -> string) (p : profile) (c : hpai) : mparser search_response :=
  d1 <- m_dib p ;;
  dev <- (match d1 with
          | DibDevice d => mret d
          | other => fun _ => MErr ("Expected device information dib instead of " ++ debug other)%string
          end) ;;
  d2 <- m_dib p ;;
  fam <- (match d2 with
          | DibFamilies f => mret f
          | other => fun _ => MErr ("Expected supported service families dib instead of " ++ debug other)%string
          end) ;;
  mret {| sr_control := c; sr_device := dev; sr_families := fam |}.
Lemma search_after debug p t1 t2 code a b c d p1 p2 rest : exists h,
  m_search_response debug p (search_head t1 t2 code a b c d p1 p2 ++ rest) = after_head debug p h rest.
Proof. eexists. reflexivity. Qed.
Lemma search_first debug p t1 t2 code a b c d p1 p2 rest t : text_of (m_dib p rest) = Some t ->
  text_of (m_search_response debug p (search_head t1 t2 code a b c d p1 p2 ++ rest)) = Some t.
Proof.
  intro H. destruct (search_after debug p t1 t2 code a b c d p1 p2 rest) as (h&->). unfold after_head, mbind.
  destruct (m_dib p rest) as [[x r]| |]; try discriminate H. exact H.
Qed.
Lemma search_second debug p t1 t2 code a b c d p1 p2 dev rest more t : m_dib p rest = MOk (DibDevice dev, more) ->
  text_of (m_dib p more) = Some t ->
  text_of (m_search_response debug p (search_head t1 t2 code a b c d p1 p2 ++ rest)) = Some t.
Proof.
  intros E H. destruct (search_after debug p t1 t2 code a b c d p1 p2 rest) as (h&->). unfold after_head, mbind. rewrite E.
  cbn [mret]. destruct (m_dib p more) as [[x r]| |]; try discriminate H. exact H.
Qed.
Lemma search_service debug p s1 s2 t1 t2 rest : s1 < 256 -> s2 < 256 -> (s1, s2) <> (2, 2) -> exists t,
  text_of (m_search_response debug p ([6; 16; s1; s2; t1; t2] ++ rest)) = Some t /\ states t (s1 * 256 + s2).
Proof.
  intros A B N. exists ("Search response should be 0x0202 instead of " ++ show_2X (s1 * 256 + s2))%string. split.
  - assert (E : m_header ([6; 16; s1; s2; t1; t2] ++ rest) = MOk ({| h_service := s1 * 256 + s2; h_total := t1 * 256 + t2 |}, rest)) by reflexivity.
    unfold m_search_response. unfold mbind at 1. rewrite E. unfold mbind at 1, mensure. cbn [h_service].
    destruct (N.eqb_spec (s1 * 256 + s2) 0x0202) as [H|H]; [|reflexivity]. exfalso. apply N. f_equal; lia.
  - apply states_2X; [reflexivity|lia].
Qed.
Lemma block_numbers p len code rest : code < 65536 ->
  (block_fields code len = None -> exists t, text_of (m_dib p (len :: code :: rest)) = Some t /\ states t code) /\
  (forall m, m < 65536 -> ~ known_medium m -> exists t, text_of (m_dib p (len :: 0x01 :: m :: rest)) = Some t /\ states t m).
Proof.
  intro C. split.
  - intro F. eexists. split; [exact (dib_unknown p len code rest F)|]. apply states_dec; [reflexivity|exact C].
  - intros m M K. eexists. split; [exact (dib_medium p len m rest K)|]. apply states_dec; [reflexivity|exact M].
Qed.
Lemma lacking_inj v w : lacking v = lacking w -> v = w.
Proof. unfold lacking. cbn [String.append]. congruence. Qed.

Lemma individual_text quote a l d t : Forall (without 46) [a; l; d] ->
  ttext (t_individual quote (joined 46 [a; l; d])) = Some t <->
  exists part name why, first_wrong 255 [a; l; d] ["area"; "line"; "address"]%string part name why /\
    t = octets ("Unable to parse " ++ name ++ " value Some(") ++ quote part ++ octets ("), error ParseIntError { kind: " ++ why ++ " }").
Proof.
  intro F. change 46 with c_dot. rewrite (individual_chain quote a l d F), chain_iff. split.
  - intros (q&name&e&H&K&->). exists q, name, (kind e). split; [exact H|]. unfold t_quoted. rewrite debug_kind. reflexivity.
  - intros (q&name&why&H&->). 
    assert (R : reason 255 q why) by (cbn [first_wrong] in H; destruct H as [(<-&_&H)|(_&[(<-&_&H)|(_&[(<-&_&H)|(_&[])])])]; exact H).
    apply reason_iff in R. destruct R as (e&K&->). exists q, name, e. repeat split; [exact H|exact K].
Qed.
Lemma first_wrong_reason max : forall parts names p name why, first_wrong max parts names p name why -> reason max p why.
Proof.
  induction parts as [|q parts IH]; intros [|n names] p name why H; try contradiction H.
  destruct H as [(_&_&H)|(_&H)]; [exact H|exact (IH _ _ _ _ H)].
Qed.
Lemma group_text quote ps t : List.length ps = 2%nat \/ List.length ps = 3%nat -> Forall (without 46) ps -> Forall (without 47) ps ->
  ttext (t_addr quote (joined 47 ps)) = Some t <->
  exists part name why, first_wrong 255 ps (group_names (List.length ps)) part name why /\
    t = octets ("Unable to parse " ++ name ++ " address ParseIntError { kind: " ++ why ++ " }").
Proof.
  intros L D F. change 47 with c_slash. rewrite (addr_chain quote ps L D F), chain_iff. split.
  - intros (q&name&e&H&K&->). exists q, name, (kind e). split; [exact H|]. unfold t_plain. rewrite debug_kind. reflexivity.
  - intros (q&name&why&H&->). pose proof (first_wrong_reason _ _ _ _ _ _ H) as R. apply reason_iff in R. destruct R as (e&K&->).
    exists q, name, e. repeat split; [exact H|exact K].
Qed.
Lemma one_text quote m t : without 46 m -> without 47 m ->
  ttext (t_addr quote m) = Some t <->
  exists why, reason 65535 m why /\
    t = octets "Unable to parse main address " ++ m ++ octets (" ParseIntError { kind: " ++ why ++ " }").
Proof.
  intros D F. rewrite (addr_one quote m D F), chain_iff. cbn [first_wrong]. split.
  - intros (q&name&e&[(<-&<-&H)|(_&[])]&K&->). exists (kind e). split; [exact H|]. rewrite debug_kind. reflexivity.
  - intros (why&R&->). pose proof R as R'. apply reason_iff in R'. destruct R' as (e&K&->). exists m, "main"%string, e.
    repeat split; [left; repeat split; exact R|exact K].
Qed.

(** ** cEMI *)
Lemma same_cemi_loop p size : forall f pos acc, same (m_cemi_loop p f size pos acc) (cemi_loop p f size pos acc).
Proof.
  induction f as [|f IH]; intros pos acc; cbn [m_cemi_loop cemi_loop]; (destruct (pos <? size); [|apply same_ret]).
  - intro r. reflexivity.
  - do 6 (apply same_bind; [first [apply same_read | apply same_lift]|intro]). apply IH.
Qed.
Lemma same_cemi p : same (m_cemi p) (cemi_from_packet p).
Proof.
  unfold m_cemi, cemi_from_packet. do 2 (apply same_bind; [apply same_read|intro]).
  apply same_bind; [|intro; apply same_bind; [apply same_read|intro; apply same_ret]].
  intro r. apply same_cemi_loop.
Qed.
Lemma m_loop_step p f size pos acc t (v rest : list N) : known_info t -> pos < size -> pos + N.of_nat (List.length v) + 2 < 256 ->
  exists acc', m_cemi_loop p (S f) size pos acc (info_bytes (t, v) ++ rest) =
    m_cemi_loop p f size (pos + N.of_nat (List.length (info_bytes (t, v)))) acc' rest.
Proof.
  intros K Lt B. apply known_info_iff in K. destruct K as (ty&->).
  eexists. cbn [m_cemi_loop]. destruct (N.ltb_spec pos size); [|lia].
  unfold info_bytes. cbn [fst snd app]. unfold mbind at 1, m_u8 at 1, mread at 1. cbn [read_u8].
  unfold mbind at 1, mlift at 1. rewrite (proj2 (info_try_from_iff _ ty) eq_refl).
  unfold mbind at 1, m_u8 at 1, mread at 1. cbn [read_u8].
  unfold mbind at 1, mread at 1, read_zeroed. rewrite Nat2N.id.
  unfold mbind at 1, mlift at 1, add_chk at 1, u8_max1. destruct (N.ltb_spec (N.of_nat (List.length v) + 2) 256); [|lia].
  unfold mbind at 1, mlift at 1, add_chk at 1. destruct (N.ltb_spec (pos + (N.of_nat (List.length v) + 2)) 256); [|lia].
  rewrite skipn_app, Nat.sub_diag, skipn_all. cbn [skipn app List.length].
  replace (pos + N.of_nat (S (S (List.length v)))) with (pos + (N.of_nat (List.length v) + 2)) by lia. reflexivity.
Qed.
Lemma infos_cons i is : infos_bytes (i :: is) = (info_bytes i ++ infos_bytes is)%list. Proof. reflexivity. Qed.
Lemma m_loop_run p size rest : size < 256 -> forall is f pos acc, Forall (fun i => known_info (fst i)) is ->
  pos + N.of_nat (List.length (infos_bytes is)) < size ->
  exists acc', m_cemi_loop p (List.length is + f) size pos acc (infos_bytes is ++ rest) =
    m_cemi_loop p f size (pos + N.of_nat (List.length (infos_bytes is))) acc' rest.
Proof.
  intro Z. induction is as [|[t v] is IH]; intros f pos acc K B.
  - exists acc. cbn. rewrite N.add_0_r. reflexivity.
  - inversion K as [|? ? Kt Ks]; subst. rewrite infos_cons in *. rewrite app_length in B.
    assert (L : List.length (info_bytes (t, v)) = (2 + List.length v)%nat) by reflexivity.
    rewrite <- app_assoc. cbn [List.length Nat.add].
    destruct (m_loop_step p (List.length is + f) size pos acc t v (infos_bytes is ++ rest) Kt) as (acc1&->); [lia|lia|].
    destruct (IH f (pos + N.of_nat (List.length (info_bytes (t, v)))) acc1 Ks) as (acc2&->); [lia|].
    exists acc2. rewrite app_length. f_equal. lia.
Qed.
Lemma infos_count (is : list (N * list N)) : (2 * List.length is <= List.length (infos_bytes is))%nat.
Proof.
  induction is as [|[t v] is IH]; [reflexivity|]. rewrite infos_cons, app_length.
  assert (L : List.length (info_bytes (t, v)) = (2 + List.length v)%nat) by reflexivity. cbn [List.length]. lia.
Qed.
Lemma text_bind {A B} (m : mparser A) (k : A -> mparser B) b t : text_of (m b) = Some t -> text_of (mbind m k b) = Some t.
Proof. unfold mbind. destruct (m b) as [[x r]| |]; intro H; try discriminate H. exact H. Qed.
Lemma cemi_text p code size is rest t : size < 256 -> Forall (fun i => known_info (fst i)) is ->
  N.of_nat (List.length (infos_bytes is)) < size ->
  (forall f pos acc, pos < size -> text_of (m_cemi_loop p (S f) size pos acc rest) = Some t) ->
  text_of (m_cemi p (code :: size :: infos_bytes is ++ rest)) = Some t.
Proof.
  intros Z K B H. unfold m_cemi. unfold mbind at 1, m_u8 at 1, mread at 1. cbn [read_u8].
  unfold mbind at 1, m_u8 at 1, mread at 1. cbn [read_u8]. apply text_bind.
  pose proof (infos_count is) as C. rewrite app_length.
  replace (S (List.length (infos_bytes is) + List.length rest)) with
    (List.length is + S (List.length (infos_bytes is) - List.length is + List.length rest))%nat by lia.
  destruct (m_loop_run p size rest Z is (S (List.length (infos_bytes is) - List.length is + List.length rest)) 0 [] K) as (acc&->); [lia|].
  apply H. lia.
Qed.
Lemma cemi_texts p code size is rest : size < 256 -> Forall (fun i => known_info (fst i)) is ->
  N.of_nat (List.length (infos_bytes is)) < size ->
  (rest = [] -> text_of (m_cemi p (code :: size :: infos_bytes is ++ rest)) = Some (missing "addition info type")) /\
  (forall t, rest = [t] -> known_info t -> text_of (m_cemi p (code :: size :: infos_bytes is ++ rest)) = Some (missing "addition info size")) /\
  (forall t more, rest = t :: more -> ~ known_info t -> text_of (m_cemi p (code :: size :: infos_bytes is ++ rest)) = Some "Unknown additional info type ()"%string).
Proof.
  intros Z K B. split; [|split].
  - intros ->. apply (cemi_text p code size is [] _ Z K B). intros f pos acc L. cbn [m_cemi_loop].
    destruct (N.ltb_spec pos size); [reflexivity|lia].
  - intros t -> Kt. apply (cemi_text p code size is [t] _ Z K B). intros f pos acc L. cbn [m_cemi_loop].
    destruct (N.ltb_spec pos size); [|lia]. apply known_info_iff in Kt. destruct Kt as (ty&->).
    unfold mbind at 1, m_u8 at 1, mread at 1. cbn [read_u8]. unfold mbind at 1, mlift at 1.
    rewrite (proj2 (info_try_from_iff _ ty) eq_refl). reflexivity.
  - intros t more -> Kt. apply (cemi_text p code size is (t :: more) _ Z K B). intros f pos acc L. cbn [m_cemi_loop].
    destruct (N.ltb_spec pos size); [|lia].
    unfold mbind at 1, m_u8 at 1, mread at 1. cbn [read_u8]. unfold mbind at 1, mlift at 1.
    destruct (known_info_dec t) as [(ty&E)|E].
    + exfalso. apply Kt. apply known_info_iff. apply info_try_from_iff in E. exists ty. exact E.
    + rewrite E. reflexivity.
Qed.
Lemma cemi_only p b t : text_of (m_cemi p b) = Some t ->
  In t [missing "message code"; missing "addition infos size"; missing "addition info type"; missing "addition info size"; "Unknown additional info type ()"]%string.
Proof.
  assert (L : forall size f pos acc r t, text_of (m_cemi_loop p f size pos acc r) = Some t ->
    In t [missing "addition info type"; missing "addition info size"; "Unknown additional info type ()"]%string).
  { intros size. induction f as [|f IH]; intros pos acc r u H; cbn [m_cemi_loop] in H; (destruct (pos <? size); [|discriminate H]); [discriminate H|].
    destruct r as [|tc r]; [apply some_inj in H; subst u; left; reflexivity|].
    unfold mbind at 1, m_u8 at 1, mread at 1 in H. cbn [read_u8] in H. unfold mbind at 1, mlift at 1 in H.
    destruct (info_try_from tc) as [ty| |]; [|apply some_inj in H; subst u; right; right; left; reflexivity|discriminate H].
    destruct r as [|k r]; [apply some_inj in H; subst u; right; left; reflexivity|].
    unfold mbind at 1, m_u8 at 1, mread at 1 in H. cbn [read_u8] in H.
    unfold mbind at 1, mread at 1, read_zeroed in H. unfold mbind at 1, mlift at 1 in H.
    destruct (add_chk p u8_max1 k 2) as [st| |] eqn:E1; [|unfold add_chk in E1; destruct (_ <? _), p in E1; discriminate E1|discriminate H].
    unfold mbind at 1, mlift at 1 in H.
    destruct (add_chk p u8_max1 pos st) as [po| |] eqn:E2; [|unfold add_chk in E2; destruct (_ <? _), p in E2; discriminate E2|discriminate H].
    exact (IH _ _ _ _ H). }
  intro H. destruct b as [|code [|size r]]; [apply some_inj in H; subst t; left; reflexivity|apply some_inj in H; subst t; right; left; reflexivity|].
  unfold m_cemi in H. unfold mbind at 1, m_u8 at 1, mread at 1 in H. cbn [read_u8] in H.
  unfold mbind at 1, m_u8 at 1, mread at 1 in H. cbn [read_u8] in H. unfold mbind at 1 in H.
  destruct (m_cemi_loop p (S (List.length r)) size 0 [] r) as [[x y]|u|] eqn:E; try discriminate H.
  apply some_inj in H. subst u. right. right. apply (L size (S (List.length r)) 0 [] r). rewrite E. reflexivity.
Qed.
Lemma cemi_unknown p code size t more : 0 < size < 256 -> ~ known_info t ->
  text_of (m_cemi p (code :: size :: t :: more)) = Some "Unknown additional info type ()"%string.
Proof.
  intros (A&B) K. exact (proj2 (proj2 (cemi_texts p code size [] (t :: more) B (Forall_nil _) A)) t more eq_refl K).
Qed.
