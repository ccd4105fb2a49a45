(** Proofs about the demo programs. *)
From Verif Require Import Base Addresses Core Search Transport Demo Wire Spec TraceSpec SearchSpec DemoSpec BaseProofs AddrProofs
  SearchProofs SearchMore.
From Coq Require Import Lia ZifyBool ZifyNat ZifyN.
Open Scope list_scope.
Open Scope N_scope.

(** ** Texts *)
Lemma dec_fuel_zero f n : n < 10 ^ N.of_nat f -> (0 < f)%nat -> hd_error (dec_fuel f n) = Some 48 -> dec_fuel f n = [48].
Proof.
  revert n. induction f as [|f IH]; intros n Hn Hf; [lia|]. cbn [dec_fuel]. destruct (N.ltb_spec n 10).
  - unfold c_zero. cbn. intro E. injection E as E. f_equal. lia.
  - rewrite Nat2N.inj_succ, N.pow_succ_r' in Hn.
    assert (F : (0 < f)%nat). { destruct f; [|lia]. cbn in Hn. lia. }
    assert (D : n / 10 < 10 ^ N.of_nat f) by (apply N.div_lt_upper_bound; lia).
    destruct (dec_fuel_spec f (n / 10) D F) as (A&_&V). specialize (IH _ D F).
    destruct (dec_fuel f (n / 10)) as [|c l] eqn:E; [congruence|]. intro E1. rewrite IH in V by exact E1.
    unfold digits_value in V. cbn in V. assert (n / 10 = 0) by lia. apply N.div_small_iff in H0; lia.
Qed.
Lemma show_uint_decimal n : n < 65536 -> decimal (show_uint n) n.
Proof.
  intro H. assert (B : n < 10 ^ N.of_nat 5) by (change (10 ^ N.of_nat 5) with 100000; lia).
  destruct (dec_fuel_spec 5 n B) as (H1&H2&H3); [lia|]. split; [exact H1|]. split; [exact H2|]. split; [exact H3|].
  apply dec_fuel_zero; [exact B|lia].
Qed.
Lemma intersperse_separated sep xs : separated sep xs (intersperse sep xs).
Proof. induction xs as [|x [|y xs] IH]; [constructor|constructor|]. cbn [intersperse]. constructor. exact IH. Qed.
Lemma shows_all ns : Forall (fun n => n < 65536) ns -> Forall2 decimal (map show_uint ns) ns.
Proof. induction 1; constructor; [apply show_uint_decimal; assumption|assumption]. Qed.
Lemma small_bytes ns : bytes ns -> Forall (fun n => n < 65536) ns.
Proof. intro H. eapply Forall_impl; [|exact H]. intros n Hn. unfold byte in Hn. lia. Qed.
Lemma show_ip_dotted ip : bytes ip -> dotted (show_ip ip) ip.
Proof. intro H. exists (map show_uint ip). split; [apply shows_all, small_bytes, H|apply intersperse_separated]. Qed.
Lemma show_array_bracketed a : bytes a -> bracketed (show_array a) a.
Proof.
  intro H. exists (map show_uint a), (intersperse [44; 32] (map show_uint a)).
  split; [apply shows_all, small_bytes, H|]. split; [apply intersperse_separated|reflexivity].
Qed.

(** ** The lines *)
Lemma reply_parts_bytes r : wf_reply r -> bytes (reply_bytes r) ->
  bytes (rp_serial r) /\ bytes (rp_multicast r) /\ bytes (rp_mac r) /\ bytes (family_body (rp_families r)).
Proof.
  intros _ H. unfold reply_bytes, frame, block, device_body in H.
  repeat (rewrite ?bytes_app in H). tauto.
Qed.
Lemma family_body_bytes fs : bytes (family_body fs) -> Forall (fun f => byte (fst f) /\ byte (snd f)) fs.
Proof.
  unfold family_body. induction fs as [|[a b] fs IH]; cbn [concat map app fst snd]; intro H; constructor.
  - apply bytes_cons in H. destruct H as (A&H). apply bytes_cons in H. split; [exact A|apply H].
  - apply bytes_cons in H. destruct H as (_&H). apply bytes_cons in H. apply IH, H.
Qed.
Lemma device_printed r : wf_reply r -> bytes (reply_bytes r) ->
  exists lines, discover_device (reply_value r) = (lines, Ok tt) /\ device_lines lines r.
Proof.
  intros Hw Hb. destruct (reply_parts_bytes _ Hw Hb) as (B1&B2&B3&B4). destruct Hw as ((_&W1&_&W2)&Ha&Hp&_).
  eexists. split; [reflexivity|].
  exists (show_ip (hp_ip (rp_control r))), (show_uint (hp_port (rp_control r))),
    (show_ip [rp_addr r / 4096; rp_addr r / 256 mod 16; rp_addr r mod 256]), (show_uint (rp_project r)), (show_array (rp_serial r)),
    (show_ip (rp_multicast r)), (show_array (rp_mac r)),
    (map (fun x => lb_family ++ show_uint (fst x) ++ lb_version ++ show_uint (snd x)) (rp_families r)).
  split; [apply show_ip_dotted, W1|]. split; [apply show_uint_decimal, W2|].
  split; [apply show_ip_dotted; repeat constructor; unfold byte; lia|].
  split; [apply show_uint_decimal, Hp|].
  split; [apply show_array_bracketed, B1|]. split; [apply show_ip_dotted, B2|]. split; [apply show_array_bracketed, B3|].
  split.
  { apply family_body_bytes in B4. induction B4 as [|[a b] fs (A&B) _ IH]; constructor; [|exact IH].
    exists (show_uint a), (show_uint b). unfold byte in A, B. cbn [fst snd] in *. repeat split; apply show_uint_decimal; lia. }
  assert (S : (rp_status r mod 2 =? 1) = N.odd (rp_status r)).
  { rewrite <- N.bit0_mod, N.bit0_odd. destruct (N.odd (rp_status r)); reflexivity. }
  cbn [reply_value sr_control sr_device sr_families di_status]. rewrite S.
  destruct (N.odd (rp_status r)), (rp_medium r); reflexivity.
Qed.

Lemma discover_lists p e ip port ds rs rest :
  wf_local (se_local e) -> sends_from e ip port -> se_events e = received ds ++ SElapsed :: rest ->
  Forall2 complete ds rs -> Forall (fun r => bytes (reply_bytes r)) rs ->
  exists blocks, Forall2 device_lines blocks rs /\
    discover p e = (Some (Ok tt), [(fst discovery, snd discovery, request_from ip port)], concat blocks).
Proof.
  intros Hl Hs He Hc Hb. unfold discover. rewrite (search_call_sends p e ip port Hl Hs), He, (search_complete p ds rs rest Hc).
  assert (Hw : Forall wf_reply rs). { clear -Hc. induction Hc as [|d r ds rs H _ IH]; constructor; [apply H|exact IH]. }
  clear -Hw Hb.
  assert (G : exists blocks, Forall2 device_lines blocks rs /\ discover_all (map reply_value rs) = (concat blocks, Ok tt)).
  { revert Hb. induction Hw as [|r rs H _ IH]; intro Hb; [exists []; split; [constructor|reflexivity]|].
    inversion Hb; subst. destruct IH as (bl&F&E); [assumption|].
    destruct (device_printed r) as (l&El&Hd); [assumption|assumption|].
    exists (l :: bl). split; [constructor; assumption|]. cbn [map discover_all]. rewrite El, E. reflexivity. }
  destruct G as (bl&F&E). exists bl. split; [exact F|]. rewrite E. reflexivity.
Qed.
Lemma discover_fails p e : match fst (search_call p e) with
  | Some (Ok _) => True
  | Some Err => discover p e = (Some Err, snd (search_call p e), [])
  | Some Panic => discover p e = (Some Panic, snd (search_call p e), [])
  | None => discover p e = (None, snd (search_call p e), [])
  end.
Proof. unfold discover. destruct (search_call p e) as [[[]|] out]; cbn; auto. Qed.

(** ** Different devices are listed differently *)
Lemma cut_at {A} (c : A) x y u v : ~ In c x -> ~ In c y -> x ++ c :: u = y ++ c :: v -> x = y /\ u = v.
Proof.
  revert y. induction x as [|a x IH]; intros [|b y] Hx Hy E; cbn in E.
  - injection E as E. auto.
  - injection E as E1 _. subst. exfalso. apply Hy. left. reflexivity.
  - injection E as E1 _. subst. exfalso. apply Hx. left. reflexivity.
  - injection E as E1 E. subst. destruct (IH y) as (F&G); [intro; apply Hx; right; assumption|intro; apply Hy; right; assumption|exact E|].
    subst. auto.
Qed.
Lemma decimal_value s n m : decimal s n -> decimal s m -> n = m.
Proof. intros (_&_&A&_) (_&_&B&_). congruence. Qed.
Lemma decimal_digits s n c : decimal s n -> ~ is_digit c -> ~ In c s.
Proof. intros (_&H&_) Hc Hi. rewrite Forall_forall in H. exact (Hc (H _ Hi)). Qed.
Lemma separated_values c sep xs ys s ns ms :
  ~ is_digit c -> separated (c :: sep) xs s -> separated (c :: sep) ys s -> Forall2 decimal xs ns -> Forall2 decimal ys ms -> ns = ms.
Proof.
  intros Hc H. revert ys ns ms. induction H as [|x|x y xs s H IH]; intros ys ns ms Hy Fx Fy.
  - inversion Fx; subst. inversion Hy; subst; inversion Fy; subst; try reflexivity.
    + exfalso. destruct H1 as (A&_). apply A. reflexivity.
    + exfalso. destruct x; discriminate.
  - inversion Fx as [|? n ? ? Dx Fx']; subst. inversion Fx'; subst. inversion Hy; subst.
    + inversion Fy; subst. exfalso. apply Dx. reflexivity.
    + inversion Fy as [|? m ? ? Dy Fy']; subst. inversion Fy'; subst. rewrite (decimal_value _ _ _ Dx Dy). reflexivity.
    + exfalso. apply (decimal_digits _ _ c Dx Hc). apply in_or_app. right. left. reflexivity.
  - inversion Fx as [|? n ? ns' Dx Fx']; subst. inversion Hy; subst.
    + destruct x; discriminate.
    + inversion Fy as [|? m ? ? Dy Fy']; subst. exfalso. apply (decimal_digits _ _ c Dy Hc). apply in_or_app. right. left. reflexivity.
    + inversion Fy as [|? m ? ms' Dy Fy']; subst. cbn [app] in *.
      match goal with E : _ ++ c :: _ = _ ++ c :: _ |- _ => apply cut_at in E; [|eapply decimal_digits; eassumption|eapply decimal_digits; eassumption]; destruct E as (E1&E2) end.
      subst. apply app_inv_head in E2. subst. rewrite (decimal_value _ _ _ Dx Dy). f_equal. eapply IH; eassumption.
Qed.
Lemma dotted_value s ns ms : dotted s ns -> dotted s ms -> ns = ms.
Proof. intros (xs&Fx&Hx) (ys&Fy&Hy). assert (D : ~ is_digit 46) by (unfold is_digit; lia). exact (separated_values 46 [] _ _ _ _ _ D Hx Hy Fx Fy). Qed.
Lemma bracketed_value s ns ms : bracketed s ns -> bracketed s ms -> ns = ms.
Proof.
  intros (xs&t&Fx&Hx&->) (ys&u&Fy&Hy&E). injection E as E. apply app_inj_tail in E. destruct E as (<-&_).
  assert (D : ~ is_digit 44) by (unfold is_digit; lia). exact (separated_values 44 [32] _ _ _ _ _ D Hx Hy Fx Fy).
Qed.
Lemma separated_in c sep xs s : separated sep xs s -> ~ In c sep -> Forall (fun x => ~ In c x) xs -> ~ In c s.
Proof.
  induction 1 as [|x|x y xs s H IH]; intros Hc F; inversion F; subst; [intros []|assumption|].
  rewrite !in_app_iff. intros [Hi|[Hi|Hi]]; [contradiction|contradiction|]. apply IH; assumption.
Qed.
Lemma dotted_in c s ns : dotted s ns -> ~ is_digit c -> c <> 46 -> ~ In c s.
Proof.
  intros (xs&F&H) Hd Hc. apply (separated_in c _ _ _ H).
  - intros [E|[]]. congruence.
  - clear -F Hd. induction F; constructor; [eapply decimal_digits; eassumption|assumption].
Qed.
Lemma family_line_value l f g : family_line l f -> family_line l g -> f = g.
Proof.
  intros (a&b&Da&Db&->) (a'&b'&Da'&Db'&E). apply app_inv_head in E. unfold lb_version in E. cbn [app] in E.
  apply cut_at in E; [|eapply decimal_digits; [eassumption|unfold is_digit; lia]|eapply decimal_digits; [eassumption|unfold is_digit; lia]].
  destruct E as (<-&E). repeat (injection E as E). subst. destruct f, g. cbn [fst snd] in *.
  f_equal; eapply decimal_value; eassumption.
Qed.
Lemma family_lines_values ls fs gs : Forall2 family_line ls fs -> Forall2 family_line ls gs -> fs = gs.
Proof.
  intro H. revert gs. induction H as [|l f ls fs H _ IH]; intros gs G; inversion G; subst; [reflexivity|].
  f_equal; [eapply family_line_value; eassumption|apply IH; assumption].
Qed.
Lemma family_lines_nonempty ls fs : Forall2 family_line ls fs -> ~ In [] ls.
Proof.
  induction 1 as [|l f ls fs H _ IH]; [intros []|]. intros [E|Hi]; [|contradiction].
  destruct H as (a&b&_&_&->). discriminate E.
Qed.
Lemma addr_parts a b : [a / 4096; a / 256 mod 16; a mod 256] = [b / 4096; b / 256 mod 16; b mod 256] -> a = b.
Proof. intro E. injection E as E1 E2 E3. lia. Qed.
Lemma blocks_same b1 b2 r1 r2 rest1 rest2 :
  device_lines b1 r1 -> device_lines b2 r2 -> b1 ++ rest1 = b2 ++ rest2 -> same_shown r1 r2 /\ rest1 = rest2.
Proof.
  intros (ip&port&addr&project&serial&multicast&mac&fams&H1&H2&H3&H4&H5&H6&H7&H8&->)
         (ip'&port'&addr'&project'&serial'&multicast'&mac'&fams'&G1&G2&G3&G4&G5&G6&G7&G8&->) E.
  rewrite <- !app_assoc in E. cbn [app] in E. injection E as E1 En Em Ea Es Ep Ese Emu Ema E.
  apply cut_at in E; [|eapply family_lines_nonempty; eassumption|eapply family_lines_nonempty; eassumption]. destruct E as (<-&<-).
  apply cut_at in E1; [|eapply dotted_in; [eassumption|unfold is_digit; lia|lia]|eapply dotted_in; [eassumption|unfold is_digit; lia|lia]].
  destruct E1 as (<-&<-).
  split; [|reflexivity]. subst. unfold same_shown.
  rewrite (dotted_value _ _ _ H1 G1), (decimal_value _ _ _ H2 G2), (addr_parts _ _ (dotted_value _ _ _ H3 G3)), (decimal_value _ _ _ H4 G4),
    (bracketed_value _ _ _ H5 G5), (dotted_value _ _ _ H6 G6), (bracketed_value _ _ _ H7 G7), (family_lines_values _ _ _ H8 G8), En.
  repeat split.
  - destruct (rp_medium r1), (rp_medium r2); (reflexivity || discriminate Em).
  - destruct (N.odd (rp_status r1)), (N.odd (rp_status r2)); (reflexivity || discriminate Es).
Qed.
Lemma listing_distinguishes bs cs rs qs :
  Forall2 device_lines bs rs -> Forall2 device_lines cs qs -> concat bs = concat cs -> Forall2 same_shown rs qs.
Proof.
  intro H. revert cs qs. induction H as [|b r bs rs Hb _ IH]; intros cs qs G E; inversion G as [|c q cs' qs' Hc G']; subst.
  - constructor.
  - destruct Hc as (?&?&?&?&?&?&?&?&?&?&?&?&?&?&?&?&->). discriminate E.
  - destruct Hb as (?&?&?&?&?&?&?&?&?&?&?&?&?&?&?&?&->). discriminate E.
  - cbn [concat] in E. destruct (blocks_same _ _ _ _ _ _ Hb Hc E) as (S&E'). constructor; [exact S|]. eapply IH; eassumption.
Qed.
