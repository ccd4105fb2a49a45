(** When a search crashes. *)
From Verif Require Import Base Addresses Core Emi Search Wire Spec DibSpec SearchSpec BaseProofs CoreProofs DibProofs CodecMore DibExact SearchProofs.
From Coq Require Import Lia ZifyBool ZifyNat ZifyN.
Open Scope N_scope.

Definition no_msg : cemi := {| ce_code := 0; ce_infos := []; ce_service := [] |}.
Lemma pbind_panic {A B} (p : parser A) (f : A -> parser B) bs :
  pbind p f bs = Panic -> p bs = Panic \/ exists a rest, p bs = Ok (a, rest) /\ f a rest = Panic.
Proof. unfold pbind. destruct (p bs) as [[a rest]| |]; intro H; [right; eauto|discriminate|auto]. Qed.
Lemma search_panic_iff p bs : bytes bs -> (search_response_from_packet p bs = Panic <-> p = Debug /\ crash_octets bs).
Proof.
  intro Hb. split.
  - unfold search_response_from_packet. intro H.
    apply pbind_panic in H. destruct H as [H|(h&b1&H1&H)]; [destruct (proj1 (proj2 (proj2 (proj2 (proj2 (proj2 (proj2 (other_decoders_np bs no_msg))))))) H)|].
    apply header_decode_iff in H1; [|exact Hb]. destruct H1 as (_&Ht&->).
    assert (B1 : bytes b1) by (apply bytes_app in Hb; destruct Hb as (_&Hb); apply bytes_app in Hb; destruct Hb as (_&Hb); apply bytes_app in Hb; apply Hb).
    apply pbind_panic in H. destruct H as [H|(u&b2&H1&H)]; [unfold ensure in H; destruct (_ =? _); discriminate H|].
    unfold ensure in H1. destruct (N.eqb_spec (h_service h) 0x0202) as [E|]; [|discriminate H1]. injection H1 as <- <-.
    apply pbind_panic in H. destruct H as [H|(c&b2&H1&H)]; [destruct (proj1 (proj2 (proj2 (proj2 (proj2 (proj2 (proj2 (proj2 (other_decoders_np b1 no_msg)))))))) H)|].
    apply hpai_decode_iff in H1; [|exact B1]. destruct H1 as (Hw&->).
    assert (B2 : bytes b2) by (apply bytes_app in B1; apply B1).
    apply pbind_panic in H. destruct H as [H|(d1&b3&H1&H)].
    { apply dib_panic_iff in H. destruct H as (->&H). split; [reflexivity|]. exists (h_total h), c, b2. rewrite E. auto. }
    apply dib_decode_iff in H1; [|exact B2]. destruct H1 as (x&->&Hx).
    apply pbind_panic in H. destruct H as [H|(dev&b4&H1&H)]; [destruct d1; discriminate H|].
    destruct d1; try discriminate H1. injection H1 as -> <-.
    apply pbind_panic in H. destruct H as [H|(d2&b5&H1&H)].
    { apply dib_panic_iff in H. destruct H as (->&H). split; [reflexivity|]. exists (h_total h), c, (x ++ b3). rewrite E.
      split; [exact Ht|]. split; [exact Hw|]. split; [reflexivity|]. right. exists dev, x, b3. auto. }
    apply pbind_panic in H. destruct H as [H|(fam&b6&_&H)]; [destruct d2; discriminate H|discriminate H].
  - intros (->&size&c&b&Hs&Hw&->&H).
    assert (B : bytes b) by (repeat (apply bytes_app in Hb; destruct Hb as (_&Hb)); exact Hb).
    rewrite <- hpai_packet_eq by apply Hw. unfold search_response_from_packet, header_from_packet, pbind. pgo.
    destruct H as [H|(d&x&y&Hx&->&H)].
    + rewrite (proj2 (dib_panic_iff Debug b)); [reflexivity|auto].
    + rewrite (proj2 (dib_decode_iff Debug (x ++ y) (DibDevice d) y B)) by eauto. unfold ret at 1.
      rewrite (proj2 (dib_panic_iff Debug y)); [reflexivity|auto].
Qed.

Lemma fill_bytes b ds : bytes b -> Forall bytes ds -> bytes (fill b ds).
Proof.
  intros Hb H. revert b Hb. induction H as [|d ds Hd H IH]; intros b Hb; [exact Hb|]. cbn. apply IH. unfold overwrite.
  apply bytes_app. split; [apply bytes_firstn, Hd|apply bytes_skipn, Hb].
Qed.
Lemma crash_more x y : crash_octets x -> crash_octets (x ++ y).
Proof.
  assert (C : forall a, crash_block a -> crash_block (a ++ y)).
  { intros a (sl&rest&[(->&H)|(->&H&L)]); exists sl, (rest ++ y); [left|right]; rewrite <- app_assoc; repeat split; auto. rewrite app_length. lia. }
  intros (size&c&b&Hs&Hw&->&H). exists size, c, (b ++ y). split; [exact Hs|]. split; [exact Hw|]. split; [rewrite <- !app_assoc; reflexivity|].
  destruct H as [H|(d&x&z&Hx&->&H)]; [left; auto|right]. exists d, x, (z ++ y). rewrite app_assoc. auto.
Qed.
Theorem search_crashes ds rs x tail e :
  Forall2 complete ds rs -> Forall bytes ds -> bytes (x ++ tail) -> (length x <= 100)%nat -> crash_octets x ->
  search Debug (received ds ++ SRecv (x ++ tail) :: e) = Some Panic.
Proof.
  intros H Hb Hx L C. unfold search. rewrite (loop_read _ _ _ _ _ _ (repeat_length _ _) (complete_all Debug _ _ H)).
  cbn [search_loop]. set (b := fill _ ds). assert (Lb : length b = 100%nat) by (apply fill_length).
  assert (Bb : bytes b) by (apply fill_bytes; [vm_compute; repeat constructor|exact Hb]).
  unfold run_on, overwrite. rewrite Lb, firstn_app, firstn_all2, <- app_assoc by exact L.
  assert (B : bytes (x ++ firstn (100 - length x) tail ++ skipn (length (x ++ tail)) b)).
  { apply bytes_app in Hx. destruct Hx as [Hx Ht].
    apply bytes_app. split; [exact Hx|]. apply bytes_app. split; [apply bytes_firstn, Ht|apply bytes_skipn, Bb]. }
  rewrite (proj2 (search_panic_iff Debug _ B)); [reflexivity|split; [reflexivity|apply crash_more, C]].
Qed.
Theorem search_crashes_only p evs :
  (forall d, In (SRecv d) evs -> bytes d) -> search p evs = Some Panic ->
  p = Debug /\ exists ds d e b, evs = received ds ++ SRecv d :: e /\ length b = 100%nat /\ crash_octets (firstn 100 d ++ skipn (length d) b).
Proof.
  unfold search. assert (L : length (repeat 0 100) = 100%nat) by reflexivity. assert (B : bytes (repeat 0 100)) by (vm_compute; repeat constructor).
  revert L B. generalize (repeat 0 100) (@nil search_response). intros b acc L B Hd. revert b acc L B Hd.
  induction evs as [|e evs IH]; intros b acc L B Hd H; [discriminate H|]. destruct e as [d| |]; try discriminate H.
  cbn [search_loop] in H.
  assert (B' : bytes (overwrite b d)).
  { unfold overwrite. apply bytes_app. split; [apply bytes_firstn, Hd; left; reflexivity|apply bytes_skipn, B]. }
  unfold run_on in H. destruct (search_response_from_packet p (overwrite b d)) as [[r rest]| |] eqn:E; try discriminate H.
  - destruct (IH (overwrite b d) (acc ++ [r])) as (->&ds&d'&e&b'&->&L'&C); [rewrite overwrite_length; exact L|exact B'|intros d' I; apply Hd; right; exact I|exact H|].
    split; [reflexivity|]. exists (d :: ds), d', e, b'. auto.
  - apply search_panic_iff in E; [|exact B']. destruct E as (->&C). split; [reflexivity|]. exists [], d, evs, b.
    split; [reflexivity|]. split; [exact L|]. unfold overwrite in C. rewrite L in C. exact C.
Qed.
Theorem search_receive_error p ds rs e : Forall2 complete ds rs -> search p (received ds ++ SRecvErr :: e) = Some Err.
Proof.
  intro H. unfold search. rewrite (loop_read _ _ _ _ _ _ (repeat_length _ _) (complete_all p _ _ H)). reflexivity.
Qed.
