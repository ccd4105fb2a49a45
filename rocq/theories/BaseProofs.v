(** Lemmas about the shared vocabulary of Base.v. *)
From Coq Require Export ZifyBool ZifyNat ZifyN.
From Verif Require Import Base Wire.
Ltac Zify.zify_post_hook ::= Z.div_mod_to_equations.
Open Scope N_scope.
Global Arguments N.add : simpl never.
Global Arguments N.mul : simpl never.
Global Arguments N.div : simpl never.
Global Arguments N.modulo : simpl never.
Global Arguments N.sub : simpl never.
Global Arguments N.of_nat : simpl never.
Global Arguments N.to_nat : simpl never.
Global Arguments N.ltb : simpl never.
Global Arguments N.leb : simpl never.
Global Arguments N.land : simpl never.
Global Arguments N.lor : simpl never.
Global Arguments N.shiftl : simpl never.
Global Arguments N.shiftr : simpl never.

(** ** Bytes *)
Lemma bytes_cons b bs : bytes (b :: bs) <-> b < 256 /\ bytes bs.
Proof. unfold bytes, byte. split; [intro H; inversion H; auto | intros []; constructor; auto]. Qed.
Lemma bytes_app a b : bytes (a ++ b) <-> bytes a /\ bytes b.
Proof. unfold bytes. apply Forall_app. Qed.
Lemma bytes_nil : bytes [].
Proof. constructor. Qed.
Lemma bytes_firstn n bs : bytes bs -> bytes (firstn n bs).
Proof. intro H. rewrite <- (firstn_skipn n bs) in H. apply bytes_app in H. tauto. Qed.
Lemma bytes_skipn n bs : bytes bs -> bytes (skipn n bs).
Proof. intro H. rewrite <- (firstn_skipn n bs) in H. apply bytes_app in H. tauto. Qed.
Lemma bytes_zeros n : bytes (repeat 0 n).
Proof. induction n; cbn [repeat]; [apply bytes_nil | apply bytes_cons; split; [lia | exact IHn]]. Qed.
Lemma bytes_word n : n < 65536 -> bytes (word n).
Proof. intro H. unfold word. rewrite !bytes_cons. repeat split; try apply bytes_nil; lia. Qed.

Lemma be16_word n : n < 65536 -> be16 n = word n.
Proof. intro H. unfold be16, word. f_equal. lia. Qed.
Lemma length_word n : length (word n) = 2%nat.
Proof. reflexivity. Qed.
Lemma word_inj a b : word a = word b -> a = b.
Proof. unfold word. intro H. injection H. lia. Qed.
Lemma lenN_app {A} (a b : list A) : lenN (a ++ b) = lenN a + lenN b.
Proof. unfold lenN. rewrite app_length. lia. Qed.
Lemma lenN_cons {A} (a : A) l : lenN (a :: l) = 1 + lenN l.
Proof. unfold lenN. cbn [length]. lia. Qed.

(** ** Readers *)
Lemma pbind_ok {A B} (p : parser A) (f : A -> parser B) bs y rest :
  pbind p f bs = Ok (y, rest) <-> exists x r, p bs = Ok (x, r) /\ f x r = Ok (y, rest).
Proof.
  unfold pbind. split.
  - destruct (p bs) as [[x r]| |]; try discriminate. eauto.
  - intros (x & r & -> & H). exact H.
Qed.
Lemma ret_ok {A} (a x : A) r r' : ret a r = Ok (x, r') <-> x = a /\ r' = r.
Proof. unfold ret. split; [intro H; injection H; auto | intros [-> ->]; auto]. Qed.
Lemma ensure_ok c r u r' : ensure c r = Ok (u, r') <-> c = true /\ r' = r.
Proof.
  unfold ensure. destruct c, u; split; try discriminate; intuition congruence.
Qed.
Lemma read_u8_ok bs b r : read_u8 bs = Ok (b, r) <-> bs = b :: r.
Proof. destruct bs; cbn; split; intro H; congruence. Qed.
Lemma read_u16_ok bs n r :
  bytes bs -> (read_u16 bs = Ok (n, r) <-> n < 65536 /\ bs = word n ++ r).
Proof.
  intro Hb. destruct bs as [|a [|b bs]]; cbn; split; try discriminate.
  - intros [_ H]; discriminate.
  - intros [_ H]; discriminate.
  - rewrite !bytes_cons in Hb. intro H. injection H as <- <-. split; [lia|].
    unfold word. cbn [app]. repeat f_equal; lia.
  - rewrite !bytes_cons in Hb. intros [Hn H]. injection H as -> -> ->. repeat f_equal. lia.
Qed.
Lemma read_u16_word n r : n < 65536 -> read_u16 (word n ++ r) = Ok (n, r).
Proof. intro H. cbn. repeat f_equal. lia. Qed.
Lemma lift_ok {A} (x : res A) r a r' : lift x r = Ok (a, r') <-> x = Ok a /\ r' = r.
Proof. unfold lift. destruct x; split; try discriminate; intuition congruence. Qed.
Lemma read_exact_ok n bs v r :
  read_exact n bs = Ok (v, r) <-> length v = n /\ bs = v ++ r.
Proof.
  unfold read_exact. destruct (Nat.leb_spec n (length bs)).
  - split.
    + intro H1. injection H1 as <- <-. rewrite firstn_length, firstn_skipn. split; [lia|reflexivity].
    + intros [<- ->]. rewrite firstn_app, skipn_app, Nat.sub_diag, firstn_all, skipn_all. cbn.
      rewrite app_nil_r. reflexivity.
  - split; [discriminate|]. intros [<- ->]. rewrite app_length in H. lia.
Qed.
Lemma read_exact_app n v r : length v = n -> read_exact n (v ++ r) = Ok (v, r).
Proof. intro H. apply read_exact_ok. auto. Qed.
Lemma read_zeroed_app n v r : length v = n -> read_zeroed n (v ++ r) = Ok (v, r).
Proof.
  intros <-. unfold read_zeroed. rewrite firstn_app, skipn_app, Nat.sub_diag, firstn_all, skipn_all.
  rewrite app_length. replace (length v - (length v + length r))%nat with 0%nat by lia.
  cbn. rewrite !app_nil_r. reflexivity.
Qed.
Lemma read_zeroed_length n bs v r : read_zeroed n bs = Ok (v, r) -> length v = n.
Proof.
  unfold read_zeroed. intro H. injection H as <- _.
  rewrite app_length, firstn_length, repeat_length. lia.
Qed.
Lemma run_on_ok {A} (p : parser A) bs a : run_on p bs = Ok a <-> exists r, p bs = Ok (a, r).
Proof.
  unfold run_on. destruct (p bs) as [[x r]| |]; split; try discriminate.
  - intro H. injection H as ->. eauto.
  - intros (r' & H). congruence.
  - intros (r' & H). discriminate.
  - intros (r' & H). discriminate.
Qed.
Lemma run_on_panic {A} (p : parser A) bs : run_on p bs = Panic <-> p bs = Panic.
Proof. unfold run_on. destruct (p bs) as [[x r]| |]; split; congruence. Qed.

(** ** Panic freedom *)
Definition no_panic {A} (p : parser A) : Prop := forall bs, p bs <> Panic.
Lemma np_bind {A B} (p : parser A) (f : A -> parser B) :
  no_panic p -> (forall a, no_panic (f a)) -> no_panic (pbind p f).
Proof. intros Hp Hf bs. unfold pbind. specialize (Hp bs). destruct (p bs) as [[a r]| |]; [apply Hf|congruence|congruence]. Qed.
Lemma np_ret {A} (a : A) : no_panic (ret a).
Proof. intro; discriminate. Qed.
Lemma np_fail {A} : no_panic (@fail A).
Proof. intro; discriminate. Qed.
Lemma np_ensure c : no_panic (ensure c).
Proof. intro; unfold ensure; destruct c; discriminate. Qed.
Lemma np_u8 : no_panic read_u8.
Proof. intros [|]; discriminate. Qed.
Lemma np_u16 : no_panic read_u16.
Proof. intros [|? [|]]; discriminate. Qed.
Lemma np_exact n : no_panic (read_exact n).
Proof. intro; unfold read_exact; destruct Nat.leb; discriminate. Qed.
Lemma np_zeroed n : no_panic (read_zeroed n).
Proof. intro; discriminate. Qed.
Lemma np_to_end : no_panic read_to_end.
Proof. intro; discriminate. Qed.
Lemma np_lift {A} (x : res A) : x <> Panic -> no_panic (lift x).
Proof. intros H r; unfold lift; destruct x; congruence. Qed.
Global Hint Resolve np_bind np_ret np_fail np_ensure np_u8 np_u16 np_exact np_zeroed np_to_end : np.
Lemma np_run_on {A} (p : parser A) bs : no_panic p -> run_on p bs <> Panic.
Proof. intros H E. apply run_on_panic in E. exact (H _ E). Qed.

(** ** Tactics: invert a successful reader step by step. *)
Ltac pinv1 :=
  match goal with
  | H : pbind _ _ _ = Ok (_, _) |- _ =>
      apply pbind_ok in H; destruct H as (? & ? & ? & ?)
  | H : ret _ _ = Ok (_, _) |- _ => apply ret_ok in H; destruct H; subst
  | H : ensure _ _ = Ok (_, _) |- _ => apply ensure_ok in H; destruct H; subst
  | H : read_u8 _ = Ok (_, _) |- _ => apply read_u8_ok in H; subst
  | H : lift _ _ = Ok (_, _) |- _ => apply lift_ok in H; destruct H; subst
  | H : read_exact _ _ = Ok (_, _) |- _ => apply read_exact_ok in H; destruct H; subst
  | Hb : bytes ?bs, H : read_u16 ?bs = Ok (_, _) |- _ =>
      apply (read_u16_ok _ _ _ Hb) in H; destruct H; subst
  | H : bytes (_ :: _) |- _ => apply bytes_cons in H; destruct H
  | H : bytes (_ ++ _) |- _ => apply bytes_app in H; destruct H
  end.
Ltac pinv := repeat pinv1.
