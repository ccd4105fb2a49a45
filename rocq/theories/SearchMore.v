(** More proofs about search: replies cut off. *)
From Verif Require Import Base Addresses Core Search Wire Spec SearchSpec BaseProofs CoreProofs DibProofs SearchProofs.
From Coq Require Import Lia ZifyBool ZifyNat ZifyN.
Open Scope N_scope.

(** ** Readers whose panics do not depend on what follows *)
Definition steady {A} (p : parser A) : Prop := stable p /\ forall r x, p r = Panic -> p (r ++ x) = Panic.
Lemma steady_ret {A} (a : A) : steady (ret a).
Proof. split; [apply stable_ret|discriminate]. Qed.
Lemma steady_fail {A} : steady (@fail A).
Proof. split; [apply stable_fail|discriminate]. Qed.
Lemma steady_lift {A} (y : res A) : steady (lift y).
Proof. split; [apply stable_lift|]. intros r x. unfold lift. destruct y; try discriminate. reflexivity. Qed.
Lemma steady_ensure c : steady (ensure c).
Proof. split; [apply stable_ensure|]. intros r x. unfold ensure. destruct c; discriminate. Qed.
Lemma steady_bind {A B} (p : parser A) (f : A -> parser B) : steady p -> (forall a, steady (f a)) -> steady (pbind p f).
Proof.
  intros (Hs&Hp) Hf. split; [apply stable_bind; [exact Hs|apply Hf]|].
  intros r x H. unfold pbind in *. destruct (p r) as [[a r1]| |] eqn:E; try discriminate H.
  - rewrite (Hs _ _ _ x E). apply Hf. exact H.
  - rewrite (Hp _ x E). reflexivity.
Qed.
Lemma steady_u8 : steady read_u8.
Proof. split; [apply stable_u8|]. intros [|b r] x H; discriminate H. Qed.
Lemma steady_u16 : steady read_u16.
Proof. split; [apply stable_u16|]. intros [|b [|c r]] x H; discriminate H. Qed.
Lemma steady_exact n : steady (read_exact n).
Proof. split; [apply stable_exact|]. intros r x H. unfold read_exact in H. destruct (Nat.leb n (length r)); discriminate H. Qed.
Ltac steadies := repeat first
  [ apply steady_bind; [|intro] | apply steady_ret | apply steady_fail | apply steady_lift | apply steady_ensure
  | apply steady_u8 | apply steady_u16 | apply steady_exact ].
Lemma steady_families n : steady (read_families n).
Proof. induction n; cbn [read_families]; steadies. assumption. Qed.
Lemma steady_quads n : steady (read_quads n).
Proof. induction n; cbn [read_quads]; steadies. assumption. Qed.
Lemma steady_dib p : steady (dib_from_packet p).
Proof.
  unfold dib_from_packet. steadies. destruct a1; steadies; [apply steady_families|apply steady_quads].
Qed.
Lemma steady_search_response p : steady (search_response_from_packet p).
Proof.
  unfold search_response_from_packet, header_from_packet, hpai_from_packet.
  repeat first [apply steady_dib | apply steady_bind; [|intro] | apply steady_ret | apply steady_fail | apply steady_ensure
    | apply steady_u8 | apply steady_u16 | match goal with |- steady (match ?d with _ => _ end) => destruct d end].
Qed.
(** What is accepted without anything left over is an error when cut off anywhere. *)
Lemma cut_off {A} (p : parser A) a x y : steady p -> p (x ++ y) = Ok (a, []) -> y <> [] -> p x = Err.
Proof.
  intros (Hs&Hp) H Hy. destruct (p x) as [[b r]| |] eqn:E; [|reflexivity|].
  - rewrite (Hs _ _ _ y E) in H. injection H as _ H. apply app_eq_nil in H. destruct H as (_&H). contradiction.
  - rewrite (Hp _ y E) in H. discriminate H.
Qed.

(** ** Replies *)
Lemma reply_read p r rest : wf_reply r -> (length (rp_families r) <= 126)%nat ->
  search_response_from_packet p (reply_bytes r ++ rest) = Ok (reply_value r, rest).
Proof. intros (H1&H2&H3&H4&H5&H6&H7) Hf. apply search_response_read; assumption. Qed.
Lemma reply_length r : wf_reply r -> length (reply_bytes r) = (70 + 2 * length (rp_families r))%nat.
Proof.
  intro H. destruct (reply_bytes_parts _ H) as (tl&E&_&L). rewrite E, !app_length, !length_word, hpai_bytes_length, L by apply H.
  cbn [length]. lia.
Qed.
Lemma reply_cut p r n : wf_reply r -> (length (rp_families r) <= 126)%nat -> (n < length (reply_bytes r))%nat ->
  search_response_from_packet p (firstn n (reply_bytes r)) = Err.
Proof.
  intros H Hf Hn. apply (cut_off _ (reply_value r) _ (skipn n (reply_bytes r)) (steady_search_response p)).
  - rewrite firstn_skipn, <- (app_nil_r (reply_bytes r)). apply reply_read; assumption.
  - intro E. apply (f_equal (@length N)) in E. rewrite skipn_length in E. cbn [length] in E. lia.
Qed.
(** A reply longer than the buffer. *)
Lemma search_too_long p ds rs r rest e :
  Forall2 complete ds rs -> wf_reply r -> (15 < length (rp_families r) <= 126)%nat ->
  search p (received ds ++ SRecv (reply_bytes r ++ rest) :: e) = Some Err.
Proof.
  intros H Hw Hf. unfold search. rewrite (loop_read _ _ _ _ _ _ (repeat_length _ _) (complete_all p _ _ H)).
  cbn [search_loop]. set (b := fill _ ds). assert (Lb : length b = 100%nat) by (apply fill_length).
  pose proof (reply_length _ Hw) as L.
  assert (overwrite b (reply_bytes r ++ rest) = firstn 100 (reply_bytes r)) as ->.
  { unfold overwrite. rewrite Lb, firstn_app, L. replace (100 - _)%nat with 0%nat by lia.
    rewrite (skipn_all2 b) by (rewrite app_length; lia). rewrite firstn_O, !app_nil_r. reflexivity. }
  unfold run_on. rewrite reply_cut; [reflexivity|exact Hw|lia|lia].
Qed.
(** Those that fit are found. *)
Lemma search_fits p ds rs r e :
  Forall2 complete ds rs -> wf_reply r -> (length (rp_families r) <= 15)%nat ->
  search p (received (ds ++ [reply_bytes r]) ++ SElapsed :: e) = Some (Ok (map reply_value (rs ++ [r]))).
Proof.
  intros H Hw Hf. apply search_complete. apply Forall2_app; [exact H|]. constructor; [|constructor].
  split; [exact Hw|]. split; [rewrite reply_length by exact Hw; lia|]. exists []. rewrite app_nil_r. reflexivity.
Qed.

(** ** Names *)
Lemma name_read p ds rs e : Forall2 complete ds rs ->
  exists vs, search p (received ds ++ SElapsed :: e) = Some (Ok vs) /\
    map (fun v => friendly_name (sr_device v)) vs = map (fun r => Ok (rp_name r)) rs.
Proof.
  intro H. exists (map reply_value rs). split; [apply search_complete, H|]. rewrite map_map. reflexivity.
Qed.
Lemma name_padded p d r name k : complete d r -> rp_name r = name ++ repeat 0 (S k) ->
  exists v, search p [SRecv d; SElapsed] = Some (Ok [v]) /\ friendly_name (sr_device v) = Ok (name ++ repeat 0 (S k)) /\
    friendly_name (sr_device v) <> Ok name.
Proof.
  intros H Hn. exists (reply_value r). split; [|split].
  - change [SRecv d; SElapsed] with (received [d] ++ SElapsed :: []). rewrite (search_complete p [d] [r]); [reflexivity|].
    constructor; [exact H|constructor].
  - unfold friendly_name, reply_value. cbn. rewrite Hn. reflexivity.
  - unfold friendly_name, reply_value. cbn [sr_device di_name]. rewrite Hn. intro E. injection E as E.
    apply (f_equal (@length N)) in E. rewrite app_length in E. cbn [repeat length] in E. lia.
Qed.
