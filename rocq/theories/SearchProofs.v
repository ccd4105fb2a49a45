(** Proofs about search. *)
From Verif Require Import Base Addresses Core Search Wire Spec SearchSpec BaseProofs CoreProofs DibProofs.
From Coq Require Import Lia ZifyBool ZifyNat ZifyN.
Open Scope N_scope.

(** ** Readers that do not look past what they consume *)
Definition stable {A} (p : parser A) : Prop :=
  forall r a r' x, p r = Ok (a, r') -> p (r ++ x) = Ok (a, r' ++ x).
Lemma stable_ret {A} (a : A) : stable (ret a).
Proof. intros r b r' x H. injection H as <- <-. reflexivity. Qed.
Lemma stable_fail {A} : stable (@fail A).
Proof. intros r b r' x H. discriminate H. Qed.
Lemma stable_lift {A} (y : res A) : stable (lift y).
Proof. intros r b r' x H. unfold lift in *. destruct y; try discriminate H. injection H as <- <-. reflexivity. Qed.
Lemma stable_ensure c : stable (ensure c).
Proof. intros r b r' x H. unfold ensure in *. destruct c; try discriminate H. injection H as <- <-. reflexivity. Qed.
Lemma stable_bind {A B} (p : parser A) (f : A -> parser B) : stable p -> (forall a, stable (f a)) -> stable (pbind p f).
Proof.
  intros Hp Hf r b r' x H. unfold pbind in *. destruct (p r) as [[a r1]| |] eqn:E; try discriminate H.
  rewrite (Hp _ _ _ x E). apply Hf. exact H.
Qed.
Lemma stable_u8 : stable read_u8.
Proof. intros [|b r] a r' x H; [discriminate H|]. injection H as <- <-. reflexivity. Qed.
Lemma stable_u16 : stable read_u16.
Proof. intros [|b [|c r]] a r' x H; try discriminate H. injection H as <- <-. reflexivity. Qed.
Lemma stable_exact n : stable (read_exact n).
Proof.
  intros r a r' x H. unfold read_exact in *. destruct (Nat.leb_spec n (length r)); [|discriminate H]. injection H as <- <-.
  rewrite app_length. replace (Nat.leb n (length r + length x)) with true by (symmetry; apply Nat.leb_le; lia).
  rewrite firstn_app, skipn_app. replace (n - length r)%nat with 0%nat by lia. cbn. rewrite app_nil_r. reflexivity.
Qed.
Ltac stables := repeat first
  [ apply stable_bind; [|intro] | apply stable_ret | apply stable_fail | apply stable_lift | apply stable_ensure
  | apply stable_u8 | apply stable_u16 | apply stable_exact ].
Lemma stable_families n : stable (read_families n).
Proof. induction n; cbn [read_families]; stables. assumption. Qed.
Lemma stable_quads n : stable (read_quads n).
Proof. induction n; cbn [read_quads]; stables. assumption. Qed.
Lemma stable_dib p : stable (dib_from_packet p).
Proof.
  unfold dib_from_packet. stables. destruct a1; stables; [apply stable_families|apply stable_quads].
Qed.
Lemma stable_search_response p : stable (search_response_from_packet p).
Proof.
  unfold search_response_from_packet, header_from_packet, hpai_from_packet.
  repeat first [apply stable_dib | apply stable_bind; [|intro] | apply stable_ret | apply stable_fail | apply stable_ensure
    | apply stable_u8 | apply stable_u16 | match goal with |- stable (match ?d with _ => _ end) => destruct d end].
Qed.

(** ** The loop *)
Lemma overwrite_length b d : length (overwrite b d) = length b.
Proof. unfold overwrite. rewrite app_length, firstn_length, skipn_length. lia. Qed.
Lemma overwrite_fits b d : (length d <= length b)%nat -> overwrite b d = d ++ skipn (length d) b.
Proof. intro H. unfold overwrite. rewrite firstn_all2 by exact H. reflexivity. Qed.
Fixpoint fill (b : list N) (ds : list (list N)) : list N :=
  match ds with [] => b | d :: ds' => fill (overwrite b d) ds' end.
Lemma fill_length b ds : length (fill b ds) = length b.
Proof. revert b. induction ds as [|d ds IH]; intro b; cbn; [reflexivity|]. rewrite IH, overwrite_length. reflexivity. Qed.
Lemma loop_read p b acc ds rs e :
  length b = 100%nat ->
  Forall2 (fun d r => (length d <= 100)%nat /\ exists rest, search_response_from_packet p d = Ok (r, rest)) ds rs ->
  search_loop p b acc (received ds ++ e) = search_loop p (fill b ds) (acc ++ rs) e.
Proof.
  intros Hl H. revert b acc Hl. induction H as [|d r ds rs (Ld&rest&Hd) H IH]; intros b acc Hl; cbn [received map app fill].
  - rewrite app_nil_r. reflexivity.
  - cbn [search_loop]. rewrite overwrite_fits by lia. unfold run_on.
    rewrite (stable_search_response p _ _ _ (skipn (length d) b) Hd).
    rewrite <- overwrite_fits by lia. unfold received in IH. rewrite IH by (rewrite overwrite_length; exact Hl).
    rewrite <- app_assoc. reflexivity.
Qed.
Lemma search_returns p ds rs e :
  Forall2 (fun d r => (length d <= 100)%nat /\ exists rest, search_response_from_packet p d = Ok (r, rest)) ds rs ->
  search p (received ds ++ SElapsed :: e) = Some (Ok rs).
Proof. intro H. unfold search. rewrite (loop_read _ _ _ _ _ _ (repeat_length _ _) H). reflexivity. Qed.
Lemma complete_reads p d r : complete d r -> exists rest, search_response_from_packet p d = Ok (reply_value r, rest).
Proof.
  intros ((H1&H2&H3&H4&H5&H6&H7)&Hl&rest&->). exists rest.
  apply search_response_read; try assumption.
  unfold reply_bytes in Hl. unfold frame, block in Hl. rewrite !app_length in Hl. rewrite (family_body_length) in Hl. lia.
Qed.
Lemma complete_all p ds rs :
  Forall2 complete ds rs ->
  Forall2 (fun d r => (length d <= 100)%nat /\ exists rest, search_response_from_packet p d = Ok (r, rest)) ds (map reply_value rs).
Proof.
  induction 1 as [|d r ds rs H _ IH]; constructor; [|exact IH]. split; [apply H|apply complete_reads, H].
Qed.
Lemma search_complete p ds rs e :
  Forall2 complete ds rs -> search p (received ds ++ SElapsed :: e) = Some (Ok (map reply_value rs)).
Proof. intro H. apply search_returns, complete_all, H. Qed.
(** Whatever is returned, one response was received for each result, and then nothing for the whole period. *)
Lemma loop_inv p b acc e rs :
  search_loop p b acc e = Some (Ok rs) ->
  exists ds e' vs, e = received ds ++ SElapsed :: e' /\ rs = acc ++ vs /\ length vs = length ds.
Proof.
  revert b acc. induction e as [|x e IH]; intros b acc H; [discriminate H|]. destruct x as [d| |]; cbn [search_loop] in H.
  - destruct (run_on _ _) as [r| |] eqn:E; try discriminate H. destruct (IH _ _ H) as (ds&e'&vs&->&->&L).
    exists (d :: ds), e', (r :: vs). rewrite <- app_assoc. cbn. auto.
  - discriminate H.
  - injection H as <-. exists [], e, []. rewrite app_nil_r. auto.
Qed.
Lemma search_result_inv p e rs :
  search p e = Some (Ok rs) -> exists ds e', e = received ds ++ SElapsed :: e' /\ length rs = length ds.
Proof. intro H. destruct (loop_inv _ _ _ _ _ H) as (ds&e'&vs&->&->&L). exists ds, e'. auto. Qed.
Lemma search_waits p ds rs : Forall2 complete ds rs -> search p (received ds) = None.
Proof.
  intro H. rewrite <- (app_nil_r (received ds)). unfold search.
  rewrite (loop_read _ _ _ _ _ _ (repeat_length _ _) (complete_all p _ _ H)). reflexivity.
Qed.
Lemma header_bad (d : list N) : (2 <= length d)%nat -> firstn 2 d <> [6; 16] -> forall p x, search_response_from_packet p (d ++ x) = Err.
Proof.
  intros L H p x. destruct d as [|a [|b d]]; try (cbn in L; lia). cbn in H.
  unfold search_response_from_packet, header_from_packet, pbind. cbn.
  unfold ensure. destruct (N.eqb_spec a 6); [|reflexivity]. cbn. destruct (N.eqb_spec b 16); [|reflexivity]. congruence.
Qed.
Lemma search_spoiled p ds rs d e :
  Forall2 complete ds rs -> (2 <= length d)%nat -> firstn 2 d <> [6; 16] ->
  search p (received ds ++ SRecv d :: e) = Some Err.
Proof.
  intros H L Hh. unfold search. rewrite (loop_read _ _ _ _ _ _ (repeat_length _ _) (complete_all p _ _ H)).
  cbn [search_loop]. set (b := fill _ ds). assert (Lb : length b = 100%nat) by (apply fill_length).
  unfold run_on, overwrite. rewrite Lb. rewrite header_bad; [reflexivity| |].
  - rewrite firstn_length. lia.
  - rewrite firstn_firstn. exact Hh.
Qed.

(** ** Contents left over in the buffer *)
Lemma device_body_length r : wf_reply r ->
  length (device_body (medium_number (rp_medium r)) (rp_status r) (rp_addr r) (rp_project r)
            (rp_serial r) (rp_multicast r) (rp_mac r) (rp_name r)) = 52%nat.
Proof. intros (_&_&_&H4&H5&H6&H7). unfold device_body. rewrite !app_length, H4, H5, H6, H7. reflexivity. Qed.
Lemma hpai_bytes_length e : wf_hpai e -> length (hpai_bytes (hp_code e) (hp_ip e) (hp_port e)) = 8%nat.
Proof. intros (_&_&H&_). unfold hpai_bytes, word. rewrite !app_length, H. reflexivity. Qed.
(** The first 14 octets: header and control endpoint. *)
Lemma reply_bytes_parts r : wf_reply r ->
  exists tl, reply_bytes r = ([0x06; 0x10] ++ word 0x0202 ++ word (70 + 2 * N.of_nat (length (rp_families r)))
                          ++ hpai_bytes (hp_code (rp_control r)) (hp_ip (rp_control r)) (hp_port (rp_control r))) ++ tl /\
    (forall c, wf_hpai c -> reply_bytes (with_control r c) =
       ([0x06; 0x10] ++ word 0x0202 ++ word (70 + 2 * N.of_nat (length (rp_families r)))
          ++ hpai_bytes (hp_code c) (hp_ip c) (hp_port c)) ++ tl) /\
    length tl = (56 + 2 * length (rp_families r))%nat.
Proof.
  intro H. exists (block 0x01 (device_body (medium_number (rp_medium r)) (rp_status r) (rp_addr r) (rp_project r)
                     (rp_serial r) (rp_multicast r) (rp_mac r) (rp_name r)) ++ block 0x02 (family_body (rp_families r))).
  pose proof (device_body_length _ H) as L.
  assert (Lt : length (block 0x01 (device_body (medium_number (rp_medium r)) (rp_status r) (rp_addr r) (rp_project r)
                     (rp_serial r) (rp_multicast r) (rp_mac r) (rp_name r)) ++ block 0x02 (family_body (rp_families r)))
               = (56 + 2 * length (rp_families r))%nat).
  { unfold block. rewrite !app_length, L, family_body_length. cbn [length]. lia. }
  assert (G : forall c, wf_hpai c -> reply_bytes (with_control r c) =
       ([0x06; 0x10] ++ word 0x0202 ++ word (70 + 2 * N.of_nat (length (rp_families r)))
          ++ hpai_bytes (hp_code c) (hp_ip c) (hp_port c)) ++
       block 0x01 (device_body (medium_number (rp_medium r)) (rp_status r) (rp_addr r) (rp_project r)
                     (rp_serial r) (rp_multicast r) (rp_mac r) (rp_name r)) ++ block 0x02 (family_body (rp_families r))).
  { intros c Hc. unfold reply_bytes, with_control, frame. cbn [rp_control rp_medium rp_status rp_addr rp_project rp_serial rp_multicast rp_mac rp_name rp_families].
    rewrite app_length, hpai_bytes_length, Lt by exact Hc.
    replace (6 + N.of_nat (8 + (56 + 2 * length (rp_families r)))) with (70 + 2 * N.of_nat (length (rp_families r))) by lia.
    rewrite <- !app_assoc. reflexivity. }
  split; [|auto]. pose proof (G (rp_control r) (proj1 H)) as G0. destruct r. exact G0.
Qed.
Lemma search_mixes p r1 r2 e :
  wf_reply r1 -> wf_reply r2 -> length (rp_families r1) = length (rp_families r2) -> (length (rp_families r1) <= 15)%nat ->
  search p (received [reply_bytes r1; firstn 14 (reply_bytes r2)] ++ SElapsed :: e) =
    Some (Ok [reply_value r1; reply_value (with_control r1 (rp_control r2))]) /\
  search p (received [firstn 14 (reply_bytes r2)] ++ SElapsed :: e) = Some Err.
Proof.
  intros H1 H2 Hf Hl.
  destruct (reply_bytes_parts _ H1) as (t1&E1&G1&L1). destruct (reply_bytes_parts _ H2) as (t2&E2&_&L2).
  set (h1 := [0x06; 0x10] ++ word 0x0202 ++ word (70 + 2 * N.of_nat (length (rp_families r1)))
                          ++ hpai_bytes (hp_code (rp_control r1)) (hp_ip (rp_control r1)) (hp_port (rp_control r1))) in *.
  set (h2 := [0x06; 0x10] ++ word 0x0202 ++ word (70 + 2 * N.of_nat (length (rp_families r2)))
                          ++ hpai_bytes (hp_code (rp_control r2)) (hp_ip (rp_control r2)) (hp_port (rp_control r2))) in *.
  assert (Lh1 : length h1 = 14%nat) by (unfold h1; rewrite !app_length, hpai_bytes_length by apply H1; reflexivity).
  assert (Lh2 : length h2 = 14%nat) by (unfold h2; rewrite !app_length, hpai_bytes_length by apply H2; reflexivity).
  assert (F2 : firstn 14 (reply_bytes r2) = h2).
  { rewrite E2, firstn_app, Lh2, Nat.sub_diag, firstn_O, app_nil_r. apply firstn_all2. lia. }
  assert (C1 : complete (reply_bytes r1) r1).
  { split; [exact H1|]. split; [rewrite E1, app_length; lia|exists []; symmetry; apply app_nil_r]. }
  rewrite F2. split.
  - change (received [reply_bytes r1; h2] ++ SElapsed :: e) with (received [reply_bytes r1] ++ SRecv h2 :: SElapsed :: e).
    unfold search. rewrite (loop_read p _ _ [reply_bytes r1] [reply_value r1] _ (repeat_length _ _)).
    2:{ constructor; [|constructor]. split; [apply C1|apply complete_reads, C1]. }
    cbn [fill app]. cbn [search_loop]. rewrite (overwrite_fits _ h2) by (rewrite overwrite_length, repeat_length; lia).
    rewrite overwrite_fits by (rewrite repeat_length; apply C1).
    rewrite E1 at 1. rewrite <- app_assoc, skipn_app, Lh2. replace (14 - length h1)%nat with 0%nat by lia.
    rewrite (skipn_all2 h1) by lia. cbn [app skipn]. rewrite app_assoc.
    assert (h2 ++ t1 = reply_bytes (with_control r1 (rp_control r2))) as ->.
    { rewrite G1 by apply H2. unfold h2. rewrite <- Hf. reflexivity. }
    assert (C2 : complete (reply_bytes (with_control r1 (rp_control r2))) (with_control r1 (rp_control r2))).
    { split; [|split].
      - destruct H1 as (A1&A2&A3&A4&A5&A6&A7). destruct H2 as (B1&_). repeat split; try assumption; apply B1.
      - rewrite G1 by apply H2. rewrite app_length, L1, !app_length, hpai_bytes_length by apply H2. cbn [length word]. lia.
      - exists []. symmetry. apply app_nil_r. }
    destruct (complete_reads p _ _ C2) as (rest&R). unfold run_on. rewrite (stable_search_response p _ _ _ _ R). reflexivity.
  - unfold search, received. cbn [map app search_loop]. rewrite overwrite_fits by (rewrite repeat_length; lia).
    unfold run_on.
    assert (N0 : exists k, skipn (length h2) (repeat 0 100) = 0 :: 0 :: repeat 0 k) by (rewrite Lh2; exists 84%nat; reflexivity).
    destruct N0 as (k&N0). rewrite N0. unfold h2. rewrite <- hpai_packet_eq by apply H2. rewrite <- !app_assoc.
    unfold search_response_from_packet, header_from_packet, pbind. pgo.
    rewrite hpai_roundtrip by apply H2. reflexivity.
Qed.
Lemma search_repeats p ds rs d r e :
  Forall2 complete ds rs -> complete d r ->
  search p (received (ds ++ [d; []]) ++ SElapsed :: e) = Some (Ok (map reply_value (rs ++ [r; r]))).
Proof.
  intros H Hd. unfold received. rewrite map_app, <- app_assoc. cbn [map app].
  change (map SRecv ds ++ SRecv d :: SRecv [] :: SElapsed :: e) with (map SRecv ds ++ [SRecv d] ++ SRecv [] :: SElapsed :: e).
  rewrite app_assoc. change [SRecv d] with (map SRecv [d]). rewrite <- map_app. fold (received (ds ++ [d])).
  unfold search. rewrite (loop_read p _ _ (ds ++ [d]) (map reply_value (rs ++ [r])) _ (repeat_length _ _)).
  2:{ apply complete_all. apply Forall2_app; [exact H|]. constructor; [exact Hd|constructor]. }
  cbn [search_loop]. set (b := fill _ (ds ++ [d])).
  assert (Lb : length b = 100%nat) by apply fill_length.
  rewrite overwrite_fits by (cbn; lia). cbn [app length skipn].
  assert (Eb : exists x, b = d ++ x).
  { assert (G : forall ds y, fill y (ds ++ [d]) = overwrite (fill y ds) d).
    { clear. induction ds as [|a ds IH]; intro y; cbn; [reflexivity|apply IH]. }
    unfold b. rewrite G, overwrite_fits by (rewrite fill_length, repeat_length; apply Hd). eauto. }
  destruct Eb as (x&->). destruct (complete_reads p _ _ Hd) as (rest&R). unfold run_on.
  rewrite (stable_search_response p _ _ _ _ R). cbn [app]. rewrite !map_app, <- app_assoc. reflexivity.
Qed.

(** ** Time *)
Lemma timeline_shape T now arrivals evs fin :
  timeline T now arrivals evs fin ->
  exists a b, arrivals = a ++ b /\ evs = received (map snd a) ++ [SElapsed] /\
    fin = last (map fst a) now + T /\ (forall t d, hd_error b = Some (t, d) -> fin <= t).
Proof.
  induction 1 as [now arrivals H|now t d arrivals evs fin Ht H (a&b&->&->&->&Hb)].
  - exists [], arrivals. auto.
  - exists ((t, d) :: a), b. cbn [map fst snd app received]. split; [reflexivity|]. split; [reflexivity|].
    assert (E : last (t :: map fst a) now = last (map fst a) t).
    { clear. revert t now. induction (map fst a) as [|x l IH]; intros; [reflexivity|].
      change (last (t :: x :: l) now) with (last (x :: l) now). rewrite IH. symmetry. apply IH. }
    rewrite E. auto.
Qed.
Lemma timeline_long T now d k :
  timeline T now (map (fun i => (now + N.of_nat (S i) * T, d)) (seq 0 k)) (received (repeat d k) ++ [SElapsed]) (now + N.of_nat k * T + T).
Proof.
  revert now. induction k as [|k IH]; intro now.
  - cbn [seq map received repeat app]. replace (now + N.of_nat 0 * T + T) with (now + T) by lia. apply tl_quiet. intros t e H. discriminate H.
  - cbn [seq map repeat received app]. constructor; [lia|].
    replace (map (fun i => (now + N.of_nat (S i) * T, d)) (seq 1 k)) with (map (fun i => (now + 1 * T + N.of_nat (S i) * T, d)) (seq 0 k)).
    + replace (now + N.of_nat (S k) * T + T) with (now + 1 * T + N.of_nat k * T + T) by lia. apply IH.
    + rewrite <- seq_shift, map_map. apply map_ext. intro i. f_equal. lia.
Qed.
Lemma search_long p T now r k :
  complete (reply_bytes r) r ->
  exists arrivals evs fin, timeline T now arrivals evs fin /\
    search p evs = Some (Ok (repeat (reply_value r) k)) /\ now + N.of_nat k * T <= fin.
Proof.
  intro H. exists (map (fun i => (now + N.of_nat (S i) * T, reply_bytes r)) (seq 0 k)), (received (repeat (reply_bytes r) k) ++ [SElapsed]),
    (now + N.of_nat k * T + T). split; [apply timeline_long|]. split; [|lia].
  rewrite (search_complete p _ (repeat r k)).
  - f_equal. f_equal. clear. induction k; cbn; congruence.
  - induction k; cbn; constructor; assumption.
Qed.

(** ** The whole call *)
Lemma search_call_sends p e ip port :
  wf_local (se_local e) -> sends_from e ip port ->
  search_call p e = (search p (se_events e), [(fst discovery, snd discovery, request_from ip port)]).
Proof.
  intros W (Hb&Hl&Hs). rewrite Hl in W. unfold search_call. rewrite Hb, Hl, Hs. cbn [negb].
  destruct W as (W1&W2&W3). rewrite search_request_frame by (repeat split; try assumption; vm_compute; reflexivity). reflexivity.
Qed.
Lemma search_call_quiet p e r out :
  search_call p e = (r, out) -> (forall ip port, ~ sends_from e ip port) ->
  out = [] /\ (r = Some Err \/ (r = Some Panic /\ se_bind e = true /\ se_send e = false /\ exists ip port, se_local e = LocalV4 ip port)).
Proof.
  unfold search_call, sends_from. destruct (se_bind e), (se_local e) as [ip port| |] eqn:El, (se_send e); cbn [negb]; intros H Hn;
    injection H as <- <-; try (split; [reflexivity|left; reflexivity]).
  - exfalso. apply (Hn ip port). auto.
  - split; [reflexivity|]. right. repeat split. eauto.
Qed.
Lemma search_call_sent p e r out x :
  wf_local (se_local e) -> search_call p e = (r, out) -> In x out ->
  exists ip port, sends_from e ip port /\ out = [x] /\ x = (fst discovery, snd discovery, request_from ip port).
Proof.
  intros W H Hi. destruct (se_bind e) eqn:Hb, (se_local e) as [ip port| |] eqn:El, (se_send e) eqn:Hs;
    try (unfold search_call in H; rewrite Hb, ?El, ?Hs in H; injection H as <- <-; exact (False_ind _ Hi)).
  assert (sends_from e ip port) as S by (repeat split; assumption).
  rewrite (search_call_sends p e ip port) in H; [|rewrite El; exact W|exact S]. injection H as <- <-.
  destruct Hi as [<-|[]]. exists ip, port. auto.
Qed.
