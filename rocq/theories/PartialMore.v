(** Positive halves of properties that are false as wanted (C19, C26, C68, C85). *)
From Verif Require Import Base Addresses Tunneling Emi Core Transport Search Wire Spec SearchSpec
  BaseProofs CoreProofs EmiProofs ResponseProofs CodecMore MessageMore SearchProofs TraceSpec TransportBase TransportCalls.
From Coq Require Import Lia.
Open Scope N_scope.

(** ** C19 *)
Lemma buffer_nth d i : nth i (recv_buffer d) 0 <> 0 -> (i < length d)%nat.
Proof.
  intro H. destruct (Nat.lt_ge_cases i (length d)) as [L|L]; [exact L|]. destruct H. unfold recv_buffer.
  rewrite app_nth2 by (rewrite firstn_length; lia). apply nth_repeat.
Qed.
Lemma buffer_same d i : (i < 100)%nat -> nth i (recv_buffer d) 0 = nth i d 0.
Proof.
  intro H. unfold recv_buffer. destruct (Nat.lt_ge_cases i (length d)) as [L|L].
  - rewrite app_nth1 by (rewrite firstn_length; lia). rewrite <- (firstn_skipn 100 d) at 2. rewrite app_nth1 by (rewrite firstn_length; lia). reflexivity.
  - rewrite app_nth2 by (rewrite firstn_length; lia). rewrite nth_repeat, nth_overflow by exact L. reflexivity.
Qed.
Lemma declared_kept d r : bytes d -> parse_response (recv_buffer d) = Ok r ->
  match r with
  | RTunReq t => (7 <= length d)%nat /\ declared d = 10 + lenN (tr_cemi t)
  | RTunAck _ => (7 <= length d)%nat /\ declared d = 10
  | RFeature _ => (7 <= length d)%nat /\ declared d = 13
  | RConnState _ | RDiscResp _ => (6 <= length d)%nat /\ declared d = 8
  | RDiscReq _ => False
  end.
Proof.
  intros Hb H. apply parse_response_iff in H; [|apply ResponseProofs.recv_buffer_bytes; exact Hb].
  unfold declared. rewrite <- (buffer_same d 4), <- (buffer_same d 5) by lia.
  pose proof (buffer_nth d 5) as A. pose proof (buffer_nth d 6) as B.
  destruct r as [t|t|t|t|t|t]; cbn [looks_like] in H.
  - destruct H as (size&pad&tail&L&E&F). rewrite E in *. unfold word in *. cbn [nth app] in *. split; [apply B; discriminate|].
    unfold lenN. rewrite F, app_length, firstn_length, repeat_length. pose proof (N.div_mod' size 256). lia.
  - destruct H as (rest&E). rewrite E in *. split; [apply B; discriminate|reflexivity].
  - destruct H as (rest&x&y&_&E). rewrite E in *. split; [apply B; discriminate|reflexivity].
  - destruct H as (rest&E). rewrite E in *. split; [apply A; discriminate|reflexivity].
  - destruct H as (rest&E). rewrite E in *. split; [apply A; discriminate|reflexivity].
  - exact H.
Qed.

(** ** C26 *)
Lemma group_flagged p dest t pkt : wf_addr dest -> ldata_req_packet p (ldata_req_new dest t) = Ok pkt ->
  N.testbit (nth 3 pkt 0) 7 = true.
Proof. intros H E. eapply req_control2; [|exact E]. apply addr_to_u16_bound, H. Qed.

(** ** C68 *)
Lemma taken_returns c start ls tr s p n t d q :
  exec c start ls tr s -> tr = p ++ (n, EvClRecv t d) :: q ->
  exists o r q', q = (n, EvRet t o r) :: q' /\ (o = OStatus \/ o = OMDisconnect).
Proof.
  intros H E. destruct (exec_split _ _ _ _ _ _ _ _ _ H E) as (tr0&s0&l&s1&e1&e2&H0&Hs&->&->&_&(q'&->&_)).
  remember (e1 ++ EvClRecv t d :: e2) as es eqn:E0.
  destruct l; inv_step Hs; cbn [app] in E0;
    try (destruct e1; discriminate E0);
    try (apply one_last in E0; destruct E0 as (->&E0&->); discriminate E0);
    try (apply two_last in E0; destruct E0 as [(->&E0&->)|(->&E0&->)]; try discriminate E0; injection E0 as -> <-).
  all: try (destruct e1 as [|? [|? [|? e1]]]; cbn in E0; try discriminate E0;
            match type of E0 with context [stop_events ?b] => destruct b; try discriminate E0; destruct e1; discriminate E0 end).
  all: cbn [stamp map app]; eexists _, _, q'; split; [reflexivity|auto].
Qed.

(** ** C85 *)
Lemma header_good p b d r : bytes (overwrite b d) -> (4 <= length b)%nat -> run_on (search_response_from_packet p) (overwrite b d) = Ok r ->
  firstn 4 d = firstn (length d) [6; 16; 2; 2].
Proof.
  intros Hb L H. unfold run_on in H. destruct (search_response_from_packet p (overwrite b d)) as [[? rest]| |] eqn:E; try discriminate H. clear H.
  unfold search_response_from_packet, header_from_packet in E. pinv.
  assert (F : firstn 4 (overwrite b d) = [6; 16; 2; 2]).
  { cbn [h_service] in *. repeat match goal with G : (_ =? _) = true |- _ => apply N.eqb_eq in G end. subst.
    match goal with G : overwrite b d = _ |- _ => rewrite G in * end. cbn [firstn].
    match goal with G : read_u16 ?l = Ok (514, _) |- _ => rename G into G1; destruct l as [|u [|v l']] end; [discriminate G1|discriminate G1|].
    injection G1 as G1 _.
    apply bytes_cons in Hb; destruct Hb as [_ Hb]. apply bytes_cons in Hb; destruct Hb as [_ Hb].
    apply bytes_cons in Hb; destruct Hb as [Hu Hb]. apply bytes_cons in Hb; destruct Hb as [Hv _].
    unfold byte in *. replace u with 2 by lia. replace v with 2 by lia. reflexivity. }
  unfold overwrite in F. rewrite firstn_app, firstn_firstn, Nat.min_l in F by exact L.
  destruct d as [|d0 [|d1 [|d2 [|d3 d]]]]; cbn in F |- *; rewrite ?firstn_nil; try reflexivity; congruence.
Qed.
Lemma overwrite_bytes b d : bytes b -> bytes d -> bytes (overwrite b d).
Proof. intros Hb Hd. apply bytes_app; split; [apply bytes_firstn|apply bytes_skipn]; assumption. Qed.
Lemma loop_headers p b acc ds e rs : bytes b -> (4 <= length b)%nat -> Forall bytes ds ->
  search_loop p b acc (received ds ++ SElapsed :: e) = Some (Ok rs) -> Forall (fun d => firstn 4 d = firstn (length d) [6; 16; 2; 2]) ds.
Proof.
  revert b acc. induction ds as [|d ds IH]; intros b acc Hb L F H; [constructor|]. inversion_clear F as [|? ? Fd Fs].
  cbn [received map app search_loop] in H. destruct (run_on _ _) as [r| |] eqn:E; try discriminate H.
  pose proof (overwrite_bytes _ _ Hb Fd) as Ho. constructor; [exact (header_good _ _ _ _ Ho L E)|].
  eapply IH; [exact Ho| |exact Fs|exact H]. rewrite overwrite_length. exact L.
Qed.
Lemma search_headers p ds e rs : Forall bytes ds ->
  search p (received ds ++ SElapsed :: e) = Some (Ok rs) -> Forall (fun d => firstn 4 d = firstn (length d) [6; 16; 2; 2]) ds.
Proof. intros F H. eapply loop_headers; [| |exact F|exact H]; [apply bytes_zeros|rewrite repeat_length; lia]. Qed.
