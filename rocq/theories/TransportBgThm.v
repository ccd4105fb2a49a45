(** Theorems about the background task. *)
From Verif Require Import Base Addresses Apdu Tunneling Emi Core Transport Wire Spec BaseProofs CoreProofs EmiProofs
  ResponseProofs CodecMore TraceSpec
  TransportBase TransportInv TransportConn TransportCalls TransportReturn TransportThm TransportBg.
From Coq Require Import Lia ZifyBool ZifyNat ZifyN.
Open Scope N_scope.

(** ** Datagrams *)
Lemma connp_eq : connp = connection_datagram. Proof. reflexivity. Qed.
Lemma featp_eq ch : featp ch = feature_datagram ch. Proof. reflexivity. Qed.
Lemma ackp_eq ch seq : ackp ch seq = ack_datagram ch seq. Proof. reflexivity. Qed.
Lemma statep_eq ch ep : wf_hpai ep -> statep ch ep = state_datagram ch ep.
Proof. intro H. unfold statep. rewrite connstate_request_frame by exact H. reflexivity. Qed.
Lemma service_state ch ep : service (statep ch ep) = 0x0207.
Proof. reflexivity. Qed.

(** What the receive loop does, by the form of the datagram. *)
Lemma dispatch_spec d :
  bytes d ->
  match dispatch d with
  | BRecv => d = [] \/ (exists a, looks_like (recv_buffer d) (RTunAck a)) \/
             (exists s, looks_like (recv_buffer d) (RConnState s) /\ ss_status s = 0)
  | BAck ch seq (Some k) => exists t, looks_like (recv_buffer d) (RTunReq t) /\ tr_chan t = ch /\ tr_seq t = seq /\ tr_cemi t = k
  | BAck ch seq None => exists f, looks_like (recv_buffer d) (RFeature f) /\ fr_chan f = ch /\ fr_seq f = seq
  | BClear => (exists s, looks_like (recv_buffer d) (RConnState s) /\ ss_status s <> 0) \/
              (forall r, ~ looks_like (recv_buffer d) r)
  | BEnded => exists s, looks_like (recv_buffer d) (RDiscResp s)
  | BPanicked => exists size chan seq pad rest, size < 10 /\
      recv_buffer d = [0x06; 0x10] ++ word 0x0420 ++ word size ++ [4; chan; seq; pad] ++ rest
  | _ => False
  end.
Proof.
  intro Hb. pose proof (recv_buffer_bytes _ Hb) as Hr. unfold dispatch. destruct d as [|x d]; [auto|].
  destruct (parse_response (recv_buffer (x :: d))) as [r| |] eqn:E.
  - apply parse_response_iff in E; [|exact Hr].
    destruct r as [t|a|f|s|s|r].
    + exists t. auto.
    + right. left. exists a. auto.
    + exists f. auto.
    + destruct (N.eqb_spec (ss_status s) 0).
      * right. right. exists s. auto.
      * left. exists s. auto.
    + exists s. auto.
    + destruct E.
  - right. intros r H. apply parse_response_iff in H; [|exact Hr]. congruence.
  - apply parse_response_panic_iff; assumption.
Qed.
Lemma looks_like_unique bs r r' : bytes bs -> looks_like bs r -> looks_like bs r' -> r = r'.
Proof.
  intros Hb H H'. apply parse_response_iff in H; [|exact Hb]. apply parse_response_iff in H'; [|exact Hb]. congruence.
Qed.
Lemma dispatch_of d r :
  bytes d -> looks_like (recv_buffer d) r ->
  dispatch d = match r with
               | RTunReq t => BAck (tr_chan t) (tr_seq t) (Some (tr_cemi t))
               | RTunAck _ => BRecv
               | RFeature f => BAck (fr_chan f) (fr_seq f) None
               | RConnState s => if ss_status s =? 0 then BRecv else BClear
               | RDiscResp _ => BEnded
               | RDiscReq r => BDiscSend r
               end.
Proof.
  intros Hb H. pose proof (recv_buffer_bytes _ Hb) as Hr. apply parse_response_iff in H; [|exact Hr].
  unfold dispatch. destruct d as [|x d]; [discriminate H|]. rewrite H. destruct r; reflexivity.
Qed.
Lemma dispatch_bad d :
  bytes d -> d <> [] -> (forall r, ~ looks_like (recv_buffer d) r) ->
  (forall size chan seq pad rest, size < 10 ->
     recv_buffer d <> [0x06; 0x10] ++ word 0x0420 ++ word size ++ [4; chan; seq; pad] ++ rest) ->
  dispatch d = BClear.
Proof.
  intros Hb Hne H H'. pose proof (recv_buffer_bytes _ Hb) as Hr. unfold dispatch. destruct d as [|x d]; [congruence|].
  destruct (parse_response (recv_buffer (x :: d))) as [r| |] eqn:E; [|reflexivity|].
  - apply parse_response_iff in E; [|exact Hr]. destruct (H _ E).
  - apply parse_response_panic_iff in E; [|exact Hr]. destruct E as (size&chan&seq&pad&rest&L&E).
    destruct (H' _ _ _ _ _ L E).
Qed.

Lemma in_bg_events e tr : bg_event e = true -> (In e (bg_events tr) <-> In e (evs tr)).
Proof. intro H. unfold bg_events. rewrite filter_In. tauto. Qed.
Lemma bgrecv_bytes c start ls tr s d :
  exec c start ls tr s -> Forall bytes (arrived tr) -> In (EvBgRecv d) (bg_events tr) -> bytes d.
Proof.
  intros H Hb Hd. apply in_bg_events in Hd; [|reflexivity]. eapply consumed_bytes; eauto. apply consumed_in. auto.
Qed.
Lemma rev_cons_inv A (h : list A) x l : rev h = x :: l -> h = rev l ++ [x].
Proof. intro H. rewrite <- (rev_involutive h), H. reflexivity. Qed.

(** ** Everything the background task sends *)
Lemma step_bg_send c s l s' e1 e2 ok x :
  step c s l = Some (s', e1 ++ send_event ok Bg x :: e2) -> bg_label l = true ->
  e1 = [] /\
  ((s_bg s = BConnSend /\ x = connp) \/ (exists r, s_bg s = BMonEnable r /\ x = featp (cr_chan r)) \/
   (exists ch seq k, s_bg s = BAck ch seq k /\ x = ackp ch seq) \/
   (exists cd, s_bg s = BBeat /\ s_conn s = Some cd /\ x = statep (cd_chan cd) (cd_ep cd)) \/
   (exists r, s_bg s = BDiscSend r)).
Proof.
  intros Hs Hb. remember (e1 ++ send_event ok Bg x :: e2) as es eqn:E.
  assert (B : forall y b, y :: stop_events b = e1 ++ send_event ok Bg x :: e2 -> e1 = [] /\ y = send_event ok Bg x).
  { intros y b Ey. destruct e1 as [|z e1]; cbn in Ey; [injection Ey as -> _; auto|]. injection Ey as -> Ey.
    exfalso. destruct b; cbn in Ey; destruct e1 as [|? [|]]; try discriminate Ey; destruct ok; discriminate Ey. }
  assert (S : forall ok' y, send_event ok' Bg y = send_event ok Bg x -> y = x) by (intros [] y; destruct ok; cbn; congruence).
  destruct l; try discriminate Hb; inv_step Hs; cbn [app] in E;
    try (destruct e1; discriminate E);
    try (apply B in E; destruct E as (->&E); try (destruct ok; discriminate E));
    try (apply one_last in E; destruct E as (->&E&->); try (destruct ok; discriminate E));
    try (apply two_last in E; destruct E as [(->&E&->)|(->&E&->)]; try (destruct ok; discriminate E));
    (split; [reflexivity|]); try (destruct ok; cbn [send_event] in E; try discriminate E;
      apply (f_equal (fun e => match e with EvSend _ d | EvSendFail _ d => d | _ => [] end)) in E; cbv beta iota in E; subst x).
  all: first [left; split; reflexivity
    | right; left; eexists; split; reflexivity
    | right; right; left; eexists _, _, _; split; reflexivity
    | right; right; right; left; eexists; split; [reflexivity|split; [first [reflexivity|eassumption]|reflexivity]]
    | right; right; right; right; eexists; reflexivity ].
Qed.
Lemma bg_send c start ls tr s a b ok x :
  exec c start ls tr s -> Forall bytes (arrived tr) -> bg_events tr = a ++ send_event ok Bg x :: b ->
  (x = connection_datagram /\ (a = [] \/ exists a' e, a = a' ++ [e] /\
     (e = EvCleared \/ e = EvSend Bg connection_datagram \/ e = EvSendFail Bg connection_datagram \/
      (exists d, e = EvConnRecv d) \/ (c_mode c = MMonitor /\ exists ch, e = EvSendFail Bg (feature_datagram ch))))) \/
  (c_mode c = MMonitor /\ exists a' d ch ep, a = a' ++ [EvConnRecv d] /\ grants d ch ep /\ x = feature_datagram ch) \/
  (exists a' d ch seq, a = a' ++ [EvBgRecv d] /\ x = ack_datagram ch seq /\
     ((exists t, looks_like (recv_buffer d) (RTunReq t) /\ tr_chan t = ch /\ tr_seq t = seq) \/
      (exists f, looks_like (recv_buffer d) (RFeature f) /\ fr_chan f = ch /\ fr_seq f = seq))) \/
  (exists a' l d ch ep, a = a' ++ EvTick :: l /\ (l = [] \/ exists m, l = [EvLost m]) /\
     In (EvConnRecv d) a' /\ grants d ch ep /\ x = state_datagram ch ep).
Proof.
  intros H Hb E. destruct (bg_split _ _ _ _ _ _ _ _ H E) as (tr0&s0&l&s1&e1&e2&H0&Hs&Hl&->&_&H1&q&Eq&_).
  destruct (step_bg_send _ _ _ _ _ _ _ _ Hs Hl) as (->&Hc). rewrite app_nil_r in *.
  pose proof (bg_hist _ _ _ _ _ H0) as Hh.
  assert (Hb0 : Forall bytes (arrived tr0)).
  { rewrite Eq in Hb. apply arrived_prefix in Hb. apply arrived_prefix in Hb. exact Hb. }
  destruct Hc as [(Hc&->)|[(r&Hc&->)|[(ch&seq&k&Hc&->)|[(cd&Hc&Hcd&->)|(r&Hc)]]]]; rewrite Hc in Hh; cbn [bg_ok] in Hh.
  - left. split; [apply connp_eq|]. destruct Hh as [[Hh|[(h'&Hh)|(Hm&ch&h'&Hh)]]|[(d&h'&Hh&_)|[(h'&Hh)|(h'&Hh)]]].
    + left. rewrite <- (rev_involutive (bg_events tr0)), Hh. reflexivity.
    + right. apply rev_cons_inv in Hh. eauto 6.
    + right. apply rev_cons_inv in Hh. rewrite featp_eq in Hh. eauto 12.
    + right. apply rev_cons_inv in Hh. eauto 12.
    + right. apply rev_cons_inv in Hh. rewrite connp_eq in Hh. eauto 12.
    + right. apply rev_cons_inv in Hh. rewrite connp_eq in Hh. eauto 12.
  - right. left. destruct Hh as (Hm&d&h'&Hh&Ha). split; [exact Hm|]. apply rev_cons_inv in Hh.
    exists (rev h'), d, (cr_chan r), (cr_endpoint r). split; [exact Hh|]. split; [|apply featp_eq].
    apply accept_grants; [|exact Ha]. eapply consumed_bytes; [exact H0|exact Hb0|]. apply consumed_in. left.
    apply in_bg_events; [reflexivity|]. rewrite Hh. apply in_or_app. right. left. reflexivity.
  - right. right. left. destruct Hh as (d&h'&Hh&Hd). apply rev_cons_inv in Hh.
    exists (rev h'), d, ch, seq. split; [exact Hh|]. split; [apply ackp_eq|].
    assert (Bd : bytes d).
    { eapply bgrecv_bytes; [exact H0|exact Hb0|]. rewrite Hh. apply in_or_app. right. left. reflexivity. }
    pose proof (dispatch_spec _ Bd) as D. rewrite Hd in D. destruct k; [left|right].
    + destruct D as (t&D1&D2&D3&_). eauto.
    + exact D.
  - right. right. right. pose proof (proj2 (granted_inv _ _ _ _ _ H0) _ Hcd) as G.
    destruct (granted_grants _ _ _ _ _ _ _ H0 Hb0 G) as (d&Hd&Hg).
    apply in_bg_events in Hd; [|reflexivity].
    destruct Hh as (h'&Hh).
    assert (exists l, bg_events tr0 = rev h' ++ EvTick :: l /\ (l = [] \/ exists m, l = [EvLost m])) as (l'&El&Hl').
    { destruct Hh as [Hh|(m&Hh)].
      - exists []. apply rev_cons_inv in Hh. auto.
      - exists [EvLost m]. apply rev_cons_inv in Hh. cbn in Hh. rewrite <- app_assoc in Hh. eauto. }
    exists (rev h'), l', d, (cd_chan cd), (cd_ep cd). split; [exact El|]. split; [exact Hl'|].
    split; [|split; [exact Hg|apply statep_eq; eapply grants_wf, Hg]].
    rewrite El in Hd. apply in_app_or in Hd. destruct Hd as [Hd|[Hd|Hd]]; [exact Hd|discriminate Hd|].
    destruct Hl' as [-> |(m&->)]; cbn in Hd; intuition discriminate.
  - exfalso. destruct Hh as (d&h'&Hh&Hd). apply rev_cons_inv in Hh.
    assert (Bd : bytes d).
    { eapply bgrecv_bytes; [exact H0|exact Hb0|]. rewrite Hh. apply in_or_app. right. left. reflexivity. }
    pose proof (dispatch_spec _ Bd) as D. rewrite Hd in D. exact D.
Qed.

Lemma bg_prefix_bytes c start ls tr s a e b tr0 s0 l s1 e1 e2 q :
  Forall bytes (arrived tr) -> tr = (tr0 ++ stamp (s_now s0) (e1 ++ e :: e2)) ++ q ->
  exec c start ls tr s -> bg_events tr = a ++ e :: b -> step c s0 l = Some (s1, e1 ++ e :: e2) -> Forall bytes (arrived tr0).
Proof. intros Hb Eq _ _ _. rewrite Eq in Hb. apply arrived_prefix in Hb. apply arrived_prefix in Hb. exact Hb. Qed.

(** ** Hand-over *)
Lemma step_enq c s l s' e1 e2 m :
  step c s l = Some (s', e1 ++ EvEnq m :: e2) -> e1 = [] /\ s_bg s = BEnq m /\ s_rx_alive s = true.
Proof.
  intro Hs. remember (e1 ++ EvEnq m :: e2) as es eqn:E.
  assert (B : forall y b, y :: stop_events b = e1 ++ EvEnq m :: e2 -> y = EvEnq m).
  { intros y b Ey. destruct e1 as [|z e1]; cbn in Ey; [injection Ey as -> _; auto|]. injection Ey as -> Ey.
    exfalso. destruct b; cbn in Ey; destruct e1 as [|? [|]]; try discriminate Ey. }
  destruct l; inv_step Hs; cbn [app] in E;
    try (destruct e1; discriminate E);
    try (apply B in E; discriminate E);
    try (apply one_last in E; destruct E as (->&E&->); try discriminate E);
    try (apply two_last in E; destruct E as [(->&E&->)|(->&E&->)]; try discriminate E).
  injection E as <-. repeat split; assumption || reflexivity.
Qed.
Lemma delivered_acked c start ls tr s a m b :
  exec c start ls tr s -> Forall bytes (arrived tr) -> bg_events tr = a ++ EvEnq m :: b ->
  exists a' d t, a = a' ++ [EvBgRecv d; EvSend Bg (ack_datagram (tr_chan t) (tr_seq t))] /\
    looks_like (recv_buffer d) (RTunReq t) /\ run_on (cemi_from_packet (c_prof c)) (tr_cemi t) = Ok m.
Proof.
  intros H Hb E. destruct (bg_split _ _ _ _ _ _ _ _ H E) as (tr0&s0&l&s1&e1&e2&H0&Hs&Hl&->&_&H1&q&Eq&_).
  destruct (step_enq _ _ _ _ _ _ _ Hs) as (->&Hc&_). rewrite app_nil_r in *.
  pose proof (bg_hist _ _ _ _ _ H0) as Hh. rewrite Hc in Hh. destruct Hh as (d&ch&seq&bs&h'&Hh&Hd&Hm).
  apply rev_cons_inv in Hh. cbn [rev] in Hh. rewrite <- app_assoc in Hh.
  pose proof (bg_prefix_bytes _ _ _ _ _ _ _ _ _ _ _ _ [] _ _ Hb Eq H E Hs) as Hb0.
  assert (Bd : bytes d).
  { eapply bgrecv_bytes; [exact H0|exact Hb0|]. rewrite Hh. apply in_or_app. right. left. reflexivity. }
  pose proof (dispatch_spec _ Bd) as D. rewrite Hd in D. destruct D as (t&D1&<-&<-&<-).
  exists (rev h'), d, t. rewrite <- ackp_eq. auto.
Qed.

(** What becomes of an acknowledged message that can be decoded. *)
Lemma acked_state c start ls tr s a d t m :
  exec c start ls tr s -> Forall bytes (arrived tr) ->
  bg_events tr = a ++ [EvBgRecv d; EvSend Bg (ack_datagram (tr_chan t) (tr_seq t))] ->
  looks_like (recv_buffer d) (RTunReq t) -> run_on (cemi_from_packet (c_prof c)) (tr_cemi t) = Ok m ->
  s_bg s = BEnq m \/ (s_rx_alive s = false /\ s_bg s = BClear).
Proof.
  intros H Hb E Hd Hm. pose proof (bg_hist _ _ _ _ _ H) as Hh. rewrite E, rev_app_distr in Hh. cbn [rev app] in Hh.
  assert (Bd : bytes d).
  { eapply bgrecv_bytes; [exact H|exact Hb|]. rewrite E. apply in_or_app. right. left. reflexivity. }
  pose proof (dispatch_of _ _ Bd Hd) as Dd. cbn in Dd. rewrite <- ackp_eq in Hh.
  assert (K : forall ch seq, ackp (tr_chan t) (tr_seq t) = ackp ch seq -> tr_chan t = ch /\ tr_seq t = seq).
  { intros ch seq Ek. split; [apply (f_equal (fun l => nth 7 l 0)) in Ek|apply (f_equal (fun l => nth 8 l 0)) in Ek]; exact Ek. }
  assert (S1 : forall ch ep, ackp (tr_chan t) (tr_seq t) <> statep ch ep).
  { intros ch ep Es. apply (f_equal service) in Es. discriminate Es. }
  assert (S2 : forall ch, ackp (tr_chan t) (tr_seq t) <> featp ch).
  { intros ch Es. apply (f_equal service) in Es. discriminate Es. }
  assert (S3 : ackp (tr_chan t) (tr_seq t) <> connp).
  { intros Es. apply (f_equal service) in Es. discriminate Es. }
  assert (R : at_recv c (EvSend Bg (ackp (tr_chan t) (tr_seq t)) :: EvBgRecv d :: rev a) -> False).
  { intros [(x&h'&Q)|[(x&h'&Q)|[(x&h'&Q)|[(x&h'&Q&_)|[(x&ch&seq&k&h'&Q&Q1&Q2)|[(ch&ep&h'&Q)|(ch&ep&m'&h'&Q)]]]]]];
      try discriminate Q.
    - apply (f_equal (fun l => nth 1 l EvTick)) in Q. cbn in Q. injection Q as ->. rewrite Dd in Q1. injection Q1 as _ _ <-.
      cbn in Q2. rewrite Hm in Q2. discriminate Q2. }
  destruct (s_bg s) eqn:Es; cbn [bg_ok] in Hh; try (exfalso; auto; fail).
  - exfalso. destruct Hh as [Q|[(h'&Q)|(_&ch&h'&Q)]]; discriminate Q.
  - exfalso. destruct Hh as [[Q|[(h'&Q)|(_&ch&h'&Q)]]|[(x&h'&Q&_)|[(h'&Q)|(h'&Q)]]]; discriminate Q.
  - exfalso. destruct Hh as (h'&Q). discriminate Q.
  - exfalso. destruct Hh as [(x&h'&Q&_)|[(h'&Q)|(h'&Q)]]; discriminate Q.
  - exfalso. destruct Hh as (_&x&h'&Q&_). discriminate Q.
  - exfalso. destruct Hh as (x&h'&_&[(_&Q)|(_&Q)]); discriminate Q.
  - exfalso. destruct Hh as (_&cd&h'&Q). destruct active as [|x active] using rev_ind; [discriminate Q|].
    rewrite map_app, rev_app_distr in Q. discriminate Q.
  - exfalso. destruct Hh as (x&h'&Q&_). discriminate Q.
  - left. destruct Hh as (x&ch&seq&bs&h'&Q&Q1&Q2). apply (f_equal (fun l => nth 1 l EvTick)) in Q. cbn in Q. injection Q as ->.
    rewrite Dd in Q1. injection Q1 as _ _ <-. congruence.
  - exfalso. destruct Hh as (x&h'&Q&_). discriminate Q.
  - exfalso. destruct Hh as (h'&[Q|(x&Q)]); discriminate Q.
  - right. destruct Hh as [Q|[(x&h'&Q&_)|[(x&ch&seq&k&h'&Q&_)|[(ch&ep&h'&Q)|[(ch&ep&x&h'&Q)|(Ha&_)]]]]]; auto;
      try discriminate Q. exfalso. auto.
  - exfalso. destruct Hh as [(x&h'&Q&_)|(x&y&r&h'&Q&_)]; discriminate Q.
  - exfalso. destruct Hh as [(x&h'&Q&_)|(x&ch&seq&k&h'&Q&_)]; discriminate Q.
Qed.
Lemma bg_len c s l s' es : step c s l = Some (s', es) -> bg_label l = true -> (length es <= 2)%nat.
Proof.
  intros Hs Hl. destruct l; try discriminate Hl; inv_step Hs; try (match goal with |- context [stop_events ?b] => destruct b end); cbn; lia.
Qed.
Lemma acked_fate c start ls tr s a d t m e b :
  exec c start ls tr s -> Forall bytes (arrived tr) ->
  bg_events tr = a ++ [EvBgRecv d; EvSend Bg (ack_datagram (tr_chan t) (tr_seq t))] ++ e :: b ->
  looks_like (recv_buffer d) (RTunReq t) -> run_on (cemi_from_packet (c_prof c)) (tr_cemi t) = Ok m ->
  e = EvEnq m \/ (e = EvTick /\ exists b', b = EvLost m :: b') \/ (e = EvCleared /\ s_rx_alive s = false).
Proof.
  intros H Hb E Hd Hm. rewrite app_assoc in E.
  destruct (bg_split _ _ _ _ _ _ _ _ H E) as (tr0&s0&l&s1&e1&e2&H0&Hs&Hl&Ea&(b'&->)&H1&q&Eq&sched&R).
  pose proof (bg_prefix_bytes _ _ _ _ _ _ _ _ _ _ _ _ _ _ _ Hb Eq H E Hs) as Hb0.
  destruct e1 as [|x e1].
  - rewrite app_nil_r in Ea. destruct (acked_state _ _ _ _ _ _ _ _ _ H0 Hb0 (eq_sym Ea) Hd Hm) as [Hs0|(Ha&Hs0)].
    + cbn [app] in Hs. destruct l; try discriminate Hl; cbn [step] in Hs; unfold bg_step, bg_recv_err, bg_timeout, bg_tick in Hs;
        rewrite Hs0 in Hs; try discriminate Hs.
      * break Hs; try discriminate Hs; injection Hs as _ <- <-; auto.
      * destruct (s_hb s0 <=? s_now s0); [|discriminate Hs]. injection Hs as _ <- <-. right. left. cbn. eauto.
    + cbn [app] in Hs. destruct l; try discriminate Hl; cbn [step] in Hs; unfold bg_step, bg_recv_err, bg_timeout, bg_tick in Hs;
        rewrite Hs0 in Hs; try discriminate Hs. injection Hs as Es1 <- <-. right. right. split; [reflexivity|].
      eapply run_dead; [exact R|]. rewrite <- Es1. exact Ha.
  - exfalso. assert (e1 = [] /\ bg_events tr0 = a ++ [EvBgRecv d] /\ x = EvSend Bg (ack_datagram (tr_chan t) (tr_seq t))) as (->&E0&->).
    { assert (length (x :: e1) <= 1)%nat as L.
      { pose proof (bg_len _ _ _ _ _ Hs Hl) as L. rewrite app_length in L. cbn in L |- *. lia. }
      destruct e1; [|cbn in L; lia]. split; [reflexivity|].
      change (a ++ [EvBgRecv d; EvSend Bg (ack_datagram (tr_chan t) (tr_seq t))]) with (a ++ [EvBgRecv d] ++ [EvSend Bg (ack_datagram (tr_chan t) (tr_seq t))]) in Ea.
      rewrite app_assoc in Ea. apply app_inj_tail in Ea. destruct Ea as (<-&<-). auto. }
    pose proof (bg_hist _ _ _ _ _ H0) as Hh. rewrite E0, rev_app_distr in Hh. cbn [rev app] in Hh.
    assert (Bd : bytes d).
    { eapply bgrecv_bytes; [exact H0|exact Hb0|]. rewrite E0. apply in_or_app. right. left. reflexivity. }
    pose proof (dispatch_of _ _ Bd Hd) as Dd. cbn in Dd.
    destruct (step_bg_send _ _ _ _ [] (e :: e2) true _ Hs Hl) as (_&Hc).
    destruct Hc as [(Hc&_)|[(r&Hc&_)|[(ch&seq&k&Hc&Ek)|[(cd&Hc&_)|(r&Hc)]]]]; rewrite Hc in Hh; cbn [bg_ok] in Hh.
    + destruct Hh as [[Q|[(h'&Q)|(_&ch&h'&Q)]]|[(x&h'&Q&_)|[(h'&Q)|(h'&Q)]]]; try discriminate Q.
    + destruct Hh as (_&x&h'&Q&_). discriminate Q.
    + destruct Hh as (x&h'&Q&Q1). injection Q as <- _. rewrite Dd in Q1. injection Q1 as _ _ <-.
      destruct l; try discriminate Hl; cbn [step] in Hs; unfold bg_step, bg_recv_err, bg_timeout, bg_tick in Hs; rewrite Hc in Hs; try discriminate Hs.
      * cbn in Hs. rewrite Hm in Hs. destruct ok; cbn in Hs; discriminate Hs.
      * destruct (s_hb s0 <=? s_now s0); discriminate Hs.
    + destruct Hh as (h'&[Q|(x&Q)]); discriminate Q.
    + destruct Hh as (x&h'&Q&Q1). injection Q as <- _. congruence.
Qed.
