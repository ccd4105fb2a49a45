(** Theorems about the end of the task, silent devices and listeners. *)
From Verif Require Import Base Addresses Apdu Tunneling Emi Core Transport Wire Spec BaseProofs CoreProofs EmiProofs
  ResponseProofs CodecMore TraceSpec
  TransportBase TransportInv TransportConn TransportCalls TransportReturn TransportThm TransportThm2 TransportThm3
  TransportBg TransportBgThm TransportBgThm2.
From Coq Require Import Lia ZifyBool ZifyNat ZifyN.
Open Scope N_scope.

(** ** The end of the task *)
Lemma step_stop c s l s' e1 e e2 :
  step c s l = Some (s', e1 ++ e :: e2) -> e = EvBgEnd \/ e = EvBgPanic ->
  e2 = [] /\ s_bg s' = match e with EvBgEnd => BEnded | _ => BPanicked end.
Proof.
  intros Hs He. remember (e1 ++ e :: e2) as es eqn:E.
  destruct l; inv_step Hs; sys; cbn [app] in E;
    try (match type of E with context [stop_events ?b] => destruct b end);
    destruct e1 as [|? [|? [|]]]; cbn in E; try discriminate E; injection E; intros; subst;
    destruct He; try discriminate; subst; auto.
Qed.
Lemma end_reason c start ls tr s a e b :
  exec c start ls tr s -> Forall bytes (arrived tr) -> bg_events tr = a ++ e :: b ->
  match e with
  | EvBgEnd => b = [] /\ exists a' d r, a = a' ++ [EvBgRecv d] /\ looks_like (recv_buffer d) (RDiscResp r)
  | EvBgPanic => b = [] /\
      ((exists a' d size chan seq pad rest, a = a' ++ [EvBgRecv d] /\ size < 10 /\
          recv_buffer d = [0x06; 0x10] ++ word 0x0420 ++ word size ++ [4; chan; seq; pad] ++ rest) \/
       (exists a' d t, a = a' ++ [EvBgRecv d; EvSend Bg (ack_datagram (tr_chan t) (tr_seq t))] /\
          looks_like (recv_buffer d) (RTunReq t) /\ cemi_from_packet (c_prof c) (tr_cemi t) = Panic))
  | _ => True
  end.
Proof.
  intros H Hb E.
  assert (G : e = EvBgEnd \/ e = EvBgPanic -> exists tr1 s1, exec c start ls tr1 s1 /\ bg_events tr1 = a ++ [e] /\
     s_bg s1 = match e with EvBgEnd => BEnded | _ => BPanicked end /\ Forall bytes (arrived tr1) /\
     exists q sched, bg_events q = b /\ run c s1 sched = Some (s, q)).
  { intro He. destruct (bg_split _ _ _ _ _ _ _ _ H E) as (tr0&s0&l&s1&e1&e2&H0&Hs&Hl&Ea&_&H1&q&Eq&sched&R).
    destruct (step_stop _ _ _ _ _ _ _ Hs He) as (->&Hp).
    assert (Eb : bg_events (tr0 ++ stamp (s_now s0) (e1 ++ [e])) = a ++ [e]).
    { rewrite bg_events_app, bg_events_stamp, (step_bg_events_all _ _ _ _ _ Hs Hl), Ea, app_assoc. reflexivity. }
    exists (tr0 ++ stamp (s_now s0) (e1 ++ [e])), s1. split; [exact H1|]. split; [exact Eb|]. split; [exact Hp|].
    split; [rewrite Eq in Hb; eapply arrived_prefix, Hb|]. exists q, sched. split; [|exact R].
    rewrite Eq, bg_events_app, Eb, <- app_assoc in E. apply app_inv_head in E. injection E as ->. reflexivity. }
  assert (S : forall s1 sched q, run c s1 sched = Some (s, q) -> bg_gone s1 = true -> bg_events q = []).
  { clear. intros s1 sched. revert s1. induction sched as [|l sched IH]; intros s1 q R Hg; cbn in R.
    - injection R as _ <-. reflexivity.
    - destruct (step c s1 l) as [[s2 es]|] eqn:Es; [|discriminate].
      destruct (run c s2 sched) as [[s3 tr2]|] eqn:E2; [|discriminate]. injection R as -> <-.
      rewrite bg_events_app, bg_events_stamp. destruct (bg_label l) eqn:Hl.
      + exfalso. unfold bg_gone in Hg. destruct l; try discriminate Hl; cbn [step] in Es; unfold bg_step, bg_recv_err, bg_timeout, bg_tick in Es;
          destruct (s_bg s1); discriminate.
      + rewrite (step_bg_events _ _ _ _ _ Es Hl). cbn. eapply IH; [exact E2|]. unfold bg_gone in *.
        destruct (call_label l) as [t|] eqn:Hc.
        * destruct (call_frame _ _ _ _ _ _ Es Hc) as (_&_&_&->&_). exact Hg.
        * destruct (env_frame _ _ _ _ _ Es Hl Hc) as (_&_&->&_). exact Hg. }
  destruct e; try exact I.
  - destruct (G (or_introl eq_refl)) as (tr1&s1&H1&E1&Hp&Hb1&q&sched&<-&R).
    split; [eapply S; [exact R|unfold bg_gone; rewrite Hp; reflexivity]|].
    pose proof (bg_hist _ _ _ _ _ H1) as Hh. rewrite Hp, E1, rev_app_distr in Hh. cbn [rev app bg_ok] in Hh.
    assert (Bd : forall d, In (EvBgRecv d) (a ++ [EvBgEnd]) -> bytes d).
    { intros d Hd. eapply bgrecv_bytes; [exact H1|exact Hb1|]. rewrite E1. exact Hd. }
    destruct Hh as [(d&h'&Hh&Hd)|(x&d&r&h'&Hh&Hd)].
    + injection Hh as Hh. apply rev_cons_inv in Hh. rewrite Hh in Bd. rewrite <- app_assoc in Bd.
      pose proof (dispatch_spec d (Bd d (in_mid _ _ _ _))) as D. rewrite Hd in D. destruct D as (r&D). eauto 6.
    + exfalso. injection Hh as Hh. apply rev_cons_inv in Hh. cbn [rev] in Hh. rewrite Hh in Bd. rewrite <- !app_assoc in Bd.
      pose proof (dispatch_spec d (Bd d (in_mid _ _ _ _))) as D. rewrite Hd in D. exact D.
  - destruct (G (or_intror eq_refl)) as (tr1&s1&H1&E1&Hp&Hb1&q&sched&<-&R).
    split; [eapply S; [exact R|unfold bg_gone; rewrite Hp; reflexivity]|].
    pose proof (bg_hist _ _ _ _ _ H1) as Hh. rewrite Hp, E1, rev_app_distr in Hh. cbn [rev app bg_ok] in Hh.
    assert (Bd : forall d, In (EvBgRecv d) (a ++ [EvBgPanic]) -> bytes d).
    { intros d Hd. eapply bgrecv_bytes; [exact H1|exact Hb1|]. rewrite E1. exact Hd. }
    destruct Hh as [(d&h'&Hh&Hd)|(d&ch&seq&k&h'&Hh&Hd&Hk)].
    + left. injection Hh as Hh. apply rev_cons_inv in Hh. rewrite Hh in Bd. rewrite <- app_assoc in Bd.
      pose proof (dispatch_spec d (Bd d (in_mid _ _ _ _))) as D. rewrite Hd in D.
      destruct D as (size&chan&seq&pad&rest&D1&D2). exists (rev h'), d, size, chan, seq, pad, rest. auto.
    + right. apply (f_equal (@rev event)) in Hh. cbn [rev] in Hh. rewrite rev_involutive, <- !app_assoc in Hh. cbn [app] in Hh.
      change [EvBgRecv d; EvSend Bg (ackp ch seq); EvBgPanic] with ([EvBgRecv d; EvSend Bg (ackp ch seq)] ++ [EvBgPanic]) in Hh.
      rewrite app_assoc in Hh. apply app_inj_tail in Hh. destruct Hh as (Hh&_). rewrite Hh in Bd. rewrite <- app_assoc in Bd. cbn [app] in Bd.
      pose proof (dispatch_spec d (Bd d (in_mid _ _ _ _))) as D. rewrite Hd in D.
      destruct k as [bs|]; [|discriminate Hk]. destruct D as (t&D&<-&<-&<-). exists (rev h'), d, t. rewrite <- ackp_eq.
      split; [exact Hh|]. split; [exact D|]. cbn in Hk. unfold run_on in Hk.
      destruct (cemi_from_packet (c_prof c) (tr_cemi t)) as [[? ?]| |]; try discriminate Hk. reflexivity.
Qed.

(** ** Once stopped *)
Lemma gone_step c s l s' es :
  step c s l = Some (s', es) -> bg_gone s = true ->
  s_bg s' = s_bg s /\ filter bg_event es = [] /\
  (s_conn s' = s_conn s \/ exists cd, s_conn s = Some cd /\
     s_conn s' = Some {| cd_chan := cd_chan cd; cd_ep := cd_ep cd; cd_seq := (cd_seq cd + 1) mod 256 |}).
Proof.
  intros Hs Hg. destruct (bg_label l) eqn:Hl.
  - exfalso. unfold bg_gone in Hg. destruct l; try discriminate Hl; cbn [step] in Hs; unfold bg_step, bg_recv_err, bg_timeout, bg_tick in Hs;
      destruct (s_bg s); discriminate.
  - rewrite (step_bg_events _ _ _ _ _ Hs Hl). destruct (call_label l) as [t|] eqn:Hc.
    + destruct (call_frame _ _ _ _ _ _ Hs Hc) as (_&_&_&->&_). repeat split.
      destruct (call_conn _ _ _ _ _ _ Hs Hc) as [(E&_)|(cd&E1&E2&_)]; eauto.
    + destruct (env_frame _ _ _ _ _ Hs Hl Hc) as (->&_&->&_). auto.
Qed.
Lemma gone_run c s sched s' tr :
  run c s sched = Some (s', tr) -> bg_gone s = true ->
  s_bg s' = s_bg s /\ bg_events tr = [] /\
  option_map (fun cd => (cd_chan cd, cd_ep cd)) (s_conn s') = option_map (fun cd => (cd_chan cd, cd_ep cd)) (s_conn s).
Proof.
  revert s tr. induction sched as [|l sched IH]; intros s tr R Hg; cbn in R.
  - injection R as <- <-. auto.
  - destruct (step c s l) as [[s1 es]|] eqn:E; [|discriminate].
    destruct (run c s1 sched) as [[s2 tr2]|] eqn:E2; [|discriminate]. injection R as <- <-.
    destruct (gone_step _ _ _ _ _ E Hg) as (G1&G2&G3).
    assert (Hg1 : bg_gone s1 = true) by (unfold bg_gone in *; rewrite G1; exact Hg).
    destruct (IH _ _ E2 Hg1) as (I1&I2&I3). rewrite bg_events_app, bg_events_stamp, G2, I2, I1, I3. repeat split; auto.
    destruct G3 as [->|(cd&->&->)]; reflexivity.
Qed.
Lemma gone_after_event c start ls tr s :
  exec c start ls tr s -> In EvBgEnd (evs tr) \/ In EvBgPanic (evs tr) -> bg_gone s = true /\ s_conn s <> None.
Proof.
  intros H Hi.
  assert (G : bg_gone s = true).
  { revert Hi. pattern tr, s. revert tr s H. apply exec_inv; [cbn; tauto|].
    intros tr s l s' es H IH Hs Hi. rewrite evs_app, evs_stamp, !in_app_iff in Hi.
    assert (K : In EvBgEnd (evs tr) \/ In EvBgPanic (evs tr) -> bg_gone s' = true).
    { intro K. specialize (IH K). destruct (gone_step _ _ _ _ _ Hs IH) as (E&_). unfold bg_gone in *. rewrite E. exact IH. }
    destruct Hi as [[Hi|Hi]|[Hi|Hi]]; auto; apply in_split in Hi; destruct Hi as (e1&e2&->);
      destruct (step_stop _ _ _ _ _ _ _ Hs ltac:(auto)) as (_&E); unfold bg_gone; rewrite E; reflexivity. }
  split; [exact G|]. intro N. apply (conn_inv _ _ _ _ _ H) in N. unfold bg_gone in G. destruct (s_bg s); discriminate.
Qed.
Lemma still_connected_refuting c start ls tr s p n t r q :
  exec c start ls tr s -> tr = p ++ (n, EvRet t OIsConnected r) :: q ->
  In EvBgEnd (evs p) \/ In EvBgPanic (evs p) -> r = RBool true.
Proof.
  intros H E Hi. destruct (ret_hist _ _ _ _ _ _ _ _ _ _ _ H E) as (h&cur&tr0&s0&e1&_&_&Hh&Hs&H0&->&->).
  inversion Hs; subst; cbn [stamp map] in Hi; rewrite ?app_nil_r in Hi;
    try (match goal with G : s_clients s0 t = _ |- _ => rewrite G in Hh; cbn [hist] in Hh end;
         repeat match goal with G : _ \/ _ |- _ => destruct G | G : exists _, _ |- _ => destruct G | G : _ /\ _ |- _ => destruct G end;
         try discriminate; contradiction).
  destruct (gone_after_event _ _ _ _ _ H0 Hi) as (_&N). destruct (s_conn s0); [reflexivity|congruence].
Qed.
Lemma closed_queue c s t o dl ok :
  s_rx_alive s = true -> bg_gone s = true -> s_clients s t = CWaitQ o dl -> s_rxq s = [] ->
  exists s', step c s (LCl t ok) = Some (s', [EvRet t o (RErr EClosed)]).
Proof.
  intros Ha Hg Hp Hq. cbn [step]. rewrite Ha. unfold cl_step. rewrite Hp, Hq, Hg. unfold finish. cbn. eauto.
Qed.

(** ** A device's disconnect request *)
Lemma disconnect_dispatch rest : bytes rest -> dispatch ([0x06; 0x10; 0x02; 0x09] ++ rest) = BClear.
Proof.
  intro Hb. apply dispatch_bad.
  - apply bytes_app. split; [repeat constructor|exact Hb].
  - discriminate.
  - intros r Hr. unfold recv_buffer in Hr. cbn [firstn app] in Hr.
    destruct r; cbn [looks_like] in Hr; repeat match goal with G : exists _, _ |- _ => destruct G | G : _ /\ _ |- _ => destruct G end;
      try contradiction; discriminate.
  - intros size chan seq pad rest' L Hr. unfold recv_buffer in Hr. cbn in Hr. discriminate Hr.
Qed.

(** ** A silent device *)
Definition listening (s : sys) : Prop := s_conn s <> None /\ s_inbox s = [] /\ (s_bg s = BRecv \/ s_bg s = BBeat).
Lemma silent_step c s l s' es :
  step c s l = Some (s', es) -> undisturbed l = true -> listening s -> listening s' /\ ~ In EvCleared es.
Proof.
  intros Hs Hu (H1&H2&H3). destruct (bg_label l) eqn:Hl.
  - destruct H3 as [H3|H3]; destruct l as [| |[]| | | | | | | | | | | |]; try discriminate Hl; try discriminate Hu;
      cbn [step] in Hs; unfold bg_step, bg_recv_err, bg_timeout, bg_tick in Hs; rewrite H3 in Hs; rewrite ?H2 in Hs; try discriminate Hs.
    + destruct (s_hb s <=? s_now s); [|discriminate Hs]. injection Hs as <- <-.
      split; [split; [exact H1|split; [exact H2|right; reflexivity]]|]. cbn. intuition discriminate.
    + destruct (s_conn s) as [cd|] eqn:E; [|congruence]. injection Hs as <- <-.
      split; [split; [cbn; congruence|split; [exact H2|left; reflexivity]]|]. cbn. intuition discriminate.
  - destruct (call_label l) as [t|] eqn:Hc.
    + assert (E2 : s_inbox s' = []).
      { pose proof (step_inbox _ _ _ _ _ Hs) as E. rewrite H2 in E. cbn [app] in E.
        destruct (call_frame _ _ _ _ _ _ Hs Hc) as (_&_&_&_&_&_&_&F).
        assert (A : arrived (stamp (s_now s) es) = []).
        { unfold arrived, stamp. clear - F. induction es as [|e es IH]; [reflexivity|]. cbn in F. apply andb_prop in F. destruct F as [F1 F2].
          cbn. rewrite (IH F2). destruct e; try reflexivity. discriminate F1. }
        rewrite A in E. symmetry in E. apply app_eq_nil in E. tauto. }
      destruct (call_frame _ _ _ _ _ _ Hs Hc) as (_&_&_&E&_&_&_&F). split.
      * split; [|split; [exact E2|rewrite E; exact H3]].
        destruct (call_conn _ _ _ _ _ _ Hs Hc) as [(->&_)|(cd&E1&->&_)]; congruence.
      * intro Hi. rewrite forallb_forall in F. specialize (F _ Hi). discriminate F.
    + destruct l; try discriminate Hl; try discriminate Hc; try discriminate Hu; inv_step Hs; sys; unfold listening; sys; cbn; auto.
Qed.
Lemma silent_run c s sched s' tr :
  run c s sched = Some (s', tr) -> forallb undisturbed sched = true -> listening s ->
  listening s' /\ ~ In EvCleared (evs tr).
Proof.
  revert s tr. induction sched as [|l sched IH]; intros s tr R Hu Hl; cbn in R, Hu.
  - injection R as <- <-. auto.
  - apply andb_prop in Hu. destruct Hu as [Hu Hus].
    destruct (step c s l) as [[s1 es]|] eqn:E; [|discriminate].
    destruct (run c s1 sched) as [[s2 tr2]|] eqn:E2; [|discriminate]. injection R as <- <-.
    destruct (silent_step _ _ _ _ _ E Hu Hl) as (Hl1&N). destruct (IH _ _ E2 Hus Hl1) as (Hl2&N2). split; [exact Hl2|].
    rewrite evs_app, evs_stamp, in_app_iff. tauto.
Qed.
(** Heart beats go on for ever, unanswered. *)
Lemma silent_beats c s k :
  listening s -> s_bg s = BRecv ->
  exists sched s' tr, run c s sched = Some (s', tr) /\ forallb undisturbed sched = true /\ listening s' /\ s_bg s' = BRecv /\
    length (filter heartbeat (evs tr)) = k /\ s_rx_alive s' = s_rx_alive s /\ forallb bg_event (evs tr) = true.
Proof.
  revert s. induction k as [|k IH]; intros s Hl Hp.
  - exists [], s, []. auto 9.
  - destruct Hl as (H1&H2&_). destruct (s_conn s) as [cd|] eqn:E; [|congruence].
    set (s1 := set_bg (set_hb (set_now s (s_now s + s_hb s)) (next_tick (s_hb s) (s_now s + s_hb s))) BRecv).
    assert (L1 : listening s1) by (split; [cbn; congruence|split; [exact H2|left; reflexivity]]).
    destruct (IH s1 L1 eq_refl) as (sched&s'&tr&R&U&L&P&C&A&BE).
    exists (LTime (s_hb s) :: LTick :: LBg true :: sched), s',
      ([(s_now s + s_hb s, EvTick); (s_now s + s_hb s, EvSend Bg (statep (cd_chan cd) (cd_ep cd)))] ++ tr).
    split; [|split; [exact U|split; [exact L|split; [exact P|split; [|split; [exact A|exact BE]]]]]].
    + assert (B : s_hb s <=? s_now s + s_hb s = true) by (apply N.leb_le; lia).
      cbn [run]. unfold step at 1. cbn [step]. unfold bg_tick. cbn [s_bg set_now s_hb s_now]. rewrite Hp, B.
      unfold bg_step. cbn [s_bg set_bg s_conn set_hb set_now]. rewrite E. cbn [s_now set_bg set_hb set_now].
      change (set_bg (set_bg _ BBeat) BRecv) with s1. rewrite R. reflexivity.
    + rewrite evs_app, filter_app, app_length, C. cbn [evs map snd filter heartbeat]. rewrite service_state. reflexivity.
Qed.
