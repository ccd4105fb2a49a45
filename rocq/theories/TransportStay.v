(** A device that does nothing wrong keeps its connection. *)
From Verif Require Import Base Addresses Apdu Tunneling Emi Core Transport Wire Spec TraceSpec TraceSpec2 BaseProofs ResponseProofs CodecMore
  TransportBase TransportInv TransportConn TransportCalls TransportReturn TransportThm2 TransportBg TransportBgThm TransportNotify
  TransportOrder TransportMore TransportReads TransportRecover.
From Coq Require Import Lia ZifyBool ZifyNat ZifyN.
Open Scope N_scope.

Lemma looks_same bs r r' : bytes bs -> looks_like bs r -> looks_like bs r' -> r = r'.
Proof.
  intros Hb H1 H2. apply parse_response_iff in H1; [|exact Hb]. apply parse_response_iff in H2; [|exact Hb]. congruence.
Qed.
Lemma nothing_looks r : ~ looks_like (recv_buffer []) r.
Proof.
  destruct r; cbn [looks_like]; intro H; repeat match goal with
    | G : exists _, _ |- _ => destruct G
    | G : _ /\ _ |- _ => destruct G
    end; try contradiction; match goal with G : recv_buffer [] = _ |- _ => discriminate G end.
Qed.
Lemma welcome_harmless p d : bytes d -> welcome p d -> harmless p d.
Proof.
  intros Hb [->|(r&L&W)].
  - split; [intros r H; exact (nothing_looks _ H)|]. split; [intros; discriminate|]. intros _ t H. destruct (nothing_looks _ H).
  - pose proof (recv_buffer_bytes _ Hb) as B. split; [|split].
    + intros r' H. rewrite (looks_same _ _ _ B L H) in W. exact W.
    + intros size chan seq pad rest Hs E. apply parse_response_iff in L; [|exact B].
      assert (P : parse_response (recv_buffer d) = Panic) by (apply parse_response_panic_iff; [exact B|eauto 8]). congruence.
    + intros Hp t H. rewrite (looks_same _ _ _ B L H) in W. exact (W Hp).
Qed.
Lemma welcome_fine p d : bytes d -> welcome p d -> ~ connection_error d.
Proof.
  intros Hb [->|(r&L&W)] [(st&H&Hs)|(Hd&Hn&_)].
  - exact (nothing_looks _ H).
  - congruence.
  - rewrite (looks_same _ _ _ (recv_buffer_bytes _ Hb) L H) in W. contradiction.
  - exact (Hn _ L).
Qed.
Lemma stays c start ls sched s tr :
  run c (init_sys start ls) sched = Some (s, tr) -> forallb no_recv_error sched = true -> Forall bytes (arrived tr) ->
  s_rx_alive s = true -> (forall d, ~ In (EvSendFail Bg d) (evs tr)) -> Forall (welcome (c_prof c)) (received tr) ->
  ~ In EvCleared (evs tr) /\ ~ task_stopped tr.
Proof.
  intros R Hf Hb Ha Hs Hw. pose proof (run_exec _ _ _ _ _ _ R) as H.
  assert (B : forall d, In (EvBgRecv d) (bg_events tr) -> bytes d) by (intros d Hd; eapply bgrecv_bytes; eassumption).
  assert (W : forall d, In (EvBgRecv d) (bg_events tr) -> welcome (c_prof c) d).
  { intros d Hd. rewrite Forall_forall in Hw. apply Hw. rewrite received_bg. apply in_flat_map. exists (EvBgRecv d). split; [exact Hd|left; reflexivity]. }
  split.
  - intro Hc. unfold evs in Hc. apply in_map_iff in Hc. destruct Hc as ((n&e)&E&Hi). cbn in E. subst e.
    apply in_split in Hi. destruct Hi as (p&q&E).
    pose proof (cleared_reason _ _ _ _ _ _ _ _ _ R Hf Hb E) as G. rewrite Ha in G. cbn [negb] in G.
    assert (Sub : forall e, In e (bg_events p) -> In e (bg_events tr)).
    { intros e. unfold bg_events. rewrite !filter_In. intros (Hi&Hg). split; [|exact Hg]. rewrite E. unfold evs in *. rewrite map_app. apply in_or_app. left. exact Hi. }
    assert (Fail : forall d, ~ In (EvSendFail Bg d) (bg_events p)).
    { intros d Hd. apply (Hs d). apply Sub in Hd. apply in_bg_events in Hd; [exact Hd|reflexivity]. }
    destruct G as [(a'&d&E1&Ce)|[(a'&d&ch&sq&E1)|[(a'&x&E1&_)|[(a'&m&x&E1&_)|(F&_)]]]].
    + assert (I : In (EvBgRecv d) (bg_events tr)) by (apply Sub; rewrite E1; apply in_or_app; right; left; reflexivity).
      exact (welcome_fine _ _ (B _ I) (W _ I) Ce).
    + eapply Fail. rewrite E1. apply in_or_app. right. right. left. reflexivity.
    + eapply Fail. rewrite E1. apply in_or_app. right. right. left. reflexivity.
    + eapply Fail. rewrite E1. apply in_or_app. right. right. right. left. reflexivity.
    + discriminate F.
  - apply (keeps_running _ _ _ _ _ H Hb). rewrite Forall_forall. intros d Hd. rewrite received_bg in Hd. apply in_flat_map in Hd.
    destruct Hd as (e&He&Hd). destruct e; try contradiction. destruct Hd as [<-|[]]. apply welcome_harmless; auto.
Qed.

(** ** "Disconnected" is reported only without a connection *)
Lemma told_disconnected c start ls tr s p n t o q :
  exec c start ls tr s -> tr = p ++ (n, EvRet t o (RErr EDisconnected)) :: q -> connected_now p = false.
Proof.
  intros H E. destruct (exec_split _ _ _ _ _ _ _ _ _ H E) as (tr0&s0&l&s1&e1&e2&H0&Hs&->&->&_).
  destruct (ret_cases _ _ _ _ _ _ _ _ _ Hs) as (->&Hl&Hr).
  inversion Hr; subst; cbn [stamp map]; rewrite app_nil_r, (connected_inv _ _ _ _ _ H0);
    match goal with G : s_conn s0 = None |- _ => rewrite G; reflexivity end.
Qed.
Lemma connected_kept a n cd b : ~ In EvCleared (evs b) -> connected_now (a ++ (n, EvConnected cd) :: b) = true.
Proof.
  intro H. rewrite connected_app. cbn [fold_left snd]. induction b as [|[k e] b IH]; [reflexivity|].
  cbn [fold_left snd]. assert (H' : ~ In EvCleared (evs b)) by (intro X; apply H; right; exact X).
  destruct e; try (apply IH, H'). destruct H. left. reflexivity.
Qed.
Lemma stays_told c start ls sched s tr p n t o r q :
  run c (init_sys start ls) sched = Some (s, tr) -> forallb no_recv_error sched = true -> Forall bytes (arrived tr) ->
  s_rx_alive s = true -> (forall d, ~ In (EvSendFail Bg d) (evs tr)) -> Forall (welcome (c_prof c)) (received tr) ->
  tr = p ++ (n, EvRet t o r) :: q -> (exists cd, In (EvConnected cd) (evs p)) -> r <> RErr EDisconnected.
Proof.
  intros R Hf Hb Ha Hs Hw E (cd&Hc) ->. pose proof (run_exec _ _ _ _ _ _ R) as H.
  pose proof (told_disconnected _ _ _ _ _ _ _ _ _ _ H E) as F.
  destruct (stays _ _ _ _ _ _ R Hf Hb Ha Hs Hw) as (Nc&_).
  unfold evs in Hc. apply in_map_iff in Hc. destruct Hc as ((k&e)&Ee&Hi). cbn in Ee. subst e.
  apply in_split in Hi. destruct Hi as (a&b&->). rewrite connected_kept in F; [discriminate F|].
  intro X. apply Nc. rewrite E. unfold evs in *. rewrite !map_app. cbn [map]. apply in_or_app. left. apply in_or_app. right. right. exact X.
Qed.

(** ** One connection only *)
Lemma connects_from_none c start ls tr s : exec c start ls tr s -> connecting (s_bg s) = true -> s_conn s = None.
Proof. intro H. apply (conn_inv _ _ _ _ _ H). Qed.
Lemma step_connected_from c s l s' es cd :
  step c s l = Some (s', es) -> In (EvConnected cd) es -> connecting (s_bg s) = true.
Proof.
  intros Hs Hin. destruct (bg_label l) eqn:Hl.
  2:{ pose proof (step_bg_events _ _ _ _ _ Hs Hl) as F. exfalso.
      assert (In (EvConnected cd) (filter bg_event es)) by (apply filter_In; auto). rewrite F in *. contradiction. }
  destruct l; try discriminate Hl; inv_step Hs; cbn in Hin; try contradiction;
    repeat match goal with G : _ \/ _ |- _ => destruct G as [G|G]; try discriminate G end; try contradiction;
    try (match goal with G : In _ (stop_events ?b) |- _ => destruct b; cbn in G; intuition discriminate end).
  all: reflexivity.
Qed.
Lemma unconnected_before c start ls tr s p n cd q :
  exec c start ls tr s -> tr = p ++ (n, EvConnected cd) :: q -> connected_now p = false.
Proof.
  intros H E. destruct (exec_split _ _ _ _ _ _ _ _ _ H E) as (tr0&s0&l&s1&e1&e2&H0&Hs&->&->&_).
  destruct (step_connected _ _ _ _ _ _ _ Hs) as (->&->&_). cbn [stamp map]. rewrite app_nil_r, (connected_inv _ _ _ _ _ H0).
  assert (C : connecting (s_bg s0) = true) by (eapply step_connected_from; [exact Hs|left; reflexivity]).
  rewrite (connects_from_none _ _ _ _ _ H0 C). reflexivity.
Qed.
Lemma connections_app a b : connections (a ++ b) = (connections a + connections b)%nat.
Proof. unfold connections. rewrite filter_app, app_length. reflexivity. Qed.
Lemma connections_zero tr : (forall cd, ~ In (EvConnected cd) (evs tr)) -> connections tr = 0%nat.
Proof.
  induction tr as [|[n e] tr IH]; intro H; [reflexivity|]. unfold connections in *. cbn [filter snd].
  destruct e; try (apply IH; intros cd' X; apply (H cd'); right; exact X). destruct (H c). left. reflexivity.
Qed.
Lemma stays_once c start ls sched s tr :
  run c (init_sys start ls) sched = Some (s, tr) -> forallb no_recv_error sched = true -> Forall bytes (arrived tr) ->
  s_rx_alive s = true -> (forall d, ~ In (EvSendFail Bg d) (evs tr)) -> Forall (welcome (c_prof c)) (received tr) ->
  (connections tr <= 1)%nat.
Proof.
  intros R Hf Hb Ha Hs Hw. pose proof (run_exec _ _ _ _ _ _ R) as H.
  destruct (stays _ _ _ _ _ _ R Hf Hb Ha Hs Hw) as (Nc&_).
  assert (D : (forall cd, ~ In (EvConnected cd) (evs tr)) \/ exists p n cd q, tr = p ++ (n, EvConnected cd) :: q /\ forall cd, ~ In (EvConnected cd) (evs p)).
  { clear. induction tr as [|[n e] tr IH]; [left; intros cd []|].
    destruct e; try (destruct IH as [IH|(p&k'&cd'&q&->&IH)];
      [left; intros cd' [X|X]; [discriminate X|exact (IH _ X)]
      |right; eexists ((_, _) :: p), k', cd', q; split; [reflexivity|]; intros cd2 [X|X]; [discriminate X|exact (IH _ X)]]).
    all: try (right; exists [], n, c, tr; split; [reflexivity|intros ? []]). }
  destruct D as [D|(p&n&cd&q&E&Np)]; [rewrite connections_zero by exact D; lia|].
  assert (Nq : forall cd, ~ In (EvConnected cd) (evs q)).
  { intros cd' X. unfold evs in X. apply in_map_iff in X. destruct X as ((k&e)&Ee&Hi). cbn in Ee. subst e.
    apply in_split in Hi. destruct Hi as (a&b&->).
    assert (E2 : tr = (p ++ (n, EvConnected cd) :: a) ++ (k, EvConnected cd') :: b) by (rewrite E, <- app_assoc; reflexivity).
    pose proof (unconnected_before _ _ _ _ _ _ _ _ _ H E2) as F. rewrite connected_kept in F; [discriminate F|].
    intro X. apply Nc. rewrite E. unfold evs in *. rewrite !map_app. cbn [map]. rewrite map_app. apply in_or_app. right. right. apply in_or_app. left. exact X. }
  rewrite E, connections_app, (connections_zero p) by exact Np. unfold connections. cbn [filter snd length].
  fold (connections q). rewrite connections_zero by exact Nq. lia.
Qed.
