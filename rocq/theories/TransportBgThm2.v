(** Theorems about reconnection, heart beats and the end of the background task. *)
From Verif Require Import Base Addresses Apdu Tunneling Emi Core Transport Wire Spec BaseProofs CoreProofs EmiProofs
  ResponseProofs CodecMore TraceSpec
  TransportBase TransportInv TransportConn TransportCalls TransportReturn TransportThm TransportBg TransportBgThm.
From Coq Require Import Lia ZifyBool ZifyNat ZifyN.
Open Scope N_scope.

(** ** After an error *)
Ltac hist_cases Hh :=
  repeat match type of Hh with
  | _ \/ _ => destruct Hh as [Hh|Hh]
  | exists _, _ => let x := fresh in destruct Hh as (x & Hh)
  | _ /\ _ => let A := fresh in destruct Hh as (A & Hh)
  end.
Lemma last_recv c start ls tr s a d :
  exec c start ls tr s -> bg_events tr = a ++ [EvBgRecv d] ->
  s_bg s = dispatch d \/ (dispatch d = BRecv /\ s_bg s = BClear).
Proof.
  intros H E. pose proof (bg_hist _ _ _ _ _ H) as Hh. rewrite E, rev_app_distr in Hh. cbn [rev app] in Hh.
  assert (Q : forall x h h', EvBgRecv d :: h = EvBgRecv x :: h' -> d = x) by congruence.
  destruct (s_bg s) eqn:Es; cbn [bg_ok] in Hh; unfold at_check, at_retry, at_recv, at_enq in Hh; hist_cases Hh;
    try discriminate; try congruence;
    repeat match goal with G : EvBgRecv d :: _ = EvBgRecv _ :: _ |- _ => apply Q in G; subst end; auto;
    try (match goal with G : EvBgRecv _ :: _ = rev (map EvNotify ?l) ++ _ |- _ =>
           destruct l as [|? l _] using rev_ind; [discriminate G|rewrite map_app, rev_app_distr in G; discriminate G] end).
Qed.
Lemma next_after_recv c start ls tr s a d e b :
  exec c start ls tr s -> bg_events tr = a ++ [EvBgRecv d] ++ e :: b -> dispatch d = BClear -> e = EvCleared.
Proof.
  intros H E Hd. rewrite app_assoc in E.
  destruct (bg_split _ _ _ _ _ _ _ _ H E) as (tr0&s0&l&s1&e1&e2&H0&Hs&Hl&Ea&_&_).
  destruct e1 as [|x e1] using rev_ind.
  - rewrite app_nil_r in Ea. destruct (last_recv _ _ _ _ _ _ _ H0 (eq_sym Ea)) as [Hp|(D&_)]; [|congruence].
    rewrite Hd in Hp. destruct l; try discriminate Hl; cbn [step app] in Hs; unfold bg_step, bg_recv_err, bg_timeout, bg_tick in Hs;
      rewrite Hp in Hs; try discriminate Hs. injection Hs as _ <- _. reflexivity.
  - exfalso. clear IHe1. rewrite app_assoc in Ea. apply app_inj_tail in Ea. destruct Ea as (_&<-).
    remember ((e1 ++ [EvBgRecv d]) ++ e :: e2) as es eqn:Ee.
    destruct l; try discriminate Hl; inv_step Hs; rewrite <- app_assoc in Ee; cbn [app] in Ee;
      try (destruct e1 as [|? [|? [|]]]; discriminate Ee);
      try (match type of Ee with context [stop_events ?b] => destruct b eqn:? end;
           destruct e1 as [|? [|? [|]]]; try discriminate Ee; cbn in Ee; injection Ee as <- _ _; congruence).
Qed.
Lemma last_cleared c start ls tr s a :
  exec c start ls tr s -> bg_events tr = a ++ [EvCleared] -> s_bg s = BCheck \/ s_bg s = BConnSend.
Proof.
  intros H E. pose proof (bg_hist _ _ _ _ _ H) as Hh. rewrite E, rev_app_distr in Hh. cbn [rev app] in Hh.
  destruct (s_bg s) eqn:Es; cbn [bg_ok] in Hh; unfold at_check, at_retry, at_recv, at_enq in Hh; hist_cases Hh;
    try discriminate; try congruence; auto;
    try (match goal with G : EvCleared :: _ = rev (map EvNotify ?l) ++ _ |- _ =>
           destruct l as [|? l _] using rev_ind; [discriminate G|rewrite map_app, rev_app_distr in G; discriminate G] end).
Qed.
Lemma next_after_cleared c start ls tr s a e b :
  exec c start ls tr s -> bg_events tr = a ++ [EvCleared] ++ e :: b -> exists ok, e = send_event ok Bg connection_datagram.
Proof.
  intros H E. rewrite app_assoc in E.
  destruct (bg_split _ _ _ _ _ _ _ _ H E) as (tr0&s0&l&s1&e1&e2&H0&Hs&Hl&Ea&_&_).
  destruct e1 as [|x e1] using rev_ind.
  - rewrite app_nil_r in Ea. destruct (last_cleared _ _ _ _ _ _ H0 (eq_sym Ea)) as [Hp|Hp];
    destruct l; try discriminate Hl; cbn [step app] in Hs; unfold bg_step, bg_recv_err, bg_timeout, bg_tick in Hs;
      rewrite Hp in Hs; try discriminate Hs. injection Hs as _ <- _. exists ok. rewrite <- connp_eq. reflexivity.
  - exfalso. clear IHe1. rewrite app_assoc in Ea. apply app_inj_tail in Ea. destruct Ea as (_&<-).
    remember ((e1 ++ [EvCleared]) ++ e :: e2) as es eqn:Ee.
    destruct l; try discriminate Hl; inv_step Hs; rewrite <- app_assoc in Ee; cbn [app] in Ee;
      try (destruct e1 as [|? [|? [|]]]; discriminate Ee);
      try (match type of Ee with context [stop_events ?b] => destruct b eqn:? end;
           destruct e1 as [|? [|? [|]]]; try discriminate Ee; cbn in Ee; injection Ee as <- _ _; congruence).
Qed.
Lemma clear_reconnects c s ok :
  s_bg s = BClear ->
  exists s', run c s [LBg true; LBg true; LBg ok] =
    Some (s', [(s_now s, EvCleared); (s_now s, send_event ok Bg connection_datagram)]) /\ s_conn s' = None.
Proof.
  intro Hp. rewrite <- connp_eq. eexists. split; [unfold run, step, bg_step; rewrite Hp; reflexivity|reflexivity].
Qed.
Lemma clear_only c s l s' es :
  s_bg s = BClear -> step c s l = Some (s', es) -> bg_label l = true -> es = [EvCleared] /\ s_conn s' = None.
Proof.
  intros Hp Hs Hl. destruct l; try discriminate Hl; cbn [step] in Hs; unfold bg_step, bg_recv_err, bg_timeout, bg_tick in Hs;
    rewrite Hp in Hs; try discriminate Hs. injection Hs as <- <-. auto.
Qed.
Lemma recv_error_clears c s s' es :
  s_bg s = BRecv -> step c s LBgRecvErr = Some (s', es) -> es = [] /\ s_bg s' = BClear.
Proof. intros Hp Hs. cbn in Hs. unfold bg_recv_err in Hs. rewrite Hp in Hs. injection Hs as <- <-. auto. Qed.

Lemma in_mid A (x : A) a b : In x (a ++ x :: b).
Proof. apply in_or_app. right. left. reflexivity. Qed.

(** ** Without a connection *)
Lemma disconnected_inv c start ls tr s :
  exec c start ls tr s -> forall a b, bg_events tr = a ++ EvCleared :: b -> no_conn_ev b -> connecting (s_bg s) = true.
Proof.
  intro H. pattern tr, s. revert tr s H. apply exec_inv.
  - intros [|] b E; discriminate E.
  - intros tr s l s' es H IH Hs a b E Hn. rewrite bg_events_app, bg_events_stamp in E. destruct (bg_label l) eqn:Hl.
    + rewrite (step_bg_events_all _ _ _ _ _ Hs Hl) in E. apply app_split in E. destruct E as [(q'&E&->)|(p'&->&E)].
      * assert (C : connecting (s_bg s) = true) by (eapply IH; [exact E|intros e He; apply Hn, in_or_app; auto]).
        assert (Hn' : no_conn_ev es) by (intros e He; apply Hn, in_or_app; auto).
        pose proof (proj2 (conn_inv _ _ _ _ _ H) C) as Hcn. clear IH H E.
        destruct l; try discriminate Hl; inv_step Hs; sys;
          repeat match goal with G : s_bg s = _ |- _ => rewrite G in *; clear G end; try discriminate C; try reflexivity; try congruence;
          try (specialize (Hn' _ (or_introl eq_refl)); discriminate Hn').
      * destruct l; try discriminate Hl; inv_step Hs; sys;
          try (destruct p' as [|? [|? [|]]]; discriminate E); try reflexivity;
          (match type of E with context [stop_events ?b] => destruct b end; destruct p' as [|? [|? [|]]]; discriminate E).
    + rewrite (step_bg_events _ _ _ _ _ Hs Hl), app_nil_r in E. specialize (IH _ _ E Hn).
      destruct (call_label l) as [t|] eqn:Hc.
      * destruct (call_frame _ _ _ _ _ _ Hs Hc) as (_&_&_&->&_). exact IH.
      * destruct (env_frame _ _ _ _ _ Hs Hl Hc) as (_&_&->&_). exact IH.
Qed.
Lemma connecting_event c s l s' e1 e e2 :
  connecting (s_bg s) = true -> step c s l = Some (s', e1 ++ e :: e2) -> bg_label l = true ->
  e1 = [] /\ e2 = [] /\
  ((exists ok, e = send_event ok Bg connp) \/ (exists d, e = EvConnRecv d) \/
   (exists ok r, e = send_event ok Bg (featp (cr_chan r)) /\ s_bg s = BMonEnable r) \/
   (exists r, s_bg s = BStore r /\ e = EvConnected (conn_of (c_mode c) r))).
Proof.
  intros C Hs Hl. remember (e1 ++ e :: e2) as es eqn:E.
  destruct l; try discriminate Hl; inv_step Hs; rewrite ?Heqb in C;
    repeat match goal with G : s_bg s = _ |- _ => rewrite G in *; clear G end; try discriminate C;
    try (destruct e1; discriminate E);
    apply one_last in E; destruct E as (->&<-&->); (split; [reflexivity|]); (split; [reflexivity|]).
  all: first [left; first [exists true; reflexivity | exists false; reflexivity]
    | right; left; eexists; reflexivity
    | right; right; left; first [exists true; eexists; split; [|reflexivity]; reflexivity | exists false; eexists; split; [|reflexivity]; reflexivity]
    | right; right; right; eexists; split; [reflexivity|]; reflexivity].
Qed.
Lemma disconnected_events c start ls tr s a b1 e b2 :
  exec c start ls tr s -> Forall bytes (arrived tr) ->
  bg_events tr = a ++ EvCleared :: b1 ++ e :: b2 -> no_conn_ev b1 ->
  (exists ok, e = send_event ok Bg connection_datagram) \/ (exists d, e = EvConnRecv d) \/
  (c_mode c = MMonitor /\ exists ok ch ep b' d, b1 = b' ++ [EvConnRecv d] /\ grants d ch ep /\ e = send_event ok Bg (feature_datagram ch)) \/
  (exists cd b' d f, b1 = b' ++ EvConnRecv d :: f /\ grants d (cd_chan cd) (cd_ep cd) /\ e = EvConnected cd /\
     f = match c_mode c with MClient => [] | MMonitor => [EvSend Bg (feature_datagram (cd_chan cd))] end).
Proof.
  intros H Hb E Hn. change (a ++ EvCleared :: b1 ++ e :: b2) with (a ++ (EvCleared :: b1) ++ e :: b2) in E. rewrite app_assoc in E.
  destruct (bg_split _ _ _ _ _ _ _ _ H E) as (tr0&s0&l&s1&e1&e2&H0&Hs&Hl&Ea&_&_&q&Eq&_).
  pose proof (bg_prefix_bytes _ _ _ _ _ _ _ _ _ _ _ _ _ _ _ Hb Eq H E Hs) as Hb0.
  assert (C : connecting (s_bg s0) = true).
  { symmetry in Ea. apply app_split in Ea. destruct Ea as [(q'&Ea&Eb)|(p'&->&Ea)].
    - eapply disconnected_inv; [exact H0|exact Ea|]. intros x Hx. apply Hn. rewrite Eb. apply in_or_app. auto.
    - exfalso. remember (e1 ++ e :: e2) as es eqn:Ee. subst e1. clear - Hs Ee Hl.
      destruct l; try discriminate Hl; inv_step Hs;
        try (destruct p' as [|? [|? [|]]]; destruct b1 as [|? [|? [|]]]; discriminate Ee);
        (match type of Ee with context [stop_events ?b] => destruct b end; destruct p' as [|? [|? [|]]]; destruct b1 as [|? [|? [|]]]; discriminate Ee). }
  destruct (connecting_event _ _ _ _ _ _ _ C Hs Hl) as (->&->&Hc). rewrite app_nil_r in Ea.
  pose proof (bg_hist _ _ _ _ _ H0) as Hh.
  destruct Hc as [(ok&->)|[(d&->)|[(ok&r&->&Hp)|(r&Hp&->)]]].
  - left. exists ok. rewrite connp_eq. reflexivity.
  - right. left. eauto.
  - right. right. left. rewrite Hp in Hh. destruct Hh as (Hm&d&h'&Hh&Ha). split; [exact Hm|].
    apply rev_cons_inv in Hh. rewrite <- Ea in Hh.
    assert (Gd : grants d (cr_chan r) (cr_endpoint r)).
    { apply accept_grants; [|exact Ha]. eapply consumed_bytes; [exact H0|exact Hb0|]. apply consumed_in. left.
      apply in_bg_events; [reflexivity|]. rewrite <- Ea, Hh. apply in_or_app. right. left. reflexivity. }
    destruct b1 as [|x b1 _] using rev_ind.
    + apply app_inj_tail in Hh. destruct Hh as (_&Hh). discriminate Hh.
    + rewrite app_comm_cons, app_assoc in Hh. apply app_inj_tail in Hh. destruct Hh as (_&->).
      exists ok, (cr_chan r), (cr_endpoint r), b1, d. rewrite featp_eq. auto.
  - right. right. right. rewrite Hp in Hh. destruct Hh as (d&h'&Ha&Hh).
    exists (conn_of (c_mode c) r).
    assert (Gd : In (EvConnRecv d) (bg_events tr0) -> grants d (cr_chan r) (cr_endpoint r)).
    { intro Hi. apply accept_grants; [|exact Ha]. eapply consumed_bytes; [exact H0|exact Hb0|]. apply consumed_in. left.
      apply in_bg_events in Hi; [exact Hi|reflexivity]. }
    destruct Hh as [(Hm&Hh)|(Hm&Hh)]; rewrite Hm; apply rev_cons_inv in Hh; cbn [rev] in Hh; rewrite <- Ea in *.
    + rewrite Hh in Gd. pose proof (Gd (in_mid _ _ _ _)) as Gd'.
      destruct b1 as [|x b1 _] using rev_ind.
      * apply app_inj_tail in Hh. destruct Hh as (_&Hh). discriminate Hh.
      * rewrite app_comm_cons, app_assoc in Hh. apply app_inj_tail in Hh. destruct Hh as (_&->).
        exists b1, d, []. auto.
    + rewrite Hh in Gd. rewrite <- app_assoc in Gd. pose proof (Gd (in_mid _ _ _ _)) as Gd'.
      destruct b1 as [|x b1 _] using rev_ind.
      * apply app_inj_tail in Hh. destruct Hh as (_&Hh). discriminate Hh.
      * rewrite app_comm_cons, app_assoc in Hh. apply app_inj_tail in Hh. destruct Hh as (Hh&->).
        destruct b1 as [|y b1 _] using rev_ind.
        -- apply app_inj_tail in Hh. destruct Hh as (_&Hh). discriminate Hh.
        -- rewrite app_comm_cons, app_assoc in Hh. apply app_inj_tail in Hh. destruct Hh as (_&->).
           exists b1, d, [EvSend Bg (feature_datagram (cr_chan r))]. rewrite <- app_assoc. auto.
Qed.
