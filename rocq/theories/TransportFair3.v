(** A willing gateway gets its client connected, in fair endless executions. *)
From Verif Require Import Base Addresses Apdu Tunneling Emi Core Transport Wire Spec TraceSpec TraceSpec2 LiveSpec
  TransportBase TransportInv TransportConn TransportThm2 TransportThm3 TransportBgThm TransportRecover TransportFair TransportFair2.
From Coq Require Import Lia ZifyBool ZifyNat ZifyN.
Open Scope N_scope.

(** Datagrams waiting that grant nothing. *)
Definition useless (d : list N) : bool := match accept_connection d with Some _ => false | None => true end.
Definition junk (q : list (list N)) : nat := length (filter useless q).
(** A call that may still take a datagram from the socket. *)
Definition thief (s : sys) : nat :=
  match s_tlock s with
  | Some t => match s_clients s t with CSend _ _ | CWaitSock _ => 1 | _ => 0 end
  | None => 0
  end.
Definition effort (s : sys) : nat := junk (s_inbox s) + thief s.
Definition granted_now (b : bg_pc) : bool := match b with BMonEnable _ | BStore _ => true | _ => false end.

Lemma junk_app q d : junk (q ++ [d]) = (junk q + if useless d then 1 else 0)%nat.
Proof. unfold junk. rewrite filter_app, app_length. cbn. destruct (useless d); reflexivity. Qed.
Lemma junk_cons d q : junk (d :: q) = ((if useless d then 1 else 0) + junk q)%nat.
Proof. unfold junk. cbn. destruct (useless d); reflexivity. Qed.
Lemma unlock_thief s t : (thief (set_client (unlock s t) t CIdle) <= thief s)%nat.
Proof.
  unfold thief, unlock. destruct (s_tlock s) as [u|] eqn:Eu; sys; [|rewrite Eu; lia].
  destruct (Nat.eqb_spec u t); sys; [lia|]. rewrite Eu. sys. rewrite upd_other by congruence. lia.
Qed.

(** A call while there is no connection. *)
Lemma call_effort c s l s' es t :
  step c s l = Some (s', es) -> call_label l = Some t -> s_conn s = None ->
  (forall u, holds (s_clients s u) = true <-> s_tlock s = Some u) -> pc_fits (s_clients s t) = true ->
  s_conn s' = None /\
  ((s_inbox s' = s_inbox s /\ (thief s' <= thief s)%nat) \/
   (exists d, s_inbox s = d :: s_inbox s' /\ thief s = 1%nat /\ thief s' = 0%nat)).
Proof.
  intros Hs Hl Hc Hk Hf.
  destruct (holds (s_clients s t)) eqn:Hh.
  - apply Hk in Hh. destruct l; try discriminate Hl; injection Hl as ->; inv_step Hs; sys;
      unfold thief; sys; rewrite ?Hh, ?Nat.eqb_refl; sys; rewrite ?upd_same;
      repeat match goal with E : s_clients s t = _ |- _ => rewrite E in *; clear E end; try congruence;
      (split; [assumption|]); try (left; split; [reflexivity|lia]); try (right; eexists; repeat split; congruence);
      try (cbn in Hf; discriminate Hf).
  - assert (Ht : s_tlock s <> Some t) by (intro X; apply Hk in X; congruence).
    destruct l; try discriminate Hl; injection Hl as ->; inv_step Hs; sys;
      unfold thief; sys; 
      repeat match goal with E : s_clients s t = _ |- _ => rewrite E in *; clear E end; cbn in Hh; try discriminate Hh; try congruence;
      (split; [assumption|]); left; (split; [reflexivity|]).
    all: unfold unlock; destruct (s_tlock s) as [u|] eqn:Eu; sys; rewrite ?Nat.eqb_refl; sys; rewrite ?Eu; try lia; try discriminate.
    all: try (destruct (Nat.eqb_spec u t); sys; rewrite ?Eu); rewrite ?upd_same; try rewrite upd_other by congruence; try lia.
    all: try congruence.
Qed.
(** The task while there is no connection. *)
Lemma bg_effort c s l s' es :
  step c s l = Some (s', es) -> bg_label l = true -> s_conn s = None -> connecting (s_bg s) = true ->
  (exists cd, es = [EvConnected cd]) \/
  (s_conn s' = None /\
   (s_inbox s' = s_inbox s \/ exists d, s_inbox s = d :: s_inbox s' /\ (useless d = true \/ granted_now (s_bg s') = true))).
Proof.
  intros Hs Hb Hc Hk.
  destruct l; try discriminate Hb; inv_step Hs; sys;
    repeat match goal with E : s_bg s = _ |- _ => rewrite E in *; clear E end; cbn [connecting] in Hk; try discriminate Hk; try congruence; eauto.
  all: right; (split; [assumption|]); right; eexists; (split; [reflexivity|]); unfold useless;
    match goal with E : accept_connection _ = _ |- _ => rewrite E end; auto.
Qed.

Section Willing.
Variables (c : cfg) (start : N) (ls : nat -> listener) (tr0 : trace).
Variables (st : nat -> sys) (lb : nat -> label) (es : nat -> list event).
Hypothesis (E : endless c start ls tr0 st lb es) (F : fair c st lb).
Variable i0 : nat.
Hypothesis W : willing tr0 st lb es i0.
Let X := upto_exec c start ls tr0 st lb es E.

Lemma unconnected i : s_conn (st i) = None <-> connecting (s_bg (st i)) = true.
Proof. apply (conn_inv _ _ _ _ _ (X i)). Qed.
Definition connects (i : nat) : Prop := exists j cd, (i <= j)%nat /\ In (EvConnected cd) (es j).
Lemma connects_later i j : (i <= j)%nat -> connects j -> connects i.
Proof. intros H (k&cd&G1&G2). exists k, cd. split; [lia|exact G2]. Qed.

Lemma effort_step i : (i0 <= i)%nat -> s_conn (st i) = None ->
  (exists cd, In (EvConnected cd) (es i)) \/
  (s_conn (st (S i)) = None /\ (effort (st (S i)) <= effort (st i))%nat /\
   (s_inbox (st i) <> [] -> s_inbox (st (S i)) <> [] \/ (effort (st (S i)) < effort (st i))%nat \/ granted_now (s_bg (st (S i))) = true)).
Proof.
  intros Hi Hc. pose proof (en_step _ _ _ _ _ _ _ E i) as Hs. unfold effort.
  destruct (bg_label (lb i)) eqn:Hb; [|destruct (call_label (lb i)) as [t|] eqn:Hl].
  - assert (Th : thief (st (S i)) = thief (st i)).
    { unfold thief. destruct (bg_frame _ _ _ _ _ Hs Hb) as (_&_&->&->&_). reflexivity. }
    destruct (bg_effort _ _ _ _ _ Hs Hb Hc (proj1 (unconnected i) Hc)) as [(cd&->)|(A1&A2)].
    + left. exists cd. left. reflexivity.
    + right. split; [exact A1|]. rewrite Th. destruct A2 as [->|(d&->&A2)]; [split; [lia|auto]|].
      rewrite junk_cons. split; [lia|]. intros _. right. destruct A2 as [->|A2]; [left; lia|right; exact A2].
  - destruct (call_effort _ _ _ _ _ _ Hs Hl Hc (lock_inv _ _ _ _ _ (X i)) (pc_fits_inv _ _ _ _ _ (X i) t)) as (A1&[(A2&A3)|(d&A2&A3&A4)]).
    + right. split; [exact A1|]. rewrite A2. split; [lia|auto].
    + right. split; [exact A1|]. rewrite A2, junk_cons. split; [lia|]. intros _. right. left. lia.
  - destruct (env_frame _ _ _ _ _ Hs Hb Hl) as (A1&_&_&_&A2&A3&_&_&A4).
    assert (Th : thief (st (S i)) = thief (st i)) by (unfold thief; rewrite A2, A3; reflexivity).
    right. rewrite A1. split; [exact Hc|]. rewrite Th. destruct A4 as [(d&A4&A5)|(_&A5)]; rewrite A5; [|split; [lia|auto]].
    destruct (wi_only _ _ _ _ _ W i d Hi) as (B&ch&ep&G).
    + rewrite (connected_inv _ _ _ _ _ (X i)), Hc. reflexivity.
    + rewrite A4. left. reflexivity.
    + destruct (grants_accept _ _ _ B G) as (r&Er&_). rewrite junk_app. unfold useless. rewrite Er.
      split; [lia|]. intros _. left. destruct (s_inbox (st i)); discriminate.
Qed.

(** What can have happened after [d] steps. *)
Lemma effort_steps i d : (i0 <= i)%nat -> s_conn (st i) = None ->
  (exists j cd, (i <= j)%nat /\ In (EvConnected cd) (es j)) \/
  (s_conn (st (i + d)) = None /\ (effort (st (i + d)) <= effort (st i))%nat).
Proof.
  intros Hi Hc. induction d as [|d IH]; [right; rewrite Nat.add_0_r; auto|].
  destruct IH as [IH|(IH1&IH2)]; [left; exact IH|].
  destruct (effort_step (i + d) ltac:(lia) IH1) as [(cd&G)|(G1&G2&_)].
  - left. exists (i + d)%nat, cd. split; [lia|exact G].
  - right. rewrite Nat.add_succ_r. split; [exact G1|lia].
Qed.
Lemma loaded_steps i d : (i0 <= i)%nat -> s_conn (st i) = None -> s_inbox (st i) <> [] ->
  connects i \/
  (exists k, (i <= k)%nat /\ s_conn (st k) = None /\ ((effort (st k) < effort (st i))%nat \/ granted_now (s_bg (st k)) = true)) \/
  (s_conn (st (i + d)) = None /\ s_inbox (st (i + d)) <> []).
Proof.
  intros Hi Hc Hn. induction d as [|d IH]; [right; right; rewrite Nat.add_0_r; auto|].
  destruct IH as [IH|[IH|(IH1&IH2)]]; [left; exact IH|right; left; exact IH|].
  destruct (effort_steps i d Hi Hc) as [G|(_&G)]; [left; exact G|].
  destruct (effort_step (i + d) ltac:(lia) IH1) as [(cd&G0)|(G1&G2&G3)].
  - left. exists (i + d)%nat, cd. split; [lia|exact G0].
  - rewrite Nat.add_succ_r. destruct (G3 IH2) as [G4|[G4|G4]].
    + right. right. auto.
    + right. left. exists (S (i + d)). split; [lia|]. split; [exact G1|]. left. lia.
    + right. left. exists (S (i + d)). split; [lia|]. split; [exact G1|]. right. exact G4.
Qed.

Lemma moves i : s_conn (st i) = None ->
  exists j, (i <= j)%nat /\ bg_label (lb j) = true /\ s_bg (st j) = s_bg (st i) /\ s_conn (st j) = None.
Proof.
  intro Hc. destruct (connecting_moves c start ls tr0 st lb es E F i (proj1 (unconnected i) Hc)) as (j&Hj&Hl&Sb&_).
  exists j. split; [exact Hj|]. split; [exact Hl|]. split; [exact Sb|]. apply unconnected. rewrite Sb. apply unconnected, Hc.
Qed.
Lemma stored i r : s_bg (st i) = BStore r -> connects i.
Proof.
  intro Eb. destruct (moves i) as (j&Hj&Hl&Sb&_); [apply unconnected; rewrite Eb; reflexivity|].
  rewrite Eb in Sb. pose proof (en_step _ _ _ _ _ _ _ E j) as Hs.
  destruct (lb j); try discriminate Hl; unfold step, bg_step, bg_recv_err, bg_timeout, bg_tick in Hs; rewrite Sb in Hs; try discriminate Hs.
  injection Hs as _ Hs. exists j. eexists. split; [exact Hj|]. rewrite <- Hs. left. reflexivity.
Qed.
Lemma granted i : (i0 <= i)%nat -> granted_now (s_bg (st i)) = true -> connects i.
Proof.
  intros Hi Hg. destruct (s_bg (st i)) as [| | | |r|r| | | | | | | | |] eqn:Eb; try discriminate Hg; [|eapply stored, Eb].
  destruct (moves i) as (j&Hj&Hl&Sb&_); [apply unconnected; rewrite Eb; reflexivity|].
  rewrite Eb in Sb. pose proof (en_step _ _ _ _ _ _ _ E j) as Hs.
  destruct (lb j) as [| |ok| | | | | | | | | | | |]; try discriminate Hl; unfold step, bg_step, bg_recv_err, bg_timeout, bg_tick in Hs; rewrite Sb in Hs; try discriminate Hs.
  injection Hs as Hs1 Hs2. destruct ok.
  - apply (connects_later i (S j)); [lia|]. apply (stored (S j) r). rewrite <- Hs1. reflexivity.
  - exfalso. eapply (wi_sent _ _ _ _ _ W j); [lia|]. rewrite <- Hs2. left. reflexivity.
Qed.

(** The task asks: afterwards it waits for the answer. *)
Lemma asked i : (i0 <= i)%nat -> s_conn (st i) = None ->
  connects i \/
  exists j, (i <= j)%nat /\ In (EvSend Bg connection_datagram) (es j) /\ (exists d, s_bg (st (S j)) = BConnWait d) /\ s_conn (st (S j)) = None.
Proof.
  intros Hi Hc. destruct (keeps_asking c start ls tr0 st lb es E F i) as (j&e&Hj&He&[[->| ->]|He']).
  - rewrite (connected_inv _ _ _ _ _ (X i)), Hc. reflexivity.
  - destruct (effort_steps i (j - i) Hi Hc) as [G|(G&_)]; [left; exact G|]. replace (i + (j - i))%nat with j in G by lia.
    right. exists j. split; [exact Hj|]. split; [exact He|].
    pose proof (en_step _ _ _ _ _ _ _ E j) as Hs. pose proof (proj1 (unconnected j) G) as Ck.
    assert (Hb : bg_label (lb j) = true).
    { destruct (bg_label (lb j)) eqn:Hb; [reflexivity|exfalso]. destruct (call_label (lb j)) as [t|] eqn:Hl.
      - destruct (call_frame _ _ _ _ _ _ Hs Hl) as (_&_&_&_&_&_&_&A). apply forallb_forall with (x := EvSend Bg connection_datagram) in A; [discriminate A|exact He].
      - destruct (env_frame _ _ _ _ _ Hs Hb Hl) as (_&_&_&_&_&_&_&_&[(d&A&_)|(A&_)]); rewrite A in He; [destruct He as [He|[]]; discriminate He|destruct He]. }
    clear - Hs He Hb Ck G. remember (st (S j)) as s'. remember (es j) as e. destruct (lb j); try discriminate Hb; inv_step Hs; sys;
      repeat match goal with E : s_bg (st j) = _ |- _ => rewrite E in *; clear E end; cbn [connecting] in Ck; try discriminate Ck; try congruence; try (exfalso; exact He);
      repeat match goal with H : In _ _ |- _ => destruct H as [H|H]; try discriminate H; try contradiction H end; eauto.
    all: exfalso; injection He as He; apply (f_equal (@length N)) in He; discriminate He.
  - exfalso. eapply (wi_sent _ _ _ _ _ W j); [lia|exact He].
  - left. destruct e; try discriminate He'. exists j. eexists. split; [exact Hj|exact He].
Qed.

Lemma willing_at n : forall i, (i0 <= i)%nat -> s_conn (st i) = None -> (effort (st i) <= n)%nat -> connects i.
Proof.
  induction n as [n IH] using (well_founded_induction lt_wf). intros i Hi Hc Hn.
  (* once a datagram waits *)
  assert (Loaded : forall k, (i <= k)%nat -> s_conn (st k) = None -> s_inbox (st k) <> [] -> (effort (st k) <= effort (st i))%nat -> connects i).
  { intros k Hk Ck Nk Mk. apply (connects_later i k Hk).
    assert (Alt : forall x, (k <= x)%nat -> s_conn (st x) = None -> (effort (st x) < effort (st k))%nat \/ granted_now (s_bg (st x)) = true -> connects k).
    { intros x Hx Cx [A|A]; apply (connects_later k x Hx); [apply (IH (effort (st x))); auto; lia|apply granted; [lia|exact A]]. }
    destruct (asked k ltac:(lia) Ck) as [G|(j&Hj&_&(d&Wj)&Cj)]; [exact G|].
    destruct (loaded_steps k (S j - k) ltac:(lia) Ck Nk) as [G|[(x&Hx&Cx&Ax)|(G1&G2)]]; [exact G|eauto|].
    destruct (moves (S j) Cj) as (m&Hm&Hl&Sb&Cm).
    destruct (loaded_steps k (m - k) ltac:(lia) Ck Nk) as [G|[(x&Hx&Cx&Ax)|(G3&G4)]]; [exact G|eauto|].
    replace (k + (m - k))%nat with m in * by lia.
    rewrite Wj in Sb. pose proof (en_step _ _ _ _ _ _ _ E m) as Hs.
    destruct (lb m) as [| |ok| | | | | | | | | | | |] eqn:Lm; try discriminate Hl.
    - unfold step, bg_step in Hs. rewrite Sb in Hs. destruct (s_inbox (st m)) as [|g q] eqn:Eq; [contradiction|].
      destruct (effort_steps k (m - k) ltac:(lia) Ck) as [G|(_&G)]; [exact G|]. replace (k + (m - k))%nat with m in G by lia.
      injection Hs as Hs _. apply (Alt (S m)); [lia|rewrite <- Hs; exact Cm|].
      assert (Th : thief (st (S m)) = thief (st m)) by (rewrite <- Hs; reflexivity).
      assert (Ib : s_inbox (st (S m)) = q) by (rewrite <- Hs; reflexivity).
      unfold effort in *. rewrite Th, Ib. rewrite Eq, junk_cons in G. unfold useless in G. destruct (accept_connection g) as [r|] eqn:Er.
      + right. rewrite <- Hs. sys. destruct (c_mode c); reflexivity.
      + left. lia.
    - exfalso. eapply (wi_received _ _ _ _ _ W m); [lia|exact Lm].
    - exfalso. apply G4. apply (wi_seen _ _ _ _ _ W m); [lia|exact Lm].
    - unfold step, bg_tick in Hs. rewrite Sb in Hs. discriminate Hs. }
  (* ask, and wait for the answer *)
  destruct (asked i Hi Hc) as [G|(j&Hj&Hq&_&Cj)]; [exact G|].
  destruct (wi_answers _ _ _ _ _ W j ltac:(lia) Hq) as (k&g&Hk&Ha).
  destruct (effort_steps i (S k - i) Hi Hc) as [G|(G1&G2)]; [exact G|]. replace (i + (S k - i))%nat with (S k) in * by lia.
  apply (Loaded (S k)); [lia|exact G1| |exact G2].
  pose proof (en_step _ _ _ _ _ _ _ E k) as Hs.
  assert (Ib : s_inbox (st (S k)) = s_inbox (st k) ++ [g]).
  { destruct (bg_label (lb k)) eqn:Hb; [|destruct (call_label (lb k)) as [t|] eqn:Hl].
    - destruct (bg_frame _ _ _ _ _ Hs Hb) as (_&_&_&_&A). apply forallb_forall with (x := EvArrive g) in A; [discriminate A|exact Ha].
    - destruct (call_frame _ _ _ _ _ _ Hs Hl) as (_&_&_&_&_&_&_&A). apply forallb_forall with (x := EvArrive g) in A; [discriminate A|exact Ha].
    - destruct (env_frame _ _ _ _ _ Hs Hb Hl) as (_&_&_&_&_&_&_&_&[(d&A&A')|(A&_)]); rewrite A in Ha; [|destruct Ha].
      destruct Ha as [Ha|[]]. injection Ha as ->. exact A'. }
  rewrite Ib. destruct (s_inbox (st k)); discriminate.
Qed.
Theorem willing_connects i : connected_now (upto tr0 st es i) = false -> connects i.
Proof.
  intro H. assert (C : s_conn (st i) = None).
  { rewrite (connected_inv _ _ _ _ _ (X i)) in H. destruct (s_conn (st i)); [discriminate H|reflexivity]. }
  (* up to i0 *)
  assert (Pre : forall d, connects i \/ s_conn (st (i + d)) = None).
  { induction d as [|d IH]; [right; rewrite Nat.add_0_r; exact C|]. destruct IH as [IH|IH]; [left; exact IH|].
    rewrite Nat.add_succ_r. pose proof (en_step _ _ _ _ _ _ _ E (i + d)) as Hs.
    destruct (bg_label (lb (i + d))) eqn:Hb; [|destruct (call_label (lb (i + d))) as [t|] eqn:Hl].
    - destruct (bg_effort _ _ _ _ _ Hs Hb IH (proj1 (unconnected _) IH)) as [(cd&A)|(A&_)]; [|right; exact A].
      left. exists (i + d)%nat, cd. split; [lia|]. rewrite A. left. reflexivity.
    - right. apply (call_effort _ _ _ _ _ _ Hs Hl IH (lock_inv _ _ _ _ _ (X _)) (pc_fits_inv _ _ _ _ _ (X _) t)).
    - right. destruct (env_frame _ _ _ _ _ Hs Hb Hl) as (->&_). exact IH. }
  destruct (Pre i0) as [G|G]; [exact G|]. apply (connects_later i (i + i0)); [lia|].
  apply (willing_at (effort (st (i + i0)%nat))); auto; lia.
Qed.
End Willing.
