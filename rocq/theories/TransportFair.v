(** Calls in fair endless executions. *)
From Verif Require Import Base Addresses Apdu Tunneling Emi Core Transport Wire Spec TraceSpec LiveSpec
  TransportBase TransportInv TransportCalls TransportReturn TransportThm TransportThm3.
From Coq Require Import Lia ZifyBool ZifyNat ZifyN.
Open Scope N_scope.

(** ** Where a call can be *)
Definition tunnels (o : op) : bool := match o with ORead _ | OWrite _ _ _ | OSolicit _ | OMWrite _ _ _ => true | _ => false end.
Definition asks (o : op) : bool := match o with OStatus | ODisconnect | OMDisconnect => true | _ => false end.
Definition pc_fits (pc : client_pc) : bool :=
  match pc with
  | CSeq o _ | CChan o _ _ => tunnels o
  | CChan2 o | CEp o _ => asks o
  | CSend o _ => tunnels o || asks o
  | CWaitQ o _ => match o with ORead _ | OWrite _ _ _ | ODisconnect | ONextMsg => true | _ => false end
  | CWaitSock o => match o with OStatus | OMDisconnect => true | _ => false end
  | _ => true
  end.
Lemma pc_fits_inv c start ls tr s : exec c start ls tr s -> forall t, pc_fits (s_clients s t) = true.
Proof.
  intro H. pattern tr, s. revert tr s H. apply exec_inv; [reflexivity|].
  intros tr s l s' es H IH Hs t. destruct (bg_label l) eqn:Hb.
  - destruct (bg_frame _ _ _ _ _ Hs Hb) as (_&_&_&->&_). apply IH.
  - destruct (call_label l) as [u|] eqn:Hl.
    + destruct (Nat.eq_dec t u) as [->|Nu].
      2:{ destruct (call_frame _ _ _ _ _ _ Hs Hl) as (_&_&_&_&_&_&F&_). rewrite F by assumption. apply IH. }
      specialize (IH u). destruct l; try discriminate Hl; injection Hl as ->; inv_step Hs; sys; rewrite ?upd_same;
        repeat match goal with E : s_clients s u = _ |- _ => rewrite E in *; clear E end; cbn in *; first [congruence | rewrite IH, ?Bool.orb_true_r; reflexivity].
    + destruct (env_frame _ _ _ _ _ Hs Hb Hl) as (_&_&_&_&_&->&_). apply IH.
Qed.

Definition stage (pc : client_pc) : nat :=
  match pc with CSeq _ _ => 3 | CChan _ _ _ => 2 | CSend _ _ => 1 | _ => 0 end.

(** A step of the holder of the mutex. *)
Lemma own_step c s l s' es t o :
  step c s l = Some (s', es) -> call_label l = Some t -> s_tlock s = Some t -> holds (s_clients s t) = true ->
  pc_fits (s_clients s t) = true -> pc_op (s_clients s t) = Some o -> asks o = false ->
  (s_clients s' t = CIdle /\ s_tlock s' = None /\ existsb (call_end t) es = true) \/
  (holds (s_clients s' t) = true /\ pc_op (s_clients s' t) = Some o /\ s_tlock s' = Some t /\
   ((stage (s_clients s' t) < stage (s_clients s t))%nat \/
    (exists a, o = ORead a) /\ stage (s_clients s' t) = stage (s_clients s t) /\ (length (s_rxq s') < length (s_rxq s))%nat)).
Proof.
  intros Hs Hl Ht Hh Hf Ho Ha.
  destruct l; try discriminate Hl; injection Hl as ->; inv_step Hs; sys; rewrite ?upd_same, ?Ht, ?Nat.eqb_refl;
    repeat match goal with E : s_clients s t = _ |- _ => rewrite E in *; clear E end; cbn [holds pc_fits pc_op tunnels asks stage orb] in *;
    try discriminate; try (injection Ho as <-); cbn [holds pc_fits pc_op tunnels asks stage orb app existsb call_end] in *; try discriminate;
    rewrite ?Nat.eqb_refl, ?Bool.orb_true_r;
    try (left; repeat split; fail);
    right; repeat match goal with E : s_rxq s = _ |- _ => rewrite E end; cbn [length].
  all: repeat match goal with |- _ /\ _ => split end; try reflexivity; try (left; lia).
  all: try (right; repeat split; eauto; lia).
Qed.

(** A call that is not waiting for anything can get on. *)
Lemma runnable c s t o :
  s_rx_alive s = true -> cd_locked s = false -> holds (s_clients s t) = true -> pc_fits (s_clients s t) = true ->
  pc_op (s_clients s t) = Some o -> asks o = false ->
  match s_clients s t with CWaitQ _ d => d <= s_now s | _ => True end ->
  can_proceed c s t.
Proof.
  intros Ha Hc Hh Hf Ho Hk Hd.
  assert (G : cl_step c s t true <> None \/ cl_timeout s t <> None).
  { unfold cl_step, cl_timeout. destruct (s_clients s t) as [|o1|o1 ?|o1 ? ?|o1|o1 ch|o1 bs|o1 dl|o1| |];
      cbn [holds pc_fits pc_op] in *; try discriminate; try (injection Ho as ->); rewrite ?Hc.
    - left. destruct (s_conn s); discriminate.
    - left. destruct (s_conn s); [destruct (tunneling_request_packet _ _)|]; discriminate.
    - congruence.
    - congruence.
    - left. destruct o; discriminate.
    - right. apply N.leb_le in Hd. destruct o; try discriminate; rewrite Hd; discriminate.
    - destruct o; discriminate.
    - left. discriminate.
    - left. discriminate. }
  destruct G as [G|G].
  - exists (LCl t true). split; [left; eauto|]. cbn. rewrite Ha. exact G.
  - exists (LTimeout t). split; [right; reflexivity|]. cbn. rewrite Ha. exact G.
Qed.

Lemma rxq_frame c s l s' es :
  step c s l = Some (s', es) -> (forall m, ~ In (EvEnq m) es) -> (length (s_rxq s') <= length (s_rxq s))%nat.
Proof.
  intros Hs N. destruct l; inv_step Hs; sys; try lia.
  all: try (repeat match goal with E : s_rxq _ = _ |- _ => rewrite E; clear E end; cbn [length]; lia).
  all: exfalso; eapply N; left; reflexivity.
Qed.
Lemma clients_frame c s l s' es t :
  step c s l = Some (s', es) -> call_label l <> Some t -> s_clients s' t = s_clients s t.
Proof.
  intros Hs N. destruct (bg_label l) eqn:Hb; [destruct (bg_frame _ _ _ _ _ Hs Hb) as (_&_&_&->&_); reflexivity|].
  destruct (call_label l) as [u|] eqn:Hl.
  - apply (call_frame _ _ _ _ _ _ Hs Hl). congruence.
  - destruct (env_frame _ _ _ _ _ Hs Hb Hl) as (_&_&_&_&_&->&_). reflexivity.
Qed.
Lemma now_frame c s l s' es : step c s l = Some (s', es) -> s_now s <= s_now s'.
Proof.
  intro Hs. destruct (bg_label l) eqn:Hb; [destruct (bg_frame _ _ _ _ _ Hs Hb) as (->&_); lia|].
  destruct (call_label l) as [u|] eqn:Hl.
  - destruct (call_frame _ _ _ _ _ _ Hs Hl) as (->&_). lia.
  - apply (env_frame _ _ _ _ _ Hs Hb Hl).
Qed.

Lemma taken_frame c s l s' es :
  step c s l = Some (s', es) -> s_tlock s = None -> s_tlock s' <> None ->
  exists t ok o, l = LCl t ok /\ s_clients s t = CLock o.
Proof.
  intros Hs H0 H1. destruct (bg_label l) eqn:Hb; [destruct (bg_frame _ _ _ _ _ Hs Hb) as (_&_&E&_); congruence|].
  destruct (call_label l) as [u|] eqn:Hl.
  2:{ destruct (env_frame _ _ _ _ _ Hs Hb Hl) as (_&_&_&_&E&_); congruence. }
  destruct l; try discriminate Hl; inv_step Hs; sys; revert H1; sys; rewrite ?H0; intro H1;
    try (exfalso; apply H1; reflexivity); eauto.
Qed.

Section Fair.
Variables (c : cfg) (start : N) (ls : nat -> listener) (tr0 : trace).
Variables (st : nat -> sys) (lb : nat -> label) (es : nat -> list event).
Hypothesis (E : endless c start ls tr0 st lb es) (F : fair c st lb).

Lemma upto_exec i : exec c start ls (upto tr0 st es i) (st i).
Proof. induction i as [|i IH]; [apply E|]. cbn. econstructor; [exact IH|apply E]. Qed.
Lemma now_mono i j : (i <= j)%nat -> s_now (st i) <= s_now (st j).
Proof.
  intro H. induction H as [|j H IH]; [lia|]. pose proof (now_frame _ _ _ _ _ (en_step _ _ _ _ _ _ _ E j)). lia.
Qed.
Lemma stays_or_moves t i d :
  s_clients (st (i + d)) t = s_clients (st i) t \/
  exists j, (i <= j < i + d)%nat /\ call_label (lb j) = Some t /\ s_clients (st j) t = s_clients (st i) t.
Proof.
  induction d as [|d IH]; [left; f_equal; f_equal; lia|].
  destruct IH as [IH|(j&L&Hj)]; [|right; exists j; split; [lia|exact Hj]].
  assert (D : call_label (lb (i + d)) = Some t \/ call_label (lb (i + d)) <> Some t).
  { destruct (call_label (lb (i + d))) as [u|]; [|right; discriminate]. destruct (Nat.eq_dec u t); [left|right]; congruence. }
  destruct D as [D|D].
  - right. exists (i + d)%nat. split; [lia|]. split; assumption.
  - left. rewrite Nat.add_succ_r. rewrite (clients_frame _ _ _ _ _ t (en_step _ _ _ _ _ _ _ E _) D). exact IH.
Qed.
Lemma proceeds_label t l : proceeds t l -> call_label l = Some t.
Proof. intros [(ok&->)| ->]; reflexivity. Qed.

Lemma holder_held i t : holds (s_clients (st i) t) = true <-> s_tlock (st i) = Some t.
Proof. apply (lock_inv _ _ _ _ _ (upto_exec i)). Qed.
Lemma fits i t : pc_fits (s_clients (st i) t) = true.
Proof. apply (pc_fits_inv _ _ _ _ _ (upto_exec i)). Qed.

Variable i0 : nat.
(** The connection data is not kept locked when a call is to be polled. *)
Definition open_polled (t : nat) : Prop :=
  forall i, (i0 <= i)%nat -> exists j, (i <= j)%nat /\ (proceeds t (lb j) \/ (~ can_proceed c (st j) t /\ cd_locked (st j) = false)).
Lemma always_open : (forall i, (i0 <= i)%nat -> cd_locked (st i) = false) -> forall t, open_polled t.
Proof.
  intros H t i Hi. destruct (fair_calls _ _ _ F t i) as (j&Hj&G). exists j. split; [exact Hj|].
  destruct G as [G|G]; [left; exact G|right; split; [exact G|apply H; lia]].
Qed.
Lemma again_open : (forall t, served c st lb t) -> (forall i, (i0 <= i)%nat -> exists j, (i <= j)%nat /\ cd_locked (st j) = false) ->
  forall t, open_polled t.
Proof.
  intros H G t i Hi. destruct (H t i) as [(j&Hj&A)|(j&Hj&A)]; [exists j; auto|].
  destruct (G j ltac:(lia)) as (k&Hk&B). exists k. split; [lia|]. right. split; [apply A, Hk|exact B].
Qed.
Hypothesis Hopen : forall t, open_polled t.

Lemma holder_moves i t o :
  (i0 <= i)%nat -> holds (s_clients (st i) t) = true -> pc_op (s_clients (st i) t) = Some o -> asks o = false ->
  exists j, (i <= j)%nat /\ call_label (lb j) = Some t /\ s_clients (st j) t = s_clients (st i) t.
Proof.
  intros Hi Hh Ho Ha.
  assert (T : exists i', (i <= i')%nat /\ match s_clients (st i) t with CWaitQ _ d => d <= s_now (st i') | _ => True end).
  { destruct (s_clients (st i) t) as [|o1|o1 ?|o1 ? ?|o1|o1 ch|o1 bs|o1 dl|o1| |]; try (exists i; split; [lia|exact I]).
    destruct (fair_time _ _ _ F dl) as (k&Hk). exists (Nat.max i k). split; [lia|].
    pose proof (now_mono k (Nat.max i k)). lia. }
  destruct T as (i'&Hi'&T).
  destruct (Hopen t i' ltac:(lia)) as (j&Hj&G).
  destruct (stays_or_moves t i (j - i)) as [S|(k&L&S1&S2)].
  2:{ exists k. split; [lia|]. split; assumption. }
  replace (i + (j - i))%nat with j in S by lia.
  destruct G as [G|(G&Gc)].
  - exists j. split; [lia|]. split; [apply proceeds_label, G|exact S].
  - exfalso. apply G. apply (runnable c (st j) t o); rewrite ?S; auto.
    + apply F.
    + rewrite <- S. apply fits.
    + destruct (s_clients (st i) t); auto. pose proof (now_mono i' j). lia.
Qed.

(** The holder lets go. *)
Definition quiet_for (o : op) : Prop := (exists a, o = ORead a) -> falls_silent es i0.
Lemma rxq_mono : falls_silent es i0 -> forall i j, (i0 <= i <= j)%nat -> (length (s_rxq (st j)) <= length (s_rxq (st i)))%nat.
Proof.
  intros Q i j (Hi&H). induction H as [|j H IH]; [lia|].
  pose proof (rxq_frame _ _ _ _ _ (en_step _ _ _ _ _ _ _ E j) (fun m => Q j m ltac:(lia))). lia.
Qed.
Lemma holder_ends_at n : forall m i t o,
  (i0 <= i)%nat -> holds (s_clients (st i) t) = true -> pc_op (s_clients (st i) t) = Some o -> asks o = false -> quiet_for o ->
  (stage (s_clients (st i) t) <= n)%nat -> ((exists a, o = ORead a) -> (length (s_rxq (st i)) <= m)%nat) ->
  exists j, (i <= j)%nat /\ s_tlock (st (S j)) = None /\ s_clients (st (S j)) t = CIdle /\ existsb (call_end t) (es j) = true.
Proof.
  induction n as [n IHn] using (well_founded_induction lt_wf).
  induction m as [m IHm] using (well_founded_induction lt_wf).
  intros i t o Hi Hh Ho Ha Q Hn Hm.
  destruct (holder_moves i t o Hi Hh Ho Ha) as (j&Hj&Hl&Hp).
  pose proof (en_step _ _ _ _ _ _ _ E j) as Hs. rewrite <- Hp in *.
  destruct (own_step _ _ _ _ _ _ _ Hs Hl (proj1 (holder_held j t) Hh) Hh (fits j t) Ho Ha) as [(A1&A2&A3)|(A1&A2&A3&A4)].
  - exists j. auto.
  - destruct A4 as [A4|(A4&A5&A6)].
    + destruct (IHn (stage (s_clients (st (S j)) t)) ltac:(lia) (length (s_rxq (st (S j)))) (S j) t o) as (k&Hk&G); auto; try lia.
      exists k. split; [lia|exact G].
    + pose proof (rxq_mono (Q A4) i j ltac:(lia)). specialize (Hm A4).
      destruct (IHm (length (s_rxq (st (S j)))) ltac:(lia) (S j) t o) as (k&Hk&G); auto; try lia.
      exists k. split; [lia|exact G].
Qed.
Lemma holder_ends i t o :
  (i0 <= i)%nat -> holds (s_clients (st i) t) = true -> pc_op (s_clients (st i) t) = Some o -> asks o = false -> quiet_for o ->
  exists j, (i <= j)%nat /\ s_tlock (st (S j)) = None /\ s_clients (st (S j)) t = CIdle /\ existsb (call_end t) (es j) = true.
Proof. intros. eapply holder_ends_at; eauto. Qed.

(** Every waiting call gets its turn. *)
Hypothesis Hcalls : forall i t o, pc_op (s_clients (st i) t) = Some o -> asks o = false /\ quiet_for o.
Lemma lock_freed i : (i0 <= i)%nat -> exists j, (i <= j)%nat /\ s_tlock (st j) = None.
Proof.
  intro Hi. destruct (s_tlock (st i)) as [u|] eqn:Ht; [|exists i; auto].
  apply holder_held in Ht.
  assert (G : exists o, pc_op (s_clients (st i) u) = Some o) by (destruct (s_clients (st i) u); cbn in *; try discriminate; eauto).
  destruct G as (o&G). destruct (Hcalls _ _ _ G) as (G1&G2).
  destruct (holder_ends i u o Hi Ht G G1 G2) as (j&Hj&Hn&_). exists (S j). split; [lia|exact Hn].
Qed.
Lemma lock_taken i d : s_tlock (st i) = None -> s_tlock (st (i + d)) <> None ->
  exists k, (i <= k < i + d)%nat /\ hands_over st lb k = true.
Proof.
  intros H0. induction d as [|d IH]; intro H1.
  { exfalso. apply H1. rewrite Nat.add_0_r. exact H0. }
  destruct (s_tlock (st (i + d))) as [u|] eqn:Eu.
  { destruct IH as (k&Hk&G); [discriminate|]. exists k. split; [lia|exact G]. }
  exists (i + d)%nat. split; [lia|]. rewrite Nat.add_succ_r in H1.
  destruct (taken_frame _ _ _ _ _ (en_step _ _ _ _ _ _ _ E (i + d)) Eu H1) as (t&ok&o&E1&E2).
  unfold hands_over. rewrite E1, E2. reflexivity.
Qed.
Lemma filter_split (f : nat -> bool) i d d' : (d <= d')%nat ->
  length (filter f (seq i d')) = (length (filter f (seq i d)) + length (filter f (seq (i + d) (d' - d))))%nat.
Proof. intro H. replace d' with (d + (d' - d))%nat at 1 by lia. rewrite seq_app, filter_app, app_length. reflexivity. Qed.
Lemma filter_one (f : nat -> bool) i d k : (i <= k < i + d)%nat -> f k = true -> (1 <= length (filter f (seq i d)))%nat.
Proof.
  intros H G. assert (I : In k (filter f (seq i d))) by (apply filter_In; split; [apply in_seq; lia|exact G]).
  destruct (filter f (seq i d)); [contradiction I|cbn; lia].
Qed.
(** While [t] waits the mutex is given away as often as one likes, or [t] gets on. *)
Lemma passed_over t o i n : (i0 <= i)%nat -> s_clients (st i) t = CLock o ->
  (exists d, (n <= length (filter (hands_over st lb) (seq i d)))%nat) \/
  (exists k, (i <= k)%nat /\ call_label (lb k) = Some t /\ s_clients (st k) t = CLock o).
Proof.
  intros Hi Ho. induction n as [|n IH]; [left; exists 0%nat; lia|].
  destruct IH as [(d&Hd)|IH]; [|right; exact IH].
  destruct (lock_freed (i + d) ltac:(lia)) as (j&Hj&Hfree).
  destruct (fair_calls _ _ _ F t j) as (k&Hk&G).
  destruct (stays_or_moves t i (k - i)) as [S|(k'&L&S1&S2)].
  2:{ right. exists k'. split; [lia|]. split; [exact S1|congruence]. }
  replace (i + (k - i))%nat with k in S by lia. rewrite Ho in S.
  destruct G as [G|G]; [right; exists k; split; [lia|]; split; [apply proceeds_label, G|exact S]|].
  left. exists (k - i)%nat.
  destruct (lock_taken j (k - j) Hfree) as (x&Hx&Hy).
  { replace (j + (k - j))%nat with k by lia. intro N. apply G. exists (LCl t true). split; [left; eauto|].
    cbn [step]. rewrite (fair_kept _ _ _ F k). unfold cl_step. rewrite S, N. unfold after_lock.
    destruct o; try discriminate; destruct (op_cemi _ _); discriminate. }
  rewrite (filter_split _ i d (k - i) ltac:(lia)).
  pose proof (filter_one (hands_over st lb) (i + d) (k - i - d) x ltac:(lia) Hy). lia.
Qed.
Lemma gets_mutex t o i : (i0 <= i)%nat -> s_clients (st i) t = CLock o ->
  exists k, (i <= k)%nat /\ call_label (lb k) = Some t /\ s_clients (st k) t = CLock o.
Proof.
  intros Hi Ho. destruct (fair_mutex _ _ _ F t o i Ho) as (n&Hn).
  destruct (passed_over t o i (S n) Hi Ho) as [(d&Hd)|G]; [|exact G].
  destruct (Hn d ltac:(lia)) as (k&ok&Hk&G).
  assert (Gl : call_label (lb k) = Some t) by (destruct G as [->| ->]; reflexivity).
  destruct (stays_or_moves t i (k - i)) as [S|(k'&L&S1&S2)].
  - replace (i + (k - i))%nat with k in S by lia. exists k. split; [lia|]. split; [exact Gl|congruence].
  - exists k'. split; [lia|]. split; [exact S1|congruence].
Qed.

Lemma lock_step s l s' e t o :
  step c s l = Some (s', e) -> call_label l = Some t -> s_clients s t = CLock o -> o <> ONextMsg ->
  existsb (call_end t) e = true \/ (holds (s_clients s' t) = true /\ pc_op (s_clients s' t) = Some o).
Proof.
  intros Hs Hl Ho Hn.
  destruct l; try discriminate Hl; injection Hl as ->; open_step Hs; rewrite Ho in Hs; cbn [pc_op] in Hs; break Hs; injection Hs as <- <-;
    sys; rewrite ?upd_same; cbn [holds pc_op existsb app call_end]; rewrite ?Nat.eqb_refl; auto.
Qed.

Theorem calls_end i t o :
  pc_op (s_clients (st i) t) = Some o -> o <> ONextMsg -> is_over es t i.
Proof.
  intros Ho Hn.
  assert (Fin : forall j, (i <= j)%nat -> existsb (call_end t) (es j) = true -> is_over es t i).
  { intros j Hj G. apply existsb_exists in G. destruct G as (e&G1&G2). exists j, e. auto. }
  assert (Hold : forall k, (i <= k)%nat -> (i0 <= k)%nat -> holds (s_clients (st k) t) = true -> pc_op (s_clients (st k) t) = Some o -> is_over es t i).
  { intros k Hk Hk0 G1 G2. destruct (Hcalls _ _ _ G2) as (A1&A2).
    destruct (holder_ends k t o Hk0 G1 G2 A1 A2) as (j&Hj&_&_&G). apply (Fin j); [lia|exact G]. }
  assert (Main : forall k, (i <= k)%nat -> (i0 <= k)%nat -> pc_op (s_clients (st k) t) = Some o -> is_over es t i).
  { intros k Hk Hk0 G. destruct (holds (s_clients (st k) t)) eqn:Hh; [eapply Hold; eauto|].
    destruct (s_clients (st k) t) as [|o1|o1 ?|o1 ? ?|o1|o1 ch|o1 bs|o1 dl|o1| |] eqn:Ec; cbn in Hh, G; try discriminate.
    - injection G as ->. destruct (gets_mutex t o k Hk0 Ec) as (j&Hj&Hl&Hc).
      destruct (lock_step _ _ _ _ _ _ (en_step _ _ _ _ _ _ _ E j) Hl Hc Hn) as [A|(A1&A2)].
      + apply (Fin j); [lia|exact A].
      + apply (Hold (S j)); auto; lia.
    - injection G as ->. destruct o; congruence. }
  (* up to i0 *)
  assert (Pre : forall d, is_over es t i \/ pc_op (s_clients (st (i + d)) t) = Some o).
  { induction d as [|d IH]; [right; rewrite Nat.add_0_r; exact Ho|].
    destruct IH as [IH|IH]; [left; exact IH|].
    pose proof (en_step _ _ _ _ _ _ _ E (i + d)) as Hs. rewrite Nat.add_succ_r.
    assert (D : call_label (lb (i + d)) = Some t \/ call_label (lb (i + d)) <> Some t).
    { destruct (call_label (lb (i + d))) as [u|]; [|right; discriminate]. destruct (Nat.eq_dec u t); [left|right]; congruence. }
    destruct D as [D|D]; [|right; rewrite (clients_frame _ _ _ _ _ t Hs D); exact IH].
    destruct (holds (s_clients (st (i + d)) t)) eqn:Hh.
    - destruct (own_step _ _ _ _ _ _ _ Hs D (proj1 (holder_held _ t) Hh) Hh (fits _ t) IH (proj1 (Hcalls _ _ _ IH))) as [(_&_&A)|(_&A&_)].
      + left. apply (Fin (i + d)%nat); [lia|exact A].
      + right. exact A.
    - destruct (s_clients (st (i + d)) t) as [|o1|o1 ?|o1 ? ?|o1|o1 ch|o1 bs|o1 dl|o1| |] eqn:Ec; cbn in Hh, IH; try discriminate.
      + injection IH as ->. destruct (lock_step _ _ _ _ _ _ Hs D Ec Hn) as [A|(_&A)]; [left; apply (Fin (i + d)%nat); [lia|exact A]|right; exact A].
      + injection IH as ->. destruct o; congruence. }
  destruct (Pre i0) as [A|A]; [exact A|]. apply (Main (i + i0)%nat); auto; lia.
Qed.
End Fair.

Lemma call_is_invoked c start ls tr s t o : exec c start ls tr s -> pc_op (s_clients s t) = Some o -> In (EvInvoke t o) (evs tr).
Proof.
  intros H Ho. destruct (hist_in_call _ _ _ _ _ _ _ H Ho) as (body&h&n&Eq&_).
  apply in_evs. exists n. assert (I : In (n, EvInvoke t o) (call_events t tr)) by (rewrite Eq; apply in_or_app; right; left; reflexivity).
  apply filter_In in I. apply I.
Qed.

Theorem transfers_end c start ls tr0 st lb es :
  endless c start ls tr0 st lb es -> fair c st lb ->
  only_calls is_write tr0 st es \/ (only_calls is_transfer tr0 st es /\ exists i0, falls_silent es i0) ->
  forall i t o body, in_call t o (upto tr0 st es i) body -> is_over es t i.
Proof.
  intros E F H i t o body I.
  assert (X : forall k, exec c start ls (upto tr0 st es k) (st k)) by (intro k; eapply upto_exec; eauto).
  destruct (in_call_pc _ _ _ _ _ _ _ _ (X i) I) as (Ho&_).
  assert (Tr : only_calls is_transfer tr0 st es).
  { destruct H as [H|(H&_)]; [|exact H]. intros k u o' G. specialize (H k u o' G). destruct o'; cbn in *; tauto. }
  assert (Q : exists i0, forall k u o', pc_op (s_clients (st k) u) = Some o' -> asks o' = false /\ quiet_for es i0 o').
  { destruct H as [H|(_&i0&S)].
    - exists 0%nat. intros k u o' G. pose proof (H k u o' (call_is_invoked _ _ _ _ _ _ _ (X k) G)) as W.
      destruct o'; cbn in W; try contradiction. split; [reflexivity|]. intros (a0&Y). discriminate Y.
    - exists i0. intros k u o' G. pose proof (Tr k u o' (call_is_invoked _ _ _ _ _ _ _ (X k) G)) as W.
      split; [destruct o'; cbn in W; tauto|]. intros _. exact S. }
  destruct Q as (i0&Q).
  pose proof (Tr i t o (call_is_invoked _ _ _ _ _ _ _ (X i) Ho)) as W.
  assert (M : c_mode c = MClient).
  { rewrite <- (op_mode_inv _ _ _ _ _ (X i) _ _ Ho). destruct o; cbn in W; tauto. }
  eapply (calls_end c start ls tr0 st lb es E F i0); eauto.
  - apply (always_open c st lb F). intros k _. eapply client_not_locked; eauto.
  - destruct o; cbn in W; try contradiction; discriminate.
Qed.

Theorem monitor_calls_end c start ls tr0 st lb es :
  endless c start ls tr0 st lb es -> fair c st lb -> only_calls is_monitor_call tr0 st es ->
  (exists i0, forall t, open_polled c st lb i0 t) ->
  forall i t o body, in_call t o (upto tr0 st es i) body -> o <> ONextMsg -> is_over es t i.
Proof.
  intros E F H (i0&H0) i t o body I N.
  assert (X : forall k, exec c start ls (upto tr0 st es k) (st k)) by (intro k; eapply upto_exec; eauto).
  destruct (in_call_pc _ _ _ _ _ _ _ _ (X i) I) as (Ho&_).
  eapply (calls_end c start ls tr0 st lb es E F i0 H0); eauto.
  intros k u o' G. pose proof (H k u o' (call_is_invoked _ _ _ _ _ _ _ (X k) G)) as W.
  split; [destruct o'; cbn in W; tauto|]. intros (a&->). contradiction W.
Qed.
