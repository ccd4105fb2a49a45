(** Only elapsed time matters: shifting the clock of a state shifts its behaviour;
    periodic endless executions. *)
From Verif Require Import Base Addresses Apdu Tunneling Emi Core Transport Wire Spec TraceSpec LiveSpec TransportBase.
From Coq Require Import Lia ZifyBool ZifyNat ZifyN.
Open Scope N_scope.

Definition sh_bg (D : N) (b : bg_pc) : bg_pc :=
  match b with BConnWait d => BConnWait (d + D) | BConnSleep d => BConnSleep (d + D) | _ => b end.
Definition pc_sim (D : N) (pc pc' : client_pc) : Prop :=
  match pc with
  | CWaitQ o d =>
      match o with
      | ORead _ | OWrite _ _ _ => pc' = CWaitQ o (d + D)
      | _ => exists d', pc' = CWaitQ o d'   (* no deadline is used *)
      end
  | _ => pc' = pc
  end.
Record sim (D : N) (s s' : sys) : Prop := {
  m_now : s_now s' = s_now s + D;
  m_conn : s_conn s' = s_conn s;
  m_rxq : s_rxq s' = s_rxq s;
  m_alive : s_rx_alive s' = s_rx_alive s;
  m_inbox : s_inbox s' = s_inbox s;
  m_bg : s_bg s' = sh_bg D (s_bg s);
  (* a tick long overdue is reckoned from now *)
  m_hb : s_hb s' = s_hb s + D \/ (s_hb s + 5 < s_now s /\ s_hb s' + 5 < s_now s');
  m_tlock : s_tlock s' = s_tlock s;
  m_clients : forall t, pc_sim D (s_clients s t) (s_clients s' t);
  m_listeners : forall l, s_listeners s' l = s_listeners s l;
  m_onconn : s_onconn s' = s_onconn s
}.
Definition same_step (D : N) (r r' : option (sys * list event)) : Prop :=
  match r, r' with
  | Some (a, e), Some (b, e') => e' = e /\ sim D a b
  | None, None => True
  | _, _ => False
  end.

Lemma sim_unlock D s s' t : sim D s s' -> sim D (unlock s t) (unlock s' t).
Proof. intros []. constructor; sys; try rewrite m_tlock0; auto. Qed.
Lemma sim_upd D s s' t pc pc' : sim D s s' -> pc_sim D pc pc' -> sim D (set_client s t pc) (set_client s' t pc').
Proof.
  intros [] P. constructor; sys; auto. intro u. unfold upd. destruct (Nat.eqb u t); auto.
Qed.
Lemma sim_finish D s s' t o r e : sim D s s' -> same_step D (finish s t o r e) (finish s' t o r e).
Proof. intro H. split; [reflexivity|]. apply sim_upd; [apply sim_unlock, H|reflexivity]. Qed.
Lemma sim_crash D s s' t o e : sim D s s' -> same_step D (crash s t o e) (crash s' t o e).
Proof. intro H. split; [reflexivity|]. apply sim_upd; [apply sim_unlock, H|reflexivity]. Qed.
Lemma sim_goto D s s' t pc pc' e : sim D s s' -> pc_sim D pc pc' -> same_step D (goto s t pc e) (goto s' t pc' e).
Proof. intros H P. split; [reflexivity|]. apply sim_upd; assumption. Qed.
Lemma sim_conn D s s' x : sim D s s' -> sim D (set_conn s x) (set_conn s' x).
Proof. intros []. constructor; sys; auto; congruence. Qed.
Lemma sim_rxq D s s' x : sim D s s' -> sim D (set_rxq s x) (set_rxq s' x).
Proof. intros []. constructor; sys; auto; congruence. Qed.
Lemma sim_inbox D s s' x : sim D s s' -> sim D (set_inbox s x) (set_inbox s' x).
Proof. intros []. constructor; sys; auto; congruence. Qed.
Lemma sim_tlock D s s' x : sim D s s' -> sim D (set_tlock s x) (set_tlock s' x).
Proof. intros []. constructor; sys; auto; congruence. Qed.
Lemma sim_onconn D s s' x : sim D s s' -> sim D (set_onconn s x) (set_onconn s' x).
Proof. intros []. constructor; sys; auto; congruence. Qed.
Lemma sim_alive D s s' x : sim D s s' -> sim D (set_rx_alive s x) (set_rx_alive s' x).
Proof. intros []. constructor; sys; auto; congruence. Qed.
Lemma sim_bg D s s' x y : sim D s s' -> y = sh_bg D x -> sim D (set_bg s x) (set_bg s' y).
Proof. intros [] ->. constructor; sys; auto; congruence. Qed.
Lemma sim_now D s s' x : sim D s s' -> s_now s <= x -> sim D (set_now s x) (set_now s' (x + D)).
Proof. intros [] Hx. constructor; sys; auto. lia. Qed.
Lemma sim_hb D s s' x : sim D s s' -> sim D (set_hb s x) (set_hb s' (x + D)).
Proof. intros []. constructor; sys; auto; congruence. Qed.
Lemma sim_listener D s s' l x : sim D s s' -> sim D (set_listener s l x) (set_listener s' l x).
Proof. intros []. constructor; sys; auto. intro u. unfold upd. destruct (Nat.eqb u l); auto. Qed.
Lemma leb_shift a b D : (a + D <=? b + D) = (a <=? b).
Proof. destruct (N.leb_spec a b); destruct (N.leb_spec (a + D) (b + D)); auto; lia. Qed.
Lemma tick_shift h n D : next_tick (h + D) (n + D) = next_tick h n + D.
Proof. unfold next_tick. destruct (N.ltb_spec (h + D + 5) (n + D)); destruct (N.ltb_spec (h + 5) n); lia. Qed.
Lemma same_some D s s' e : sim D s s' -> same_step D (Some (s, e)) (Some (s', e)).
Proof. split; auto. Qed.

Ltac bgo := apply sim_bg; [first [assumption | first [apply sim_conn | apply sim_inbox | apply sim_onconn | apply sim_listener | apply sim_rxq | apply sim_hb]; assumption] | first [reflexivity | cbn; f_equal; lia]].
Lemma sim_bg_step D c s s' ok : sim D s s' -> same_step D (bg_step c s ok) (bg_step c s' ok).
Proof.
  intro H. pose proof H as []. unfold bg_step. rewrite m_bg0, m_now0, m_conn0, m_rxq0, m_alive0, m_inbox0, m_onconn0.
  destruct (s_bg s) as [| |d|d|r|r|[|l todo] active| |ch sq k|m|r| | | |]; cbn [sh_bg].
  - apply same_some. destruct (s_conn s); bgo.
  - apply same_some. destruct ok; bgo.
  - destruct (s_inbox s) as [|x rest]; [exact I|]. apply same_some.
    destruct (accept_connection x); [destruct (c_mode c)|];
      bgo.
  - rewrite leb_shift. destruct (_ <=? _); [|exact I]. apply same_some; bgo.
  - apply same_some. destruct ok; bgo.
  - apply same_some. destruct (c_mode c); bgo.
  - apply same_some; bgo.
  - rewrite m_listeners0. destruct (li_alive _); [|apply same_some; bgo].
    destruct (Nat.ltb _ _); [|exact I]. apply same_some; bgo.
  - destruct (s_inbox s) as [|x rest]; [exact I|]. apply same_some.
    replace (dispatch x) with (sh_bg D (dispatch x)) at 2.
    + bgo.
    + unfold dispatch. destruct x; [reflexivity|]. destruct (parse_response _) as [[]| |]; try reflexivity. destruct (_ =? _); reflexivity.
  - apply same_some. destruct ok; [|bgo].
    replace (after_ack (c_prof c) k) with (sh_bg D (after_ack (c_prof c) k)) at 2.
    + bgo.
    + unfold after_ack. destruct k; [destruct (run_on _ _)|]; reflexivity.
  - destruct (s_rx_alive s); [|apply same_some; bgo].
    destruct (Nat.ltb _ _); [|exact I]. apply same_some; bgo.
  - apply same_some; bgo.
  - destruct (s_conn s); apply same_some; [destruct ok|]; bgo.
  - apply same_some; bgo.
  - exact I.
  - exact I.
Qed.

Lemma locked_shift D s s' : sim D s s' -> cd_locked s' = cd_locked s.
Proof. intros []. unfold cd_locked. rewrite m_bg0. destruct (s_bg s); reflexivity. Qed.
Lemma gone_shift D s s' : sim D s s' -> bg_gone s' = bg_gone s.
Proof. intros []. unfold bg_gone. rewrite m_bg0. destruct (s_bg s); reflexivity. Qed.

Lemma wait_sim D o n k : pc_sim D (CWaitQ o (n + k)) (CWaitQ o (n + D + k)).
Proof. replace (n + D + k) with (n + k + D) by lia. destruct o; cbn; eauto. Qed.
Ltac go_sim := first [apply sim_finish | apply sim_crash | apply sim_goto]; auto using wait_sim.
Lemma sim_on_message D s s' t o d d' m : sim D s s' -> same_step D (on_message s t o d m) (on_message s' t o d' m).
Proof.
  intro H. unfold on_message. pose proof (m_now _ _ _ H) as ->.
  destruct o; try exact I; repeat match goal with |- context [match ?x with _ => _ end] => destruct x end; go_sim.
Qed.
Lemma sim_on_datagram D s s' t o d : sim D s s' -> same_step D (on_datagram s t o d) (on_datagram s' t o d).
Proof. intro H. unfold on_datagram. destruct o; try exact I; go_sim. Qed.
Lemma sim_after_lock D c s s' t o : sim D s s' -> same_step D (after_lock c s t o) (after_lock c s' t o).
Proof.
  intro H. unfold after_lock. destruct o; try (destruct (op_cemi _ _)); go_sim; try reflexivity; [apply sim_unlock, H|cbn; eauto].
Qed.

Lemma sim_cl_step D c s s' t ok : sim D s s' -> same_step D (cl_step c s t ok) (cl_step c s' t ok).
Proof.
  intro H. unfold cl_step. pose proof (m_clients _ _ _ H t) as P.
  rewrite (locked_shift _ _ _ H), (gone_shift _ _ _ H), (m_tlock _ _ _ H), (m_conn _ _ _ H), (m_rxq _ _ _ H), (m_inbox _ _ _ H), (m_now _ _ _ H), (m_onconn _ _ _ H).
  destruct (s_clients s t) as [|o|o pkt|o pkt sq|o|o ch|o bs|o dl|o| |l]; cbn [pc_sim] in P; try rewrite P.
  - exact I.
  - destruct (s_tlock s); [exact I|]. apply sim_after_lock, sim_tlock, H.
  - destruct (cd_locked s); [exact I|]. destruct (s_conn s) as [cd|]; [|go_sim]. apply sim_goto; [apply sim_conn, H|reflexivity].
  - destruct (cd_locked s); [exact I|]. destruct (s_conn s) as [cd|]; [|go_sim]. destruct (tunneling_request_packet _ _); go_sim; reflexivity.
  - destruct (cd_locked s); [exact I|]. destruct (s_conn s) as [cd|]; go_sim; reflexivity.
  - destruct (cd_locked s); [exact I|]. destruct (s_conn s) as [cd|]; [|go_sim]. destruct o; go_sim; reflexivity.
  - destruct o; try exact I; destruct ok; go_sim; try reflexivity. cbn; eauto.
  - assert (Q : exists d', s_clients s' t = CWaitQ o d') by (destruct o; eauto). destruct Q as (d'&->).
    destruct (s_rxq s) as [|m q].
    + destruct (bg_gone s); [go_sim|exact I].
    + apply sim_on_message, sim_rxq, H.
  - destruct (s_inbox s) as [|d rest]; [exact I|]. apply sim_on_datagram, sim_inbox, H.
  - destruct (cd_locked s); [exact I|]. go_sim.
  - destruct (cd_locked s); [exact I|]. apply sim_finish, sim_onconn, H.
Qed.

Theorem sim_step D c s s' l : sim D s s' -> same_step D (step c s l) (step c s' l).
Proof.
  intro H. pose proof (m_alive _ _ _ H) as Ha. destruct l; cbn [step]; try rewrite Ha; try (destruct (s_rx_alive s); [|exact I]).
  - apply same_some. rewrite (m_now _ _ _ H). replace (s_now s + D + dt) with (s_now s + dt + D) by lia. apply sim_now; [exact H|lia].
  - apply same_some. rewrite (m_inbox _ _ _ H). apply sim_inbox, H.
  - apply sim_bg_step, H.
  - unfold bg_recv_err. rewrite (m_bg _ _ _ H), (m_now _ _ _ H). destruct (s_bg s); try exact I; apply same_some.
    + replace (s_now s + D + ms_retry) with (s_now s + ms_retry + D) by lia. bgo.
    + bgo.
  - unfold bg_timeout. rewrite (m_bg _ _ _ H), (m_now _ _ _ H). destruct (s_bg s); try exact I. cbn [sh_bg]. rewrite leb_shift.
    destruct (_ <=? _); [|exact I]. apply same_some.
    replace (s_now s + D + ms_retry) with (s_now s + ms_retry + D) by lia. bgo.
  - unfold bg_tick. cbv zeta. rewrite (m_bg _ _ _ H).
    assert (T : (s_hb s' <=? s_now s') = (s_hb s <=? s_now s) /\ next_tick (s_hb s') (s_now s') = next_tick (s_hb s) (s_now s) + D).
    { pose proof (m_now _ _ _ H) as Hn. destruct (m_hb _ _ _ H) as [Hh|(H1&H2)].
      - rewrite Hn, Hh, leb_shift, tick_shift. auto.
      - unfold next_tick. replace (s_hb s' + 5 <? s_now s') with true by lia. replace (s_hb s + 5 <? s_now s) with true by lia. lia. }
    destruct T as (->&->).
    destruct (s_bg s); try exact I; cbn [sh_bg]; destruct (_ <=? _); try exact I;
      apply same_some; bgo.
  - unfold invoke. pose proof (m_clients _ _ _ H t) as P. destruct (s_clients s t) as [|o1|o1 pkt|o1 pkt sq|o1|o1 ch|o1 bs|o1 dl|o1| |l]; cbn [pc_sim] in P; try rewrite P; try exact I.
    + destruct (c_mode c), (op_mode o); try exact I; (destruct (op_apdu o); apply same_some; [|..|exact H]; apply sim_upd; auto; reflexivity).
    + assert (Q : exists d', s_clients s' t = CWaitQ o1 d') by (destruct o1; eauto). destruct Q as (d'&->). exact I.
  - apply sim_cl_step, H.
  - unfold cl_sock_err. pose proof (m_clients _ _ _ H t) as P. destruct (s_clients s t) as [|o1|o1 pkt|o1 pkt sq|o1|o1 ch|o1 bs|o1 dl|o1| |l]; cbn [pc_sim] in P; try rewrite P; try exact I.
    + assert (Q : exists d', s_clients s' t = CWaitQ o1 d') by (destruct o1; eauto). destruct Q as (d'&->). exact I.
    + destruct o1; go_sim.
  - unfold cl_timeout. pose proof (m_clients _ _ _ H t) as P. destruct (s_clients s t) as [|o1|o1 pkt|o1 pkt sq|o1|o1 ch|o1 bs|o1 dl|o1| |l]; cbn [pc_sim] in P; try rewrite P; try exact I.
    destruct o1; try (destruct P as (d'&P)); rewrite P; try exact I; rewrite (m_now _ _ _ H), leb_shift; (destruct (_ <=? _); [go_sim|exact I]).
  - unfold cl_dbg. pose proof (m_clients _ _ _ H t) as P. destruct (s_clients s t) as [|o1|o1 pkt|o1 pkt sq|o1|o1 ch|o1 bs|o1 dl|o1| |l]; cbn [pc_sim] in P; try rewrite P; try exact I.
    + rewrite (m_conn _ _ _ H). destruct o1; try exact I. destruct (s_conn s); [exact I|go_sim].
    + assert (Q : exists d', s_clients s' t = CWaitQ o1 d') by (destruct o1; eauto). destruct Q as (d'&->). exact I.
  - unfold cl_cancel. pose proof (m_clients _ _ _ H t) as P.
    assert (Q : pc_op (s_clients s' t) = pc_op (s_clients s t)).
    { destruct (s_clients s t) as [|o1|o1 pkt|o1 pkt sq|o1|o1 ch|o1 bs|o1 dl|o1| |l]; cbn [pc_sim] in P; try rewrite P; try reflexivity.
      destruct o1; try (destruct P as (d'&P)); rewrite P; reflexivity. }
    rewrite Q. destruct (pc_op (s_clients s t)); [|exact I]. apply same_some, sim_upd; [apply sim_unlock, H|reflexivity].
  - rewrite (m_listeners _ _ _ H). destruct (li_count _); [exact I|]. apply same_some, sim_listener, H.
  - rewrite (m_listeners _ _ _ H). apply same_some, sim_listener, H.
  - rewrite (m_tlock _ _ _ H). destruct (s_tlock s); [exact I|]. apply same_some, sim_alive, H.
Qed.

(** ** Executions started later *)
Lemma later_app D a b : later D (a ++ b) = later D a ++ later D b.
Proof. apply map_app. Qed.
Lemma later_stamp D n e : later D (stamp n e) = stamp (n + D) e.
Proof. unfold later, stamp. rewrite map_map. reflexivity. Qed.
Lemma sim_init D start ls : sim D (init_sys start ls) (init_sys (start + D) ls).
Proof. constructor; try reflexivity. left. reflexivity. Qed.
Theorem exec_later c start ls tr s D :
  exec c start ls tr s -> exists s', exec c (start + D) ls (later D tr) s' /\ sim D s s'.
Proof.
  intro H. induction H as [|tr s l s1 e H (s'&IH&Hm) Hs]; [eexists; split; [constructor|apply sim_init]|].
  pose proof (sim_step D c s s' l Hm) as G. rewrite Hs in G. unfold same_step in G.
  destruct (step c s' l) as [[s1' e']|] eqn:Hs'; [|contradiction]. destruct G as (->&G).
  exists s1'. split; [|exact G]. rewrite later_app, later_stamp, <- (m_now _ _ _ Hm). econstructor; eauto.
Qed.
Theorem exec_earlier c start ls tr' s' D :
  exec c (start + D) ls tr' s' -> exists tr s, tr' = later D tr /\ exec c start ls tr s /\ sim D s s'.
Proof.
  intro H. remember (start + D) as st eqn:Est. induction H as [|tr' s' l s1' e H IH Hs]; subst.
  - exists [], (init_sys start ls). split; [reflexivity|]. split; [constructor|apply sim_init].
  - destruct IH as (tr&s&->&Hx&Hm). pose proof (sim_step D c s s' l Hm) as G. rewrite Hs in G. unfold same_step in G.
    destruct (step c s l) as [[s1 e']|] eqn:Hs'; [|contradiction]. destruct G as (->&G).
    exists (tr ++ stamp (s_now s) e'), s1. rewrite later_app, later_stamp, <- (m_now _ _ _ Hm).
    split; [reflexivity|]. split; [econstructor; eauto|exact G].
Qed.

(** ** Repeating a schedule for ever *)
Lemma sim_trans D D' a b x : sim D a b -> sim D' b x -> sim (D + D') a x.
Proof.
  intros [] []. constructor; try congruence; try lia.
  - rewrite m_bg1, m_bg0. destruct (s_bg a); cbn; rewrite ?N.add_assoc; reflexivity.
  - intro t. specialize (m_clients0 t). specialize (m_clients1 t).
    destruct (s_clients a t) as [|o1|o1 pkt|o1 pkt sq|o1|o1 ch|o1 bs|o1 dl|o1| |l]; cbn [pc_sim] in *;
      try (rewrite m_clients0 in m_clients1; exact m_clients1).
    destruct o1; try (destruct m_clients0 as (d'&m_clients0)); rewrite m_clients0 in m_clients1; cbn in m_clients1; rewrite ?N.add_assoc; exact m_clients1.
Qed.
Lemma sim_refl s : sim 0 s s.
Proof.
  constructor; try reflexivity; try lia.
  - destruct (s_bg s); cbn; rewrite ?N.add_0_r; reflexivity.
  - intro t. destruct (s_clients s t) as [|o1|o1 pkt|o1 pkt sq|o1|o1 ch|o1 bs|o1 dl|o1| |l]; try reflexivity.
    destruct o1; cbn; rewrite ?N.add_0_r; eauto.
Qed.

Definition at_step (c : cfg) (s : sys) (cyc : list label) (r : nat) : sys :=
  match run c s (firstn r cyc) with Some (x, _) => x | None => s end.
Definition label_of (cyc : list label) (n : nat) : label := nth (n mod length cyc) cyc LTick.
Fixpoint state_of (c : cfg) (s : sys) (cyc : list label) (n : nat) : sys :=
  match n with
  | O => s
  | S m => match step c (state_of c s cyc m) (label_of cyc m) with Some (x, _) => x | None => s end
  end.
Definition events_of (c : cfg) (s : sys) (cyc : list label) (n : nat) : list event :=
  match step c (state_of c s cyc n) (label_of cyc n) with Some (_, e) => e | None => [] end.

Lemma run_step_at c s cyc s1 tr r :
  run c s cyc = Some (s1, tr) -> (r < length cyc)%nat ->
  exists e, step c (at_step c s cyc r) (nth r cyc LTick) = Some (at_step c s cyc (S r), e).
Proof.
  intros H Hr. unfold at_step.
  rewrite <- (firstn_skipn (S r) cyc), run_app in H.
  destruct (run c s (firstn (S r) cyc)) as [[x tx]|] eqn:Ex; [|discriminate].
  assert (Es : firstn (S r) cyc = firstn r cyc ++ [nth r cyc LTick]).
  { clear -Hr. revert r Hr. induction cyc as [|a cyc IH]; intros r Hr; [cbn in Hr; lia|].
    destruct r as [|r]; [reflexivity|]. cbn [firstn nth app]. f_equal. apply (IH r). cbn in Hr. lia. }
  rewrite Es, run_app in Ex. destruct (run c s (firstn r cyc)) as [[y ty]|]; [|discriminate].
  cbn in Ex. destruct (step c y (nth r cyc LTick)) as [[z e]|]; [|discriminate]. injection Ex as <- _. eauto.
Qed.

Lemma split_nth (q : list label) r : (r < length q)%nat -> firstn r q ++ [nth r q LTick] ++ skipn (S r) q = q.
Proof.
  revert r. induction q as [|a q IH]; intros r Hb; [cbn in Hb; lia|].
  destruct r as [|r]; [reflexivity|]. cbn [firstn nth skipn app]. f_equal. apply (IH r). cbn in Hb. lia.
Qed.
Section Periodic.
Variables (c : cfg) (s : sys) (cyc : list label) (s1 : sys) (tr : trace) (P : N).
Hypothesis (Hrun : run c s cyc = Some (s1, tr)) (Hsim : sim P s s1) (HP : 0 < P).
Let p := length cyc.
Lemma p_pos : (0 < p)%nat.
Proof.
  subst p. destruct cyc; [|cbn; lia]. cbn in Hrun. injection Hrun as <- _. pose proof (m_now _ _ _ Hsim). lia.
Qed.
Lemma at_end : at_step c s cyc p = s1.
Proof. unfold at_step, p. rewrite firstn_all, Hrun. reflexivity. Qed.
Lemma succ_mod n : (S (n mod p) < p)%nat -> (S n mod p = S (n mod p) /\ S n / p = n / p)%nat.
Proof.
  intro H. pose proof p_pos. pose proof (Nat.div_mod n p ltac:(lia)) as E.
  split; symmetry; [apply Nat.mod_unique with (n / p)%nat | apply Nat.div_unique with (S (n mod p))]; lia.
Qed.
Lemma succ_wrap n : (S (n mod p) = p -> S n mod p = 0 /\ S n / p = S (n / p))%nat.
Proof.
  intro H. pose proof p_pos. pose proof (Nat.div_mod n p ltac:(lia)) as E.
  split; symmetry; [apply Nat.mod_unique with (S (n / p)) | apply Nat.div_unique with 0%nat]; nia.
Qed.
Lemma periodic n :
  sim (N.of_nat (n / p) * P) (at_step c s cyc (n mod p)) (state_of c s cyc n) /\
  exists e, step c (state_of c s cyc n) (label_of cyc n) = Some (state_of c s cyc (S n), e).
Proof.
  pose proof p_pos as Hp.
  assert (Go : forall n, sim (N.of_nat (n / p) * P) (at_step c s cyc (n mod p)) (state_of c s cyc n) ->
    exists e, step c (state_of c s cyc n) (label_of cyc n) = Some (state_of c s cyc (S n), e) /\
      sim (N.of_nat (n / p) * P) (at_step c s cyc (S (n mod p))) (state_of c s cyc (S n))).
  { intros k Hk. pose proof (Nat.mod_upper_bound k p ltac:(lia)) as Hb.
    destruct (run_step_at _ _ _ _ _ (k mod p) Hrun Hb) as (e&He).
    pose proof (sim_step _ c _ _ (label_of cyc k) Hk) as G. unfold label_of in G at 1. fold p in G. rewrite He in G. unfold same_step in G.
    cbn [state_of]. destruct (step c (state_of c s cyc k) (label_of cyc k)) as [[x e']|]; [|contradiction]. destruct G as (->&G). eauto. }
  induction n as [|n (IH&_)].
  - rewrite Nat.mod_0_l, Nat.div_0_l by lia. assert (Z : sim (N.of_nat 0 * P) (at_step c s cyc 0) (state_of c s cyc 0)) by apply sim_refl.
    split; [exact Z|]. destruct (Go 0%nat) as (e&He&_); [rewrite Nat.mod_0_l, Nat.div_0_l by lia; exact Z|]. eauto.
  - assert (Z : sim (N.of_nat (S n / p) * P) (at_step c s cyc (S n mod p)) (state_of c s cyc (S n))).
    { destruct (Go n IH) as (e&_&Hn). pose proof (Nat.mod_upper_bound n p ltac:(lia)) as Hb.
      destruct (Nat.eq_dec (S (n mod p)) p) as [Eq|Ne].
      - destruct (succ_wrap n Eq) as (->&->). rewrite Eq, at_end in Hn.
        replace (N.of_nat (S (n / p)) * P) with (P + N.of_nat (n / p) * P) by lia.
        eapply sim_trans; [exact Hsim|exact Hn].
      - destruct (succ_mod n ltac:(lia)) as (->&->). exact Hn. }
    split; [exact Z|]. destruct (Go (S n) Z) as (e&He&_). eauto.
Qed.

Theorem periodic_endless start ls tr0 :
  exec c start ls tr0 s -> endless c start ls tr0 (state_of c s cyc) (label_of cyc) (events_of c s cyc).
Proof.
  intro H. constructor; [exact H|]. intro i. destruct (periodic i) as (_&e&He). unfold events_of. rewrite He. reflexivity.
Qed.
Lemma recurs i r : (r < p)%nat -> exists j, (i <= j)%nat /\ (j mod p = r)%nat.
Proof.
  intro Hr. pose proof p_pos. exists ((S (i / p)) * p + r)%nat. split.
  - pose proof (Nat.div_mod i p ltac:(lia)). pose proof (Nat.mod_upper_bound i p ltac:(lia)). nia.
  - rewrite Nat.add_comm, Nat.mod_add by lia. apply Nat.mod_small, Hr.
Qed.
Lemma blocked_at n l : step c (at_step c s cyc (n mod p)) l = None -> step c (state_of c s cyc n) l = None.
Proof.
  intro H. destruct (periodic n) as (Hm&_). pose proof (sim_step _ c _ _ l Hm) as G. rewrite H in G. cbn in G.
  destruct (step c (state_of c s cyc n) l) as [[]|]; [contradiction|reflexivity].
Qed.
Theorem periodic_fair :
  (forall t, exists r, (r < p)%nat /\ (proceeds t (nth r cyc LTick) \/ forall l, proceeds t l -> step c (at_step c s cyc r) l = None)) ->
  (exists r, (r < p)%nat /\ (bg_proceeds (nth r cyc LTick) \/ forall l, bg_proceeds l -> step c (at_step c s cyc r) l = None)) ->
  (forall t, (exists r ok, (r < p)%nat /\ (nth r cyc LTick = LCl t ok \/ nth r cyc LTick = LCancel t)) \/
             (forall r o, (r < p)%nat -> s_clients (at_step c s cyc r) t <> CLock o) \/
             (forall r u ok o, (r < p)%nat -> nth r cyc LTick = LCl u ok -> s_clients (at_step c s cyc r) u <> CLock o)) ->
  (forall r, (r < p)%nat -> s_rx_alive (at_step c s cyc r) = true) ->
  fair c (state_of c s cyc) (label_of cyc).
Proof.
  intros HA HB HC HD. pose proof p_pos as Hp. constructor.
  - intro n. exists (N.to_nat n * p)%nat. destruct (periodic (N.to_nat n * p)) as (Hm&_).
    rewrite Nat.div_mul in Hm by lia. rewrite (m_now _ _ _ Hm). nia.
  - intros t i. destruct (HA t) as (r&Hr&G). destruct (recurs i r Hr) as (j&Hj&Ej). exists j. split; [exact Hj|].
    unfold label_of. fold p. rewrite Ej. destruct G as [G|G]; [left; exact G|right].
    intros (l&L&N). apply N. apply blocked_at. rewrite Ej. apply G, L.
  - intro i. destruct HB as (r&Hr&G). destruct (recurs i r Hr) as (j&Hj&Ej). exists j. split; [exact Hj|].
    unfold label_of. fold p. rewrite Ej. destruct G as [G|G]; [left; exact G|right].
    intros l L. apply blocked_at. rewrite Ej. apply G, L.
  - intros t o i Ht. destruct (HC t) as [(r&ok&Hr&G)|[G|G]].
    + destruct (recurs i r Hr) as (j&Hj&Ej).
      exists (length (filter (hands_over (state_of c s cyc) (label_of cyc)) (seq i (j - i + 1)))). intros d Hd.
      exists j, ok. split.
      * split; [exact Hj|]. destruct (Nat.lt_ge_cases j (i + d)) as [L|L]; [exact L|exfalso].
        replace (j - i + 1)%nat with (d + (j - i + 1 - d))%nat in Hd by lia. rewrite seq_app, filter_app, app_length in Hd. lia.
      * unfold label_of. fold p. rewrite Ej. exact G.
    + exfalso. destruct (periodic i) as (Hm&_). pose proof (m_clients _ _ _ Hm t) as Q. rewrite Ht in Q.
      apply (G (i mod p)%nat o); [apply Nat.mod_upper_bound; lia|].
      destruct (s_clients (at_step c s cyc (i mod p)) t) as [|o1|o1 pkt|o1 pkt sq|o1|o1 ch|o1 bs|o1 dl|o1| |l]; cbn in Q; try congruence.
      destruct o1; try (destruct Q as (?&Q)); discriminate Q.
    + exists 0%nat. intros d Hd. exfalso.
      destruct (filter (hands_over (state_of c s cyc) (label_of cyc)) (seq i d)) as [|k q] eqn:Ef; [cbn in Hd; lia|].
      assert (I : In k (filter (hands_over (state_of c s cyc) (label_of cyc)) (seq i d))) by (rewrite Ef; left; reflexivity).
      apply filter_In in I. destruct I as (_&I). unfold hands_over, label_of in I. fold p in I.
      destruct (nth (k mod p) cyc LTick) as [| | | | | |u o'|u ok| | | | | | |] eqn:En; try discriminate I.
      destruct (periodic k) as (Hm&_). pose proof (m_clients _ _ _ Hm u) as Q.
      destruct (s_clients (at_step c s cyc (k mod p)) u) as [|o1|o1 pkt|o1 pkt sq|o1|o1 ch|o1 bs|o1 dl|o1| |l] eqn:Ec; cbn in Q;
        try (rewrite Q in I; discriminate I).
      * eapply (G (k mod p)%nat u ok o1); [apply Nat.mod_upper_bound; lia|exact En|exact Ec].
      * destruct o1; try (destruct Q as (?&Q)); rewrite Q in I; discriminate I.
  - intro i. destruct (periodic i) as (Hm&_). rewrite (m_alive _ _ _ Hm). apply HD, Nat.mod_upper_bound. lia.
Qed.
(** The events repeat. *)
Lemma events_recur n e : In e (events_of c s cyc n) -> exists n', In (n', e) tr.
Proof.
  intro H. destruct (periodic n) as (Hm&_). pose proof p_pos. pose proof (Nat.mod_upper_bound n p ltac:(lia)) as Hb.
  pose proof (sim_step _ c _ _ (label_of cyc n) Hm) as G. unfold events_of in H.
  destruct (step c (state_of c s cyc n) (label_of cyc n)) as [[x e']|]; [|contradiction H].
  destruct (step c (at_step c s cyc (n mod p)) (label_of cyc n)) as [[y e'']|] eqn:Ey; [|contradiction G]. destruct G as (->&_).
  assert (R : run c s (firstn (n mod p) cyc ++ [label_of cyc n] ++ skipn (S (n mod p)) cyc) = Some (s1, tr)).
  { rewrite <- Hrun. f_equal. apply split_nth, Hb. }
  rewrite run_app in R. unfold at_step in Ey. destruct (run c s (firstn (n mod p) cyc)) as [[z tz]|]; [|discriminate R].
  rewrite run_app in R. cbn [run] in R. rewrite Ey in R. destruct (run c y _) as [[w tw]|]; [|discriminate R].
  injection R as _ <-. exists (s_now z). apply in_or_app. right. rewrite app_nil_r. apply in_or_app. left.
  unfold stamp. apply (in_map (fun e0 => (s_now z, e0))), H.
Qed.
End Periodic.
