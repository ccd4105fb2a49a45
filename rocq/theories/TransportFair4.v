(** next_msg in fair endless executions. *)
From Verif Require Import Base Addresses Apdu Tunneling Emi Core Transport Wire Spec TraceSpec TraceSpec2 LiveSpec SessionSpec MonitorSpec
  TransportBase TransportInv TransportCalls TransportReturn TransportThm TransportThm3 TransportFair.
From Coq Require Import Lia ZifyBool ZifyNat ZifyN.
Open Scope N_scope.

(** The queue keeps its first bus message until a call of next_msg takes it. *)
Lemma queue_step c s l s' es a m b :
  step c s l = Some (s', es) -> s_rx_alive s' = true -> s_rxq s = a ++ m :: b -> bus_message m = true ->
  (forall t o, pc_op (s_clients s t) = Some o -> is_monitor_call o) ->
  (forall t, pc_fits (s_clients s t) = true) ->
  (exists b', s_rxq s' = a ++ m :: b') \/ (exists x a' b', a = x :: a' /\ s_rxq s' = a' ++ m :: b') \/
  (exists u e, In e es /\ next_msg_ends u e).
Proof.
  intros Hs Ha Hq Hm Ho Hf.
  destruct l; inv_step Hs; revert Ha; sys; intro Ha; try discriminate Ha; try (left; eauto; fail).
  all: try (exfalso; destruct a; discriminate Hq).
  all: try (left; exists (b ++ [c0]); rewrite Hq, <- app_assoc; reflexivity).
  all: try (exfalso; specialize (Ho t); specialize (Hf t);
    repeat match goal with E : s_clients _ _ = _ |- _ => rewrite E in *; clear E end; cbn in Ho, Hf;
    first [discriminate Hf | exact (Ho _ eq_refl)]).
  all: destruct a as [|x a]; cbn [app] in Hq; injection Hq as E1 E2; subst;
    [right; right | right; left; exists x, a, b; split; reflexivity].
  all: unfold bus_message in Hm; unfold code_LDataCon, code_LDataInd, code_LBusmonInd in *;
    first [ lia | eexists _, _; split; [right; left; reflexivity|right; eauto] ].
Qed.

Definition waits (pc : client_pc) : Prop := exists d, pc = CWaitQ ONextMsg d.
Lemma wait_step c s l s' es t :
  step c s l = Some (s', es) -> waits (s_clients s t) -> (exists e, In e es /\ next_msg_ends t e) \/ waits (s_clients s' t).
Proof.
  intros Hs (d&Hw). unfold waits.
  assert (D : call_label l = Some t \/ call_label l <> Some t).
  { destruct (call_label l) as [u|]; [|right; discriminate]. destruct (Nat.eq_dec u t); [left|right]; congruence. }
  destruct D as [D|D]; [|right; rewrite (clients_frame _ _ _ _ _ t Hs D); eauto].
  destruct l; try discriminate D; injection D as ->; open_step Hs; rewrite Hw in Hs; cbn [pc_op] in Hs; break Hs; injection Hs as <- <-;
    sys; rewrite ?upd_same; eauto; left; unfold next_msg_ends;
    first [eexists; split; [left; reflexivity|eauto; fail]|eexists; split; [right; left; reflexivity|eauto; fail]].
Qed.
Lemma turn_step c s l s' es t :
  step c s l = Some (s', es) -> call_label l = Some t -> s_clients s t = CLock ONextMsg ->
  (exists e, In e es /\ next_msg_ends t e) \/ waits (s_clients s' t).
Proof.
  intros Hs D Hw. unfold waits.
  destruct l; try discriminate D; injection D as ->; open_step Hs; rewrite Hw in Hs; cbn [pc_op] in Hs; break Hs; injection Hs as <- <-;
    sys; rewrite ?upd_same; eauto.
  left; eexists; (split; [left; reflexivity|]). unfold next_msg_ends; eauto.
Qed.

Section Next.
Variables (c : cfg) (start : N) (ls : nat -> listener) (tr0 : trace).
Variables (st : nat -> sys) (lb : nat -> label) (es : nat -> list event).
Hypothesis (E : endless c start ls tr0 st lb es) (F : fair c st lb) (O : only_calls is_monitor_call tr0 st es).
Lemma monitor_only i t o : pc_op (s_clients (st i) t) = Some o -> is_monitor_call o.
Proof. intro H. apply (O i t). eapply call_is_invoked; [eapply upto_exec; eauto|exact H]. Qed.

Lemma queue_upto d : forall i a m b, s_rxq (st i) = a ++ m :: b -> bus_message m = true ->
  (exists j u e, (i <= j)%nat /\ In e (es j) /\ next_msg_ends u e) \/
  (exists k x a' b', (i <= k <= i + d)%nat /\ a = x :: a' /\ s_rxq (st k) = a' ++ m :: b') \/
  (exists b', s_rxq (st (i + d)) = a ++ m :: b').
Proof.
  induction d as [|d IH]; intros i a m b Hq Hm; [right; right; exists b; rewrite Nat.add_0_r; exact Hq|].
  destruct (IH i a m b Hq Hm) as [G|[(k&x&a'&b'&G1&G2&G3)|(b'&G)]]; [left; exact G|right; left; exists k, x, a', b'; repeat split; auto; lia|].
  destruct (queue_step _ _ _ _ _ a m b' (en_step _ _ _ _ _ _ _ E (i + d)) (fair_kept _ _ _ F _) G Hm) as [(b2&A)|[(x&a'&b2&A1&A2)|(u&e&A1&A2)]].
  - intros t o. apply monitor_only.
  - intro t. eapply fits. exact E.
  - right. right. exists b2. rewrite Nat.add_succ_r. exact A.
  - right. left. exists (S (i + d)), x, a', b2. repeat split; auto; lia.
  - left. exists (i + d)%nat, u, e. repeat split; auto. lia.
Qed.
Lemma stays_waiting d t i : waits (s_clients (st i) t) ->
  (exists j e, (i <= j)%nat /\ In e (es j) /\ next_msg_ends t e) \/ waits (s_clients (st (i + d)) t).
Proof.
  intro H. induction d as [|d IH]; [right; rewrite Nat.add_0_r; exact H|].
  destruct IH as [IH|IH]; [left; exact IH|]. rewrite Nat.add_succ_r.
  destruct (wait_step _ _ _ _ _ t (en_step _ _ _ _ _ _ _ E (i + d)) IH) as [(e&G)|G]; [left|right; exact G].
  exists (i + d)%nat, e. split; [lia|exact G].
Qed.
Lemma later_ends i j : (i <= j)%nat -> some_next_msg_ends es j -> some_next_msg_ends es i.
Proof. intros H (k&u&e&G1&G2). exists k, u, e. split; [lia|exact G2]. Qed.

(** A waiting call and a queued bus message. *)
Lemma queued_is_taken n : forall i a m b t, length a = n ->
  s_rxq (st i) = a ++ m :: b -> bus_message m = true -> waits (s_clients (st i) t) -> some_next_msg_ends es i.
Proof.
  induction n as [n IH] using (well_founded_induction lt_wf). intros i a m b t Hn Hq Hm Hw.
  destruct (fair_calls _ _ _ F t i) as (j&Hj&G).
  assert (Less : forall k x a' b', (i <= k)%nat -> a = x :: a' -> s_rxq (st k) = a' ++ m :: b' -> some_next_msg_ends es i).
  { intros k x a' b' Hk -> Hr. destruct (stays_waiting (k - i) t i Hw) as [(k2&e&A)|A].
    - exists k2, t, e. exact A.
    - replace (i + (k - i))%nat with k in A by lia. apply (later_ends i k Hk).
      apply (IH (length a') ltac:(cbn in Hn; lia) k a' m b' t eq_refl Hr Hm A). }
  destruct (queue_upto (j - i) i a m b Hq Hm) as [A|[(k&x&a'&b'&A1&A2&A3)|(b'&A)]]; [exact A|apply (Less k x a' b'); [lia|assumption|assumption]|].
  replace (i + (j - i))%nat with j in A by lia.
  destruct (stays_waiting (j - i) t i Hw) as [(k2&e&B)|B]; [exists k2, t, e; exact B|].
  replace (i + (j - i))%nat with j in B by lia. destruct B as (d&B).
  assert (N : exists m0 q, s_rxq (st j) = m0 :: q) by (rewrite A; destruct a; cbn; eauto). destruct N as (m0&q&N).
  destruct G as [G|G].
  - pose proof (en_step _ _ _ _ _ _ _ E j) as Hs.
    assert (X : exists m1 q1, a ++ m :: b' = m1 :: q1 /\
      ((exists e, In e (es j) /\ next_msg_ends t e) \/ (bus_message m1 = false /\ s_rxq (st (S j)) = q1))).
    { exists m0, q. split; [congruence|]. destruct G as [(ok&G)|G]; rewrite G in Hs.
      - cbn [step] in Hs. rewrite (fair_kept _ _ _ F j) in Hs. unfold cl_step in Hs. rewrite B, N in Hs. unfold on_message, goto, finish in Hs.
        unfold bus_message. change 0x29 with code_LDataInd. change 0x2b with code_LBusmonInd.
        destruct (N.eqb_spec (ce_code m0) code_LDataCon) as [E1|E1].
        + right. injection Hs as <- _. split; [rewrite E1; reflexivity|sys; reflexivity].
        + destruct ((ce_code m0 =? code_LDataInd) || (ce_code m0 =? code_LBusmonInd)).
          * left. unfold next_msg_ends. destruct (ldata_ind_from_cemi m0); injection Hs as _ <-; eexists; (split; [right; left; reflexivity|eauto]).
          * right. injection Hs as <- _. split; [reflexivity|sys; reflexivity].
      - exfalso. cbn [step] in Hs. rewrite (fair_kept _ _ _ F j) in Hs. unfold cl_timeout in Hs. rewrite B in Hs. discriminate Hs. }
    destruct X as (m1&q1&X1&[(e&X2)|(X2&X3)]); [exists j, t, e; split; [lia|exact X2]|].
    destruct a as [|x a]; cbn [app] in X1; injection X1 as -> <-; [congruence|].
    eapply (Less (S j) m1 a b'); [lia|reflexivity|exact X3].
  - exfalso. apply G. exists (LCl t true). split; [left; eauto|]. cbn [step]. rewrite (fair_kept _ _ _ F j). unfold cl_step. rewrite B, N.
    unfold on_message, goto, finish. destruct (ce_code m0 =? code_LDataCon); [discriminate|].
    destruct (_ || _); [destruct (ldata_ind_from_cemi m0)|]; discriminate.
Qed.
Hypothesis K : keep_coming es.
Lemma waiting_ends i t : waits (s_clients (st i) t) -> some_next_msg_ends es i.
Proof.
  intro Hw. destruct (K i) as (j&m&Hj&Hi&Hm).
  destruct (stays_waiting (S j - i) t i Hw) as [(k2&e&B)|B]; [exists k2, t, e; exact B|].
  replace (i + (S j - i))%nat with (S j) in B by lia. apply (later_ends i (S j) ltac:(lia)).
  assert (Q : exists a, s_rxq (st (S j)) = a ++ [m]).
  { pose proof (en_step _ _ _ _ _ _ _ E j) as Hs. revert Hi. remember (st (S j)) as s' eqn:X. clear - Hs.
    destruct (bg_label (lb j)) eqn:Hb; [|destruct (call_label (lb j)) as [u|] eqn:Hl].
    - destruct (lb j); try discriminate Hb; inv_step Hs; intro Hi; cbn in Hi; sys;
        repeat match goal with H : _ \/ _ |- _ => destruct H as [H|H]; try discriminate H; try contradiction H end; try contradiction; try (injection Hi as <-; eauto).
      all: match goal with H : In _ (stop_events ?b) |- _ => destruct b; cbn in H; intuition discriminate end.
    - destruct (call_frame _ _ _ _ _ _ Hs Hl) as (_&_&_&_&_&_&_&A). intro Hi. apply forallb_forall with (x := EvEnq m) in A; [discriminate A|exact Hi].
    - destruct (env_frame _ _ _ _ _ Hs Hb Hl) as (_&_&_&_&_&_&_&_&[(x&A&_)|(A&_)]); rewrite A; cbn; intuition discriminate. }
  destruct Q as (a&Q). apply (queued_is_taken (length a) (S j) a m [] t eq_refl Q Hm B).
Qed.

Variable i0 : nat.
Hypothesis Hopen : forall t, open_polled c st lb i0 t.
Lemma next_ends i t : pc_op (s_clients (st i) t) = Some ONextMsg -> some_next_msg_ends es i.
Proof.
  intro Ho.
  assert (Hc : forall k u o', pc_op (s_clients (st k) u) = Some o' -> asks o' = false /\ quiet_for es i0 o').
  { intros k u o' G. pose proof (monitor_only k u o' G) as W. split; [destruct o'; cbn in W; tauto|]. intros (a&->). contradiction W. }
  assert (P : forall k, pc_op (s_clients (st k) t) = Some ONextMsg -> s_clients (st k) t = CLock ONextMsg \/ waits (s_clients (st k) t)).
  { intros k G. pose proof (fits _ _ _ _ _ _ _ E k t) as Hf. unfold waits.
    destruct (s_clients (st k) t); cbn in *; try discriminate; injection G as ->; cbn in Hf; try discriminate; eauto. }
  assert (Pre : forall d, (exists j e, (i <= j)%nat /\ In e (es j) /\ next_msg_ends t e) \/ waits (s_clients (st (i + d)) t) \/ s_clients (st (i + d)) t = CLock ONextMsg).
  { induction d as [|d IH]; [rewrite Nat.add_0_r; destruct (P i Ho); auto|].
    pose proof (en_step _ _ _ _ _ _ _ E (i + d)) as Hs. rewrite Nat.add_succ_r.
    destruct IH as [IH|[IH|IH]]; [auto| |].
    - destruct (wait_step _ _ _ _ _ t Hs IH) as [(e&G)|G]; [left; exists (i + d)%nat, e; split; [lia|exact G]|auto].
    - assert (D : call_label (lb (i + d)) = Some t \/ call_label (lb (i + d)) <> Some t).
      { destruct (call_label (lb (i + d))) as [u|]; [|right; discriminate]. destruct (Nat.eq_dec u t); [left|right]; congruence. }
      destruct D as [D|D]; [|right; right; rewrite (clients_frame _ _ _ _ _ t Hs D); exact IH].
      destruct (turn_step _ _ _ _ _ t Hs D IH) as [(e&G)|G]; [left; exists (i + d)%nat, e; split; [lia|exact G]|auto]. }
  destruct (Pre i0) as [(j&e&G)|[G|G]]; [exists j, t, e; exact G|apply (later_ends i (i + i0)); [lia|eapply waiting_ends; eauto]|].
  destruct (gets_mutex c start ls tr0 st lb es E F i0 Hopen Hc t ONextMsg (i + i0) ltac:(lia) G) as (k&Hk&Hl&Hc').
  destruct (turn_step _ _ _ _ _ t (en_step _ _ _ _ _ _ _ E k) Hl Hc') as [(e&A)|A].
  - exists k, t, e. split; [lia|exact A].
  - apply (later_ends i (S k)); [lia|eapply waiting_ends; eauto].
Qed.
(** A single caller. *)
Lemma sole_next_ends t i : (forall k u, In (EvInvoke u ONextMsg) (evs (upto tr0 st es k)) -> u = t) ->
  pc_op (s_clients (st i) t) = Some ONextMsg -> is_over es t i.
Proof.
  intros S Ho. destruct (next_ends i t Ho) as (j&u&e&Hj&He&Hn).
  assert (U : u = t).
  { apply (S j). eapply call_is_invoked; [eapply upto_exec; eauto|].
    pose proof (en_step _ _ _ _ _ _ _ E j) as Hs. revert He. 
    destruct (bg_label (lb j)) eqn:Hb; [|destruct (call_label (lb j)) as [v|] eqn:Hl].
    - destruct (bg_frame _ _ _ _ _ Hs Hb) as (_&_&_&_&A). intro He. apply forallb_forall with (x := e) in A; [|exact He].
      destruct Hn as [->|(r&->)]; discriminate A.
    - destruct (call_frame _ _ _ _ _ _ Hs Hl) as (_&_&_&_&_&_&_&A). remember (st (Datatypes.S j)) as s' eqn:X. clear A X.
      destruct (lb j); try discriminate Hl; injection Hl as ->; inv_step Hs; intro He; cbn in He;
        repeat match goal with H : _ \/ _ |- _ => destruct H as [H|H] end; try contradiction; subst e;
        destruct Hn as [Hn|(r&Hn)]; try discriminate Hn; try (injection Hn; intros; subst);
        repeat match goal with H : s_clients _ _ = _ |- _ => rewrite H end; try reflexivity; assumption.
    - destruct (env_frame _ _ _ _ _ Hs Hb Hl) as (_&_&_&_&_&_&_&_&[(x&A&_)|(A&_)]); rewrite A; destruct Hn as [->|(r&->)]; cbn; intuition discriminate. }
  subst u. exists j, e. split; [exact Hj|]. split; [exact He|]. destruct Hn as [->|(r&->)]; cbn; rewrite Nat.eqb_refl; reflexivity.
Qed.
End Next.
Lemma open_if_not_notifying st i0 :
  (forall i, (i0 <= i)%nat -> match s_bg (st i) with BNotify _ _ => False | _ => True end) ->
  forall i, (i0 <= i)%nat -> cd_locked (st i) = false.
Proof. intros Q i Hi. specialize (Q i Hi). unfold cd_locked. destruct (s_bg (st i)); tauto || reflexivity. Qed.
