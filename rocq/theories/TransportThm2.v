(** Theorems about reads, writes, next_msg, time-outs, channels and the mutex. *)
From Verif Require Import Base Addresses Apdu Tunneling Emi Core Transport Wire Spec TraceSpec
  TransportBase TransportInv TransportConn TransportCalls TransportReturn TransportThm.
From Coq Require Import Lia ZifyBool ZifyNat ZifyN.
Open Scope N_scope.

Lemma tunnel_sent_shape c tr t o cur :
  sent c tr t o cur -> tunnel_op o = true ->
  exists n0 n1 seq n2 d, cur = [(n0, EvInvoke t o); (n1, EvSeq t seq); (n2, EvSend (Cl t) d)].
Proof.
  intros (cur0&n&bs&H&->) Ht. destruct (ready_call _ _ _ _ _ _ H) as (n0&body&->&_&[(_&n1&seq&->)|(D&->)]).
  - exists n0, n1, seq, n, bs. reflexivity.
  - destruct o; discriminate.
Qed.
Lemma direct_sent_shape c tr t o cur :
  sent c tr t o cur -> direct_op o = true ->
  exists n0 n2 d, cur = [(n0, EvInvoke t o); (n2, EvSend (Cl t) d)].
Proof.
  intros (cur0&n&bs&H&->) Ht. destruct (ready_call _ _ _ _ _ _ H) as (n0&body&->&_&[(D&n1&seq&->)|(_&->)]).
  - destruct o; discriminate.
  - exists n0, n, bs. reflexivity.
Qed.
Lemma tunnel_ready_shape c tr t o bs cur :
  ready c tr t o bs cur -> tunnel_op o = true -> exists n0 n1 seq, cur = [(n0, EvInvoke t o); (n1, EvSeq t seq)].
Proof.
  intros H Ht. destruct (ready_call _ _ _ _ _ _ H) as (n0&body&->&_&[(_&n1&seq&->)|(D&->)]).
  - exists n0, n1, seq. reflexivity.
  - destruct o; discriminate.
Qed.
Ltac quiet := first [apply quiet_nil | apply quiet_deqs | apply quiet_one; [reflexivity|discriminate]
  | apply quiet_app; quiet
  | match goal with |- quiet _ (?x :: ?y :: ?l) => change (x :: y :: l) with ([x] ++ (y :: l)); apply quiet_app; quiet end
  | match goal with |- quiet _ (?x :: ?l) => change (x :: l) with ([x] ++ l); apply quiet_app; quiet end ].

(** ** Reads *)
Lemma read_value c start ls tr s p n t a v q :
  exec c start ls tr s -> tr = p ++ (n, EvRet t (ORead a) (RBytes v)) :: q ->
  exists n1 seq n2 d ms n3 m i,
    in_call t (ORead a) p ([(n1, EvSeq t seq); (n2, EvSend (Cl t) d)]
      ++ map (fun x => (fst x, EvDeq t (snd x))) ms ++ [(n3, EvDeq t m)]) /\
    ce_code m = 0x29 /\ ldata_ind_from_cemi m = Ok i /\ ld_dest (li_data i) = addr_to_u16 a /\ v = li_value i /\
    Forall (skip_read a) (map snd ms).
Proof.
  intros H E. destruct (ret_hist _ _ _ _ _ _ _ _ _ _ _ H E) as (h&cur&tr0&s0&e1&Ec&Hc&Hh&Hs&_&_&->).
  inversion Hs; subst; match goal with G : s_clients s0 t = _ |- _ => rewrite G in Hh; cbn [hist] in Hh end.
  destruct Hh as (cur0&ms&Hse&->&Hsk&_).
  destruct (tunnel_sent_shape _ _ _ _ _ Hse eq_refl) as (n0&n1&seq&n2&d&->).
  exists n1, seq, n2, d, ms, (s_now s0), m, i. split; [|auto 8].
  exists h, n0. split; [rewrite Ec; cbn; reflexivity|]. fold (deqs t ms). change (quiet t ([(n1, EvSeq t seq); (n2, EvSend (Cl t) d)] ++ deqs t ms ++ [(s_now s0, EvDeq t m)])). quiet.
Qed.

(** ** Writes *)
Lemma gone_inv c start ls tr s :
  exec c start ls tr s ->
  (s_bg s = BEnded -> In EvBgEnd (evs tr)) /\ (s_bg s = BPanicked -> In EvBgPanic (evs tr)).
Proof.
  intro H. pattern tr, s. revert tr s H. apply exec_inv; [split; discriminate|].
  intros tr s l s' es H [IH1 IH2] Hs. rewrite evs_app, evs_stamp. destruct (bg_label l) eqn:Hb.
  - clear IH1 IH2. destruct l; try discriminate Hb; inv_step Hs; sys; (split; intro E; try discriminate E);
      try (apply in_or_app; right; rewrite ?E; cbn; auto; fail);
      try (exfalso; break E; discriminate E).
  - assert (s_bg s' = s_bg s) as ->.
    { destruct (call_label l) as [u|] eqn:Hl.
      - apply (call_frame _ _ _ _ _ _ Hs Hl).
      - destruct (env_frame _ _ _ _ _ Hs Hb Hl) as (_&_&->&_). reflexivity. }
    split; intro E; apply in_or_app; auto.
Qed.
Lemma bg_gone_events c start ls tr s :
  exec c start ls tr s -> bg_gone s = true -> In EvBgEnd (evs tr) \/ In EvBgPanic (evs tr).
Proof.
  intros H G. destruct (gone_inv _ _ _ _ _ H) as [H1 H2]. unfold bg_gone in G.
  destruct (s_bg s); try discriminate G; auto.
Qed.

Lemma write_returns c start ls tr s p n t a v b r q :
  exec c start ls tr s -> tr = p ++ (n, EvRet t (OWrite a v b) r) :: q ->
  exists body, in_call t (OWrite a v b) p body /\ write_outcome t p n r body.
Proof.
  intros H E. destruct (ret_hist _ _ _ _ _ _ _ _ _ _ _ H E) as (h&cur&tr0&s0&e1&Ec&Hc&Hh&Hs&H0&Ep&->).
  inversion Hs; subst; match goal with G : s_clients s0 t = _ |- _ => rewrite G in Hh; cbn [hist] in Hh end;
    cbn [write_outcome stamp map] in *; rewrite ?app_nil_r in *.
  - destruct Hh as (_&_&(n0&->)). exists []. split; [|auto]. exists h, n0. split; [exact Ec|apply quiet_nil].
  - destruct Hh as (_&_&(n0&n1&->)). exists [(n1, EvSeq t seq)]. split; [|eauto]. exists h, n0. split; [exact Ec|].
    apply quiet_one; [reflexivity|discriminate].
  - destruct Hh as (D&_). discriminate D.
  - destruct Hh as (D&_). discriminate D.
  - destruct (tunnel_ready_shape _ _ _ _ _ _ Hh eq_refl) as (n0&n1&seq&->).
    eexists. split; [exists h, n0; split; [exact Ec|]|eauto 8].
    apply (quiet_app t [_] [_]); apply quiet_one; try reflexivity; discriminate.
  - match goal with G : (exists a, _) \/ _ |- _ => destruct G as [(?&G)|(?&?&?&G)]; discriminate G end.
  - destruct Hh as (Hh&_). destruct (tunnel_sent_shape _ _ _ _ _ Hh eq_refl) as (n0&n1&seq&n2&d&->).
    eexists. split; [exists h, n0; split; [exact Ec|]|].
    + apply (quiet_app t [_] [_]); apply quiet_one; try reflexivity; discriminate.
    + split; [eauto 6|]. split; [|eapply bg_gone_events; eauto].
      destruct (queue_inv _ _ _ _ _ H0) as [Q _]. match goal with G : s_rxq s0 = [] |- _ => rewrite G in Q end.
      rewrite app_nil_r in Q. exact Q.
  - destruct Hh as (Hh&Ht&_). destruct (tunnel_sent_shape _ _ _ _ _ Hh eq_refl) as (n0&n1&seq&n2&d&->).
    eexists. split; [exists h, n0; split; [exact Ec|]|].
    + apply (quiet_app t [_] [_]); apply quiet_one; try reflexivity; discriminate.
    + exists n1, seq, n2, d. split; [reflexivity|]. inversion Ht; subst. inversion H7; subst. inversion H9; subst.
      cbn in *. lia.
  - destruct Hh as (Hh&_). destruct (tunnel_sent_shape _ _ _ _ _ Hh eq_refl) as (n0&n1&seq&n2&d&->).
    eexists. split; [exists h, n0; split; [exact Ec|]|eauto 10].
    apply (quiet_app t [_] [_; _]); [|apply (quiet_app t [_] [_])]; apply quiet_one; try reflexivity; discriminate.
  - destruct Hh as (Hh&_). destruct (tunnel_sent_shape _ _ _ _ _ Hh eq_refl) as (n0&n1&seq&n2&d&->).
    eexists. split; [exists h, n0; split; [exact Ec|]|eauto 10].
    apply (quiet_app t [_] [_; _]); [|apply (quiet_app t [_] [_])]; apply quiet_one; try reflexivity; discriminate.
Qed.

(** The step taking a message out of the queue. *)
Lemma deq_cases c s l s' e1 e2 t m :
  step c s l = Some (s', e1 ++ EvDeq t m :: e2) ->
  e1 = [] /\ call_label l = Some t /\ exists o dl q, s_clients s t = CWaitQ o dl /\ s_rxq s = m :: q /\
    match o with
    | OWrite _ _ _ => e2 = [EvRet t o (if ce_code m =? 0x2e then RUnit else RErr EUnexpected)]
    | ODisconnect => e2 = [EvRet t o RUnit]
    | _ => True
    end.
Proof.
  intro Hs. remember (e1 ++ EvDeq t m :: e2) as es eqn:E.
  assert (B : forall x b, bg_event x = true -> x :: stop_events b = e1 ++ EvDeq t m :: e2 -> False).
  { intros x b H2 H3. assert (In (EvDeq t m) (x :: stop_events b)) as [->|Hi] by (rewrite H3; apply in_or_app; right; left; reflexivity).
    - discriminate.
    - destruct b; cbn in Hi; try contradiction; destruct Hi as [Hi|[]]; discriminate. }
  destruct l; inv_step Hs; cbn [app] in E;
    try (eapply B in E; try reflexivity; contradiction);
    try (destruct e1; discriminate E);
    try (apply one_last in E; destruct E as (->&E&->); try discriminate E; injection E as -> ->);
    try (apply two_last in E; destruct E as [(->&E&->)|(->&E&->)]; try discriminate E; injection E as -> ->);
    repeat split; eexists _, _, _; repeat split; try eassumption.
  all: repeat match goal with G : (_ =? _) = _ |- _ => change code_LDataCon with 0x2e in G; rewrite G end; reflexivity.
Qed.
Lemma write_first_message c start ls tr s p n t a v b m q body :
  exec c start ls tr s -> tr = p ++ (n, EvDeq t m) :: q -> in_call t (OWrite a v b) p body ->
  exists q', q = (n, EvRet t (OWrite a v b) (if ce_code m =? 0x2e then RUnit else RErr EUnexpected)) :: q'.
Proof.
  intros H E I. destruct (exec_split _ _ _ _ _ _ _ _ _ H E) as (tr0&s0&l&s1&e1&e2&H0&Hs&->&Ep&_&q'&->&_).
  destruct (deq_cases _ _ _ _ _ _ _ _ Hs) as (->&_&o&dl&qq&Hp&_&Ho). cbn [stamp map] in Ep. rewrite app_nil_r in Ep. subst p.
  destruct (in_call_pc _ _ _ _ _ _ _ _ H0 I) as (G&_). rewrite Hp in G. injection G as ->. rewrite Ho. exists q'. reflexivity.
Qed.

(** ** Timeouts *)
Lemma timeout_not_premature c start ls tr s p n t o q :
  exec c start ls tr s -> tr = p ++ (n, EvRet t o (RErr ETimeout)) :: q ->
  ((exists a, o = ORead a) \/ (exists a v b, o = OWrite a v b)) /\
  exists body, in_call t o p body /\ Forall (fun x => fst x + 10000 <= n) body /\
    exists n2 d, In (n2, EvSend (Cl t) d) body.
Proof.
  intros H E. destruct (ret_hist _ _ _ _ _ _ _ _ _ _ _ H E) as (h&cur&tr0&s0&e1&Ec&Hc&Hh&Hs&H0&Ep&->).
  inversion Hs; subst. match goal with G : s_clients s0 t = _ |- _ => rewrite G in Hh; cbn [hist] in Hh end.
  split; [assumption|]. cbn [stamp map] in *; rewrite ?app_nil_r in *.
  match goal with G : _ \/ _ |- _ => destruct G as [(a&->)|(a&v&b&->)] end.
  - destruct Hh as (cur0&ms&Hh&->&_&Ht&_). destruct (tunnel_sent_shape _ _ _ _ _ Hh eq_refl) as (n0&n1&seq&n2&d&->).
    exists ([(n1, EvSeq t seq); (n2, EvSend (Cl t) d)] ++ deqs t ms). split; [|split].
    + exists h, n0. split; [exact Ec|]. apply quiet_app; [|apply quiet_deqs].
      apply (quiet_app t [_] [_]); apply quiet_one; try reflexivity; discriminate.
    + cbn in Ht. apply Forall_inv_tail in Ht. eapply Forall_impl, Ht. cbn. intros; lia.
    + exists n2, d. cbn. auto.
  - destruct Hh as (Hh&Ht&_). destruct (tunnel_sent_shape _ _ _ _ _ Hh eq_refl) as (n0&n1&seq&n2&d&->).
    exists [(n1, EvSeq t seq); (n2, EvSend (Cl t) d)]. split; [|split].
    + exists h, n0. split; [exact Ec|].
      apply (quiet_app t [_] [_]); apply quiet_one; try reflexivity; discriminate.
    + apply Forall_inv_tail in Ht. eapply Forall_impl, Ht. cbn. intros; lia.
    + exists n2, d. cbn. auto.
Qed.
Lemma timeout_available c start ls tr s t o body n2 d :
  exec c start ls tr s -> s_rx_alive s = true -> in_call t o tr body ->
  ((exists a, o = ORead a) \/ (exists a v b, o = OWrite a v b)) ->
  In (n2, EvSend (Cl t) d) body -> Forall (fun x => fst x + 10000 <= s_now s) body ->
  exists s', step c s (LTimeout t) = Some (s', [EvRet t o (RErr ETimeout)]).
Proof.
  intros H Ha I Ho Hi Hf. destruct (in_call_pc _ _ _ _ _ _ _ _ H I) as (G&n&Hh).
  assert (Hn : sends t ((n, EvInvoke t o) :: body) <> []).
  { intro F. rewrite sends_nil in F. specialize (F (n2, EvSend (Cl t) d)). cbn in F. rewrite Nat.eqb_refl in F.
    discriminate F. auto. }
  assert (T : forall dl, timed dl ((n, EvInvoke t o) :: body) -> dl <= s_now s).
  { intros dl (_&cur'&x&El&->). destruct body as [|y body] using rev_ind; [destruct Hi|].
    change ((n, EvInvoke t o) :: body ++ [y]) with (((n, EvInvoke t o) :: body) ++ [y]) in El.
    apply app_inj_tail in El. destruct El as [_ <-]. rewrite Forall_forall in Hf. apply Hf, in_or_app. right. left. reflexivity. }
  unfold step. rewrite Ha. unfold cl_timeout.
  destruct (s_clients s t) as [|o1|o1 ?|o1 ? ?|o1|o1 ch|o1 bs|o1 dl|o1| |] eqn:Ep; cbn in G; try discriminate G; injection G as G; subst; cbn [hist] in Hh.
  - exfalso. apply Hn. eapply opened_sends, Hh.
  - exfalso. apply Hn. destruct Hh as (_&_&Hh). eapply opened_sends, Hh.
  - exfalso. apply Hn. destruct Hh as (_&_&Hh). eapply numbered_sends, Hh.
  - exfalso. apply Hn. destruct Hh as (_&Hh). eapply opened_sends, Hh.
  - exfalso. apply Hn. destruct Hh as (_&_&Hh). eapply opened_sends, Hh.
  - exfalso. apply Hn. eapply ready_sends, Hh.
  - destruct Ho as [(a&->)|(a&v&b&->)].
    + destruct Hh as (_&_&_&_&_&Ht). apply T in Ht. apply N.leb_le in Ht. rewrite Ht. unfold finish. eauto.
    + destruct Hh as (_&Ht). apply T in Ht. apply N.leb_le in Ht. rewrite Ht. unfold finish. eauto.
  - exfalso. destruct Hh as ([->| ->]&_); destruct Ho as [(a&Ho)|(a&v&b&Ho)]; discriminate Ho.
  - destruct Ho as [(a&Ho)|(a&v&b&Ho)]; discriminate Ho.
  - destruct Ho as [(a&Ho)|(a&v&b&Ho)]; discriminate Ho.
Qed.

(** ** next_msg *)
Definition next_outcome0 (t : nat) (p : trace) (r : api_result) (body : trace) : Prop :=
  match r with
  | RInd i => exists ms n3 m, body = map (fun x => (fst x, EvDeq t (snd x))) ms ++ [(n3, EvDeq t m)] /\
      Forall skip_next (map snd ms) /\ (ce_code m = 0x29 \/ ce_code m = 0x2b) /\ ldata_ind_from_cemi m = Ok i
  | RErr EBadCemi => exists ms n3 m, body = map (fun x => (fst x, EvDeq t (snd x))) ms ++ [(n3, EvDeq t m)] /\
      Forall skip_next (map snd ms) /\ (ce_code m = 0x29 \/ ce_code m = 0x2b) /\ forall i, ldata_ind_from_cemi m <> Ok i
  | RErr EClosed => exists ms, body = map (fun x => (fst x, EvDeq t (snd x))) ms /\ Forall skip_next (map snd ms) /\
      queued p = taken p /\ (In EvBgEnd (evs p) \/ In EvBgPanic (evs p))
  | _ => False
  end.
Lemma next_returns c start ls tr s p n t r q :
  exec c start ls tr s -> tr = p ++ (n, EvRet t ONextMsg r) :: q ->
  exists body, in_call t ONextMsg p body /\ next_outcome0 t p r body.
Proof.
  intros H E. destruct (ret_hist _ _ _ _ _ _ _ _ _ _ _ H E) as (h&cur&tr0&s0&e1&Ec&Hc&Hh&Hs&H0&Ep&->).
  inversion Hs; subst; match goal with G : s_clients s0 t = _ |- _ => rewrite G in Hh; cbn [hist] in Hh end;
    cbn [next_outcome0 stamp map] in *; rewrite ?app_nil_r in *.
  - destruct Hh as (D&_). discriminate D.
  - destruct Hh as (D&_). discriminate D.
  - destruct Hh as (D&_). discriminate D.
  - destruct Hh as (D&_). discriminate D.
  - match goal with G : _ \/ _ |- _ => destruct G; discriminate end.
  - match goal with G : _ \/ _ |- _ => destruct G as [(?&G)|(?&?&?&G)]; discriminate G end.
  - destruct Hh as (cur0&ms&(n0&->)&->&Hsk). exists (deqs t ms). split.
    + exists h, n0. split; [exact Ec|apply quiet_deqs].
    + exists ms. repeat split; auto; [|eapply bg_gone_events; eauto].
      destruct (queue_inv _ _ _ _ _ H0) as [Q _]. match goal with G : s_rxq s0 = [] |- _ => rewrite G in Q end.
      rewrite app_nil_r in Q. exact Q.
  - match goal with G : _ \/ _ |- _ => destruct G as [(?&G)|(?&?&?&G)]; discriminate G end.
  - destruct Hh as (cur0&ms&(n0&->)&->&Hsk). exists (deqs t ms ++ [(s_now s0, EvDeq t m)]). split; [|exists ms, (s_now s0), m; auto].
    exists h, n0. split; [exact Ec|]. apply quiet_app; [apply quiet_deqs|apply quiet_one; [reflexivity|discriminate]].
  - destruct Hh as (cur0&ms&(n0&->)&->&Hsk). exists (deqs t ms ++ [(s_now s0, EvDeq t m)]). split; [|exists ms, (s_now s0), m; auto].
    exists h, n0. split; [exact Ec|]. apply quiet_app; [apply quiet_deqs|apply quiet_one; [reflexivity|discriminate]].
Qed.
