(** Theorems about calls, on traces. *)
From Verif Require Import Base Addresses Apdu Tunneling Emi Core Transport Wire Spec TraceSpec
  TransportBase TransportInv TransportConn TransportCalls TransportReturn.
From Coq Require Import Lia ZifyBool ZifyNat ZifyN.
Open Scope N_scope.

Lemma arrived_prefix a b : Forall bytes (arrived (a ++ b)) -> Forall bytes (arrived a).
Proof. rewrite arrived_app, Forall_app. tauto. Qed.
Lemma well_typed_prefix a b : well_typed (a ++ b) -> well_typed a.
Proof.
  intros [H1 H2]. split; [eapply arrived_prefix, H1|]. intros t o H. apply (H2 t o). rewrite evs_app. apply in_or_app. auto.
Qed.
Lemma sends_app t a b : sends t (a ++ b) = sends t a ++ sends t b.
Proof. unfold sends. rewrite evs_app. apply filter_app. Qed.
Lemma sends_nil t cur : sends t cur = [] <-> forall y, In y cur -> is_send t (snd y) = false.
Proof.
  unfold sends, evs. induction cur as [|x cur IH]; cbn.
  - split; [intros _ y []|reflexivity].
  - destruct (is_send t (snd x)) eqn:E; split.
    + discriminate.
    + intro H. rewrite (H x) in E; [discriminate|auto].
    + rewrite IH. intros H y [<-|Hy]; auto.
    + intro H. apply IH. auto.
Qed.
Lemma sends_deqs t ms : sends t (deqs t ms) = [].
Proof. apply sends_nil. intros y Hy. unfold deqs in Hy. apply in_map_iff in Hy. destruct Hy as (z&<-&_). reflexivity. Qed.
Lemma ready_sends c tr t o bs cur : ready c tr t o bs cur -> sends t cur = [].
Proof.
  intro H. destruct (ready_call _ _ _ _ _ _ H) as (n&body&->&_&[(_&n1&seq&->)|(_&->)]); reflexivity.
Qed.
Lemma opened_sends t o cur : opened t o cur -> sends t cur = [].
Proof. intros (n&->). reflexivity. Qed.
Lemma numbered_sends t o seq cur : numbered t o seq cur -> sends t cur = [].
Proof. intros (n&n1&->). reflexivity. Qed.
Lemma hist_not_holding c tr t pc cur : hist c tr t pc cur -> holds pc = false -> sends t cur = [].
Proof.
  destruct pc as [|o|o ?|o ? ?|o|o ch|o bs|o dl|o| |]; cbn; intros H E; try discriminate E.
  - subst. reflexivity.
  - eapply opened_sends, H.
  - destruct o; try discriminate E. destruct H as (cur0&ms&H&->&_).
    rewrite sends_app, (opened_sends _ _ _ H), sends_deqs. reflexivity.
Qed.

(** ** One datagram per call *)
Lemma one_datagram c start ls tr s t p n1 e1 m n2 e2 q :
  exec c start ls tr s -> tr = p ++ (n1, e1) :: m ++ (n2, e2) :: q ->
  is_send t e1 = true -> is_send t e2 = true -> exists y, In y m /\ call_end t (snd y) = true.
Proof.
  intros H E H1 H2. change (p ++ (n1, e1) :: m ++ (n2, e2) :: q) with (p ++ ((n1, e1) :: m) ++ (n2, e2) :: q) in E.
  rewrite app_assoc in E.
  assert (E' : exists d, tr = (p ++ (n1, e1) :: m) ++ (n2, EvSend (Cl t) d) :: q \/
                         tr = (p ++ (n1, e1) :: m) ++ (n2, EvSendFail (Cl t) d) :: q).
  { destruct e2 as [| | | |[|u] d|[|u] d| | | | | | | | | | | | | |]; try discriminate H2;
      cbn in H2; apply Nat.eqb_eq in H2; subst u; exists d; [left|right]; exact E. }
  destruct E' as (d&E'). destruct (send_hist _ _ _ _ _ _ _ _ _ _ H E') as (s0&o&h&cur&H0&Hp&Ec&Hc&Hr).
  eapply send_then_end; [exact Ec|exact Hc| |reflexivity|exact H1].
  apply sends_nil. eapply ready_sends, Hr.
Qed.

(** ** Serialisation *)
Lemma exclusive_cases c s l s' e1 e2 e u :
  (forall o, pc_op (s_clients s u) = Some o -> op_mode o = c_mode c) ->
  step c s l = Some (s', e1 ++ e :: e2) -> exclusive (c_mode c) u e = true ->
  e1 = [] /\ holds (s_clients s u) = true.
Proof.
  intros Hm Hs He. remember (e1 ++ e :: e2) as es eqn:E.
  assert (B : forall x b, bg_event x = true -> x :: stop_events b = e1 ++ e :: e2 -> False).
  { intros x b H2 H3. assert (In e (x :: stop_events b)) as [->|Hi] by (rewrite H3; apply in_or_app; right; left; reflexivity).
    - destruct e as [| | | |[] ?|[] ?| | | | | | | | | | | | | |]; discriminate.
    - destruct b; cbn in Hi; try contradiction; destruct Hi as [<-|[]]; discriminate. }
  destruct l; inv_step Hs; cbn [app] in E;
    try (eapply B in E; try reflexivity; contradiction);
    try (destruct e1; discriminate E);
    try (apply one_last in E; destruct E as (->&E&->); subst e; try discriminate He; cbn in He);
    try (apply two_last in E; destruct E as [(->&E&->)|(->&E&->)]; subst e; try discriminate He; cbn in He);
    try (destruct (c_mode c) eqn:M; try discriminate He); apply Nat.eqb_eq in He; subst;
    (split; [reflexivity|]);
    repeat match goal with E : s_clients s u = _ |- _ => rewrite E in *; clear E end; cbn [holds pc_op] in *;
    try reflexivity; specialize (Hm _ eq_refl); discriminate Hm.
Qed.
Lemma exclusive_call m t e : exclusive m t e = true -> call_event t e = true /\ call_end t e = false.
Proof. destruct e as [| | | |[] ?|[] ?| | | | | | | | | | | | | |]; destruct m; cbn; try discriminate; auto. Qed.
Lemma not_exclusive m t (cur : trace) : (forall y, In y cur -> exists n o, y = (n, EvInvoke t o)) -> forall y, In y cur -> exclusive m t (snd y) = false.
Proof. intros H y Hy. destruct (H y Hy) as (n&o&->). reflexivity. Qed.
Lemma opened_only t o cur : opened t o cur -> forall y, In y cur -> exists n o, y = (n, EvInvoke t o).
Proof. intros (n&->) y [<-|[]]. eauto. Qed.
Lemma hist_not_exclusive c tr t pc cur :
  hist c tr t pc cur -> holds pc = false -> (forall o, pc_op pc = Some o -> op_mode o = c_mode c) ->
  forall y, In y cur -> exclusive (c_mode c) t (snd y) = false.
Proof.
  destruct pc as [|o|o ?|o ? ?|o|o ch|o bs|o dl|o| |]; cbn; intros H E M; try discriminate E.
  - subst. intros y [].
  - apply not_exclusive. eapply opened_only, H.
  - destruct o; try discriminate E. destruct H as (cur0&ms&H&->&_). intros y Hy. apply in_app_iff in Hy. destruct Hy as [Hy|Hy].
    + revert y Hy. apply not_exclusive. eapply opened_only, H.
    + rewrite <- (M _ eq_refl). unfold deqs in Hy. apply in_map_iff in Hy. destruct Hy as (z&<-&_). reflexivity.
Qed.
Lemma serialised c start ls tr s t u p n1 e1 m n2 e2 q :
  exec c start ls tr s -> tr = p ++ (n1, e1) :: m ++ (n2, e2) :: q -> t <> u ->
  exclusive (c_mode c) t e1 = true -> exclusive (c_mode c) u e2 = true -> exists y, In y m /\ call_end t (snd y) = true.
Proof.
  intros H E N H1 H2. change (p ++ (n1, e1) :: m ++ (n2, e2) :: q) with (p ++ ((n1, e1) :: m) ++ (n2, e2) :: q) in E.
  rewrite app_assoc in E.
  destruct (exec_split _ _ _ _ _ _ _ _ _ H E) as (tr0&s0&l&s1&f1&f2&H0&Hs&_&Ep&_).
  destruct (exclusive_cases _ _ _ _ _ _ _ u (op_mode_inv _ _ _ _ _ H0 u) Hs H2) as [-> Hh].
  cbn [stamp map] in Ep. rewrite app_nil_r in Ep.
  destruct (hist_inv _ _ _ _ _ H0 t) as (h&cur&Ec&Hc&Hi).
  assert (Ht : holds (s_clients s0 t) = false).
  { destruct (holds (s_clients s0 t)) eqn:G; [|reflexivity]. exfalso. apply N. eapply lock_unique; eauto. }
  rewrite <- Ep in Ec. eapply (acts_then_end (exclusive (c_mode c) t)); [apply exclusive_call|exact Ec|exact Hc| |reflexivity|exact H1].
  eapply hist_not_exclusive; eauto using op_mode_inv.
Qed.

(** ** What a successful call has sent *)
Lemma ready_encodes c start ls tr s t o bs cur :
  exec c start ls tr s -> well_typed tr -> wf_op o -> ready c tr t o bs cur -> encodes o bs.
Proof.
  intros H [Hb _] Hw [[Ht (ch&ep&seq&G&R&_)]|[Ht (ch&ep&ch'&ep'&_&G&R&_)]].
  - apply (request_eq _ _ _ _ _ Hw Ht) in R. destruct o; try discriminate Ht; cbn [encodes]; eauto.
  - destruct (granted_grants _ _ _ _ _ _ _ H Hb G) as (d&_&Hg). apply grants_wf in Hg.
    rewrite direct_eq in R by exact Hg. destruct o; try discriminate Ht; cbn [encodes]; eauto.
Qed.
Lemma invoked_wf tr t o h n body : well_typed tr -> call_events t tr = h ++ (n, EvInvoke t o) :: body -> wf_op o.
Proof.
  intros [_ H] E. apply (H t o). apply in_evs. exists n.
  assert (In (n, EvInvoke t o) (call_events t tr)) as Hi by (rewrite E; apply in_or_app; right; left; reflexivity).
  unfold call_events in Hi. apply filter_In in Hi. apply Hi.
Qed.
Lemma success_sent c start ls tr s p n t o r q :
  exec c start ls tr s -> well_typed tr -> tr = p ++ (n, EvRet t o r) :: q -> success r ->
  exists body, in_call t o p body /\
    match o with
    | ONextMsg | OIsConnected | OAddListener _ => sends t body = []
    | _ => exists d, sends t body = [EvSend (Cl t) d] /\ encodes o d
    end.
Proof.
  intros H Hw E Hr. assert (Hwp : well_typed p) by (rewrite E in Hw; eapply well_typed_prefix, Hw).
  destruct (ret_hist _ _ _ _ _ _ _ _ _ _ _ H E) as (h&cur&tr0&s0&e1&Ec&Hc&Hh&Hs&H0&Ep&->).
  assert (Hw0 : well_typed tr0) by (rewrite Ep in Hwp; eapply well_typed_prefix, Hwp).
  assert (S : forall o', sent c tr0 t o' cur -> o' = o -> Forall (fun e => is_send t e = false) e1 ->
     (forall x, In x e1 -> call_end t x = false /\ forall o2, x <> EvInvoke t o2) ->
     exists body, in_call t o p body /\ exists d, sends t body = [EvSend (Cl t) d] /\ encodes o d).
  { intros o' Hsent -> Hn Hq. destruct (sent_call _ _ _ _ _ Hsent) as (n0&body&->&Q).
    exists (body ++ stamp (s_now s0) e1). split.
    - exists h, n0. split; [exact Ec|]. apply quiet_app; [exact Q|]. intros x Hx. unfold stamp in Hx.
      apply in_map_iff in Hx. destruct Hx as (y&<-&Hy). apply Hq, Hy.
    - destruct Hsent as (cur0&n2&bs&Hr0&E2). exists bs. split.
      + assert (sends t ((n0, EvInvoke t o) :: body ++ stamp (s_now s0) e1) = [EvSend (Cl t) bs]) as G.
        { change ((n0, EvInvoke t o) :: body ++ stamp (s_now s0) e1) with (((n0, EvInvoke t o) :: body) ++ stamp (s_now s0) e1).
          rewrite E2, !sends_app, (ready_sends _ _ _ _ _ _ Hr0).
          assert (sends t (stamp (s_now s0) e1) = []) as ->.
          { apply sends_nil. intros y Hy. unfold stamp in Hy. apply in_map_iff in Hy. destruct Hy as (z&<-&Hz).
            cbn. rewrite Forall_forall in Hn. auto. }
          cbn. rewrite Nat.eqb_refl. reflexivity. }
        exact G.
      + assert (W : wf_op o).
        { eapply invoked_wf; [exact Hwp|]. rewrite Ec. cbn. reflexivity. }
        eapply ready_encodes; eauto. }
  assert (Q1 : forall m x, In x [EvDeq t m] -> call_end t x = false /\ forall o2, x <> EvInvoke t o2)
    by (intros m x [<-|[]]; split; [reflexivity|discriminate]).
  assert (Q2 : forall m x, In x [EvClRecv t m] -> call_end t x = false /\ forall o2, x <> EvInvoke t o2)
    by (intros m x [<-|[]]; split; [reflexivity|discriminate]).
  destruct Hs; cbn in Hr; try contradiction;
    match goal with G : s_clients s0 t = _ |- _ => rewrite G in Hh; cbn [hist] in Hh end.
  - (* solicit / monitor write *)
    destruct (ready_call _ _ _ _ _ _ Hh) as (n0&body&->&Q&_).
    assert (W : wf_op o) by (eapply invoked_wf; [exact Hwp|rewrite Ec; cbn; reflexivity]).
    assert (G : exists d, sends t (body ++ stamp (s_now s0) [EvSend (Cl t) bs]) = [EvSend (Cl t) d] /\ encodes o d).
    { exists bs. split; [|eapply ready_encodes; eauto]. rewrite sends_app.
      pose proof (ready_sends _ _ _ _ _ _ Hh) as F. change (sends t body = []) in F. rewrite F.
      cbn. rewrite Nat.eqb_refl. reflexivity. }
    exists (body ++ stamp (s_now s0) [EvSend (Cl t) bs]). split.
    + exists h, n0. split; [exact Ec|]. apply quiet_app; [exact Q|]. apply quiet_one; [reflexivity|discriminate].
    + destruct H2 as [(a&->)|(a&v&b&->)]; exact G.
  - destruct Hh as (cur0&ms&Hsent&->&Hsk&_). destruct (sent_call _ _ _ _ _ Hsent) as (n0&body&->&Q).
    destruct Hsent as (cur1&n2&bs&Hr0&E2).
    assert (W : wf_op (ORead a)) by (eapply invoked_wf; [exact Hwp|rewrite Ec; cbn; reflexivity]).
    exists (body ++ deqs t ms ++ stamp (s_now s0) [EvDeq t m]). split.
    + exists h, n0. split; [rewrite Ec; cbn; rewrite <- app_assoc; reflexivity|].
      apply quiet_app; [exact Q|]. apply quiet_app; [apply quiet_deqs|]. apply quiet_one; [reflexivity|discriminate].
    + exists bs. split; [|eapply ready_encodes; eauto].
      assert (sends t ((n0, EvInvoke t (ORead a)) :: body) = [EvSend (Cl t) bs]) as G.
      { rewrite E2, sends_app, (ready_sends _ _ _ _ _ _ Hr0). cbn. rewrite Nat.eqb_refl. reflexivity. }
      rewrite !sends_app, sends_deqs. change (sends t body = [EvSend (Cl t) bs]) in G. rewrite G. reflexivity.
  - destruct Hh as (Hsent&_). eapply S; eauto.
  - eapply S; eauto.
  - destruct Hh as (cur0&ms&(n0&->)&->&_). exists (deqs t ms ++ stamp (s_now s0) [EvDeq t m]). split.
    + exists h, n0. split; [rewrite Ec; cbn; reflexivity|]. apply quiet_app; [apply quiet_deqs|].
      apply quiet_one; [reflexivity|discriminate].
    + rewrite sends_app, sends_deqs. reflexivity.
  - destruct Hh as (_&Hsent). eapply S; eauto.
  - destruct Hh as (_&Hsent). eapply S; eauto.
  - destruct Hh as (n0&->). exists []. split; [|reflexivity]. exists h, n0. split; [exact Ec|apply quiet_nil].
  - destruct Hh as (n0&->). exists []. split; [|reflexivity]. exists h, n0. split; [exact Ec|apply quiet_nil].
Qed.
