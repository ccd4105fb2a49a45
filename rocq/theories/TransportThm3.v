(** Theorems about channels, cancellation and the mutex. *)
From Verif Require Import Base Addresses Apdu Tunneling Emi Core Transport Wire Spec TraceSpec
  TransportBase TransportInv TransportConn TransportCalls TransportReturn TransportThm TransportThm2.
From Coq Require Import Lia ZifyBool ZifyNat ZifyN.
Open Scope N_scope.

(** ** Channels *)
Lemma call_datagram c start ls tr s p n t d q :
  exec c start ls tr s -> well_typed tr ->
  tr = p ++ (n, EvSend (Cl t) d) :: q \/ tr = p ++ (n, EvSendFail (Cl t) d) :: q ->
  exists o body, in_call t o p body /\ exists ch ep g ep' g' ch',
    In (EvConnRecv g) (evs p) /\ grants g ch ep' /\ In (EvConnRecv g') (evs p) /\ grants g' ch' ep /\
    match o with
    | ORead _ | OWrite _ _ _ | OSolicit _ | OMWrite _ _ _ =>
        exists n1 seq, body = [(n1, EvSeq t seq)] /\ d = tunnel_datagram ch seq (telegram o)
    | OStatus => body = [] /\ d = state_datagram ch ep
    | ODisconnect | OMDisconnect => body = [] /\ d = disconnect_datagram ch ep
    | _ => False
    end.
Proof.
  intros H W E. destruct (send_hist _ _ _ _ _ _ _ _ _ _ H E) as (s0&o&h&cur&H0&Hp&Ec&Hc&Hr).
  assert (W' : well_typed p) by (destruct E as [-> | ->]; eapply well_typed_prefix, W).
  pose proof (proj1 W') as Wb.
  destruct (ready_call _ _ _ _ _ _ Hr) as (n0&body&->&Q&_).
  exists o, body. split; [exists h, n0; auto|].
  assert (Wo : wf_op o).
  { apply (proj2 W' t o). assert (In (n0, EvInvoke t o) (call_events t p)) as Hi.
    { rewrite Ec. apply in_or_app. right. left. reflexivity. }
    unfold call_events in Hi. apply filter_In in Hi. exact (in_map snd _ _ (proj1 Hi)). }
  destruct Hr as [[Ht (ch&ep&seq&G&R&(m0&m1&Eb))]|[Ht (ch&ep&ch'&ep'&G&G'&R&(m0&Eb))]].
  - destruct (granted_grants _ _ _ _ _ _ _ H0 Wb G) as (g&Hg&Hgr).
    exists ch, ep, g, ep, g, ch. repeat (split; [assumption|]).
    apply (request_eq _ _ _ _ _ Wo Ht) in R. injection Eb as _ ->.
    destruct o; try discriminate Ht; eauto.
  - destruct (granted_grants _ _ _ _ _ _ _ H0 Wb G) as (g&Hg&Hgr).
    destruct (granted_grants _ _ _ _ _ _ _ H0 Wb G') as (g'&Hg'&Hgr').
    exists ch, ep, g, ep', g', ch'. repeat (split; [assumption|]).
    rewrite direct_eq in R by (eapply grants_wf, Hgr'). injection Eb as _ ->.
    destruct o; try discriminate Ht; auto.
Qed.

(** No connection yet: no call is past reading the connection data. *)
Definition early (pc : client_pc) : bool :=
  match pc with
  | CIdle | CLock _ | CSeq _ _ | CChan2 _ | CConnChk | CAddL _ => true
  | CWaitQ ONextMsg _ => true
  | _ => false
  end.
Lemma no_connected_app a b : no_connected (a ++ b) <-> no_connected a /\ no_connected b.
Proof. unfold no_connected. rewrite forallb_app, Bool.andb_true_iff. tauto. Qed.
Lemma early_inv c start ls tr s :
  exec c start ls tr s -> no_connected tr ->
  s_conn s = None /\ s_rxq s = [] /\ bg_gone s = false /\ forall t, early (s_clients s t) = true.
Proof.
  intro H. pattern tr, s. revert tr s H. apply exec_inv; [auto|].
  intros tr s l s' es H IH Hs Hn. apply no_connected_app in Hn. destruct Hn as [Hn Hn'].
  specialize (IH Hn). destruct IH as (I1&I2&I3&I4).
  pose proof (proj1 (conn_inv _ _ _ _ _ H) I1) as Hc. clear H Hn.
  destruct (bg_label l) eqn:Hb.
  { destruct (bg_frame _ _ _ _ _ Hs Hb) as (_&_&_&->&_).
    destruct l; try discriminate Hb; inv_step Hs; sys;
      repeat match goal with E : s_bg s = _ |- _ => rewrite E in *; clear E end; cbn in *; try discriminate; auto. }
  destruct (call_label l) as [t|] eqn:Hl.
  2:{ destruct (env_frame _ _ _ _ _ Hs Hb Hl) as (->&->&Eb&_&_&->&_). unfold bg_gone in *. rewrite Eb. auto. }
  pose proof (I4 t) as It.
  destruct l; try discriminate Hl; injection Hl as ->; inv_step Hs; unfold bg_gone in *; sys;
    repeat match goal with E : s_clients s ?x = _ |- _ => rewrite E in *; clear E end; cbn in It; try discriminate It;
    try congruence.
  all: try (match goal with o : op |- _ => destruct o; discriminate end).
  all: try (match goal with o : op |- _ => destruct o; discriminate end).
  all: split; [assumption|split; [assumption|split; [assumption|]]]; intro u; unfold upd;
    destruct (Nat.eqb u t); auto.
Qed.
Lemma before_connection c start ls tr s p n e q :
  exec c start ls tr s -> tr = p ++ (n, e) :: q -> no_connected p -> before_event e.
Proof.
  intros H E Hn. destruct (exec_split _ _ _ _ _ _ _ _ _ H E) as (tr0&s0&l&s1&e1&e2&H0&Hs&->&->&_).
  apply no_connected_app in Hn. destruct Hn as [Hn _].
  destruct (early_inv _ _ _ _ _ H0 Hn) as (I1&I2&I3&I4).
  assert (F : Forall before_event (e1 ++ e :: e2)).
  { remember (e1 ++ e :: e2) as es eqn:Ee. clear Ee H0 H E q tr0 Hn e1 e2 e.
    destruct (bg_label l) eqn:Hb.
    { destruct (bg_frame _ _ _ _ _ Hs Hb) as (_&_&_&_&F). apply Forall_forall. intros x Hx.
      rewrite forallb_forall in F. specialize (F x Hx).
      destruct x as [| | | |[] ?|[] ?| | | | | | | | | | | | | |]; try discriminate; exact I. }
    destruct (call_label l) as [u|] eqn:Hl.
    2:{ destruct (env_frame _ _ _ _ _ Hs Hb Hl) as (_&_&_&_&_&_&_&_&[(d&->&_)|(->&_)]); repeat constructor. }
    pose proof (I4 u) as It.
    destruct l; try discriminate Hl; injection Hl as ->; inv_step Hs;
      repeat match goal with E : s_clients s0 ?x = _ |- _ => rewrite E in *; clear E end; cbn in It; try discriminate It;
      try congruence;
      try (match goal with o : op |- _ => destruct o; discriminate end);
      repeat (apply Forall_cons || apply Forall_nil); cbn; eauto 6. }
  apply Forall_app in F. destruct F as [_ F]. exact (Forall_inv F).
Qed.

(** ** The channel of a request, when no reconnection intervened *)
Lemma same_connection_inv c start ls tr s :
  exec c start ls tr s -> forall t o bs cd b n seq, s_clients s t = CSend o bs -> tunnel_op o = true ->
  current tr = Some (cd, b) -> In (n, EvSeq t seq) b -> exists seq', request c o (cd_chan cd) seq' bs.
Proof.
  intro H. pattern tr, s. revert tr s H. apply exec_inv; [discriminate|].
  intros tr s l s' es H IH Hs t o bs cd b n seq Hp Ho Hc Hi. rewrite current_app in Hc.
  pose proof (seq_inv _ _ _ _ _ H) as Q.
  destruct (bg_label l) eqn:Hb.
  { destruct (bg_frame _ _ _ _ _ Hs Hb) as (_&_&_&Ecl&F). rewrite Ecl in Hp.
    destruct (bg_conn _ _ _ _ _ Hs Hb) as (Hiss&[(r&Hr&->&_)|(Hn&_)]).
    - cbn in Hc. injection Hc as <- <-. destruct Hi.
    - rewrite (fold_no_connected _ _ Hn) in Hc. destruct (current tr) as [[c0 b0]|]; [|discriminate]. injection Hc as <- <-.
      apply in_app_or in Hi. destruct Hi as [Hi|Hi]; [eapply IH; eauto|].
      unfold stamp in Hi. apply in_map_iff in Hi. destruct Hi as (x&Ex&Hx). injection Ex as _ ->.
      rewrite forallb_forall in F. specialize (F _ Hx). discriminate F. }
  destruct (call_label l) as [u|] eqn:Hl.
  2:{ destruct (env_frame _ _ _ _ _ Hs Hb Hl) as (_&_&_&_&_&E&_&_&Ev). rewrite E in Hp.
      destruct Ev as [(d&->&_)|(->&_)]; cbn in Hc.
      - unfold conn_upd in Hc; cbn in Hc. destruct (current tr) as [[c0 b0]|]; [|discriminate]. injection Hc as <- <-.
        apply in_app_or in Hi. destruct Hi as [Hi|[Hi|[]]]; [eapply IH; eauto|discriminate Hi].
      - eapply IH; eauto. }
  rewrite (fold_no_connected _ _ (call_no_connected _ _ _ _ _ _ Hs Hl)) in Hc.
  destruct (current tr) as [[c0 b0]|] eqn:Ec; [|discriminate]. injection Hc as <- <-.
  destruct (Nat.eq_dec u t) as [->|Ne].
  - clear IH. revert Hp. destruct l; try discriminate Hl; injection Hl as ->; inv_step Hs; sys; rewrite ?upd_same;
      intro Hp; try discriminate Hp; try congruence;
      injection Hp as ? ?; subst.
    all: destruct (hist_inv _ _ _ _ _ H t) as (h&cur&_&_&Hh);
      match type of Hh with hist _ _ _ ?x _ => match goal with G : x = _ |- _ => rewrite G in Hh end end; cbn [hist] in Hh.
    all: try (destruct Hh as (Hh&_); match goal with G : tunnel_op ?o = true |- _ => destruct o; discriminate end).
    destruct Hh as (_&Hp&_). destruct Q as [_ Q]. destruct (Q _ eq_refl) as (E&_). rewrite <- E.
    eexists _, _. split; eassumption.
  - destruct (call_frame _ _ _ _ _ _ Hs Hl) as (_&_&_&_&_&_&Eo&F). rewrite Eo in Hp by auto.
    apply in_app_or in Hi. destruct Hi as [Hi|Hi]; [eapply IH; eauto|].
    unfold stamp in Hi. apply in_map_iff in Hi. destruct Hi as (x&Ex&Hx). injection Ex as _ ->.
    rewrite forallb_forall in F. specialize (F _ Hx). cbn in F. apply Nat.eqb_eq in F. congruence.
Qed.

Lemma same_connection c start ls tr s a n cd b n2 t d q o n1 seq :
  exec c start ls tr s -> well_typed tr ->
  tr = (a ++ (n, EvConnected cd) :: b) ++ (n2, EvSend (Cl t) d) :: q -> no_connected b ->
  in_call t o (a ++ (n, EvConnected cd) :: b) [(n1, EvSeq t seq)] -> In (n1, EvSeq t seq) b ->
  d = tunnel_datagram (cd_chan cd) seq (telegram o).
Proof.
  intros H W E Hn I Hi.
  destruct (send_hist _ _ _ _ _ _ _ _ _ _ H (or_introl E)) as (s0&o'&h&cur&H0&Hp&Ec&Hc&Hr).
  destruct (in_call_pc _ _ _ _ _ _ _ _ H0 I) as (Eo&n0&_). rewrite Hp in Eo. injection Eo as ->.
  destruct (ready_call _ _ _ _ _ _ Hr) as (m0&body&->&Q&_).
  assert (I' : in_call t o (a ++ (n, EvConnected cd) :: b) body) by (exists h, m0; auto).
  destruct (in_call_unique _ _ _ _ _ _ I I') as (_&<-).
  destruct Hr as [[Ht (ch&ep&seq0&G&R&(m1&m2&Eb))]|[Ht (ch&ep&ch'&ep'&G&G'&R&(m1&Eb))]]; [|discriminate Eb].
  injection Eb as _ _ <-.
  destruct (same_connection_inv _ _ _ _ _ H0 _ _ _ _ _ _ _ Hp Ht (current_split _ _ _ _ Hn) Hi) as (seq'&R').
  assert (Wo : wf_op o).
  { subst tr. apply (proj2 (well_typed_prefix _ _ W) t o).
    assert (In (m0, EvInvoke t o) (call_events t (a ++ (n, EvConnected cd) :: b))) as Hj.
    { rewrite Ec. apply in_or_app. right. left. reflexivity. }
    unfold call_events in Hj. apply filter_In in Hj. exact (in_map snd _ _ (proj1 Hj)). }
  apply (request_eq _ _ _ _ _ Wo Ht) in R. apply (request_eq _ _ _ _ _ Wo Ht) in R'.
  rewrite R in R'. apply (f_equal (fun l => nth 7 l 0)) in R'. cbn in R'. rewrite R, R'. reflexivity.
Qed.

(** ** Cancellation *)
Lemma cancel_enabled c start ls tr s t o body :
  exec c start ls tr s -> s_rx_alive s = true -> in_call t o tr body ->
  exists s', step c s (LCancel t) = Some (s', [EvCancel t o]).
Proof.
  intros H Ha I. destruct (in_call_pc _ _ _ _ _ _ _ _ H I) as (Eo&_).
  cbn. rewrite Ha. unfold cl_cancel. rewrite Eo. eauto.
Qed.
Lemma cancel_effect c start ls tr s t s' es :
  exec c start ls tr s -> step c s (LCancel t) = Some (s', es) ->
  s_conn s' = s_conn s /\ s_rxq s' = s_rxq s /\ s_inbox s' = s_inbox s /\ s_bg s' = s_bg s /\ s_onconn s' = s_onconn s /\
  s_listeners s' = s_listeners s /\ s_hb s' = s_hb s /\ s_now s' = s_now s /\ s_rx_alive s' = s_rx_alive s /\
  (forall u, u <> t -> s_clients s' u = s_clients s u) /\ s_clients s' t = CIdle /\ s_tlock s' <> Some t /\
  (forall u, u <> t -> s_tlock s = Some u -> s_tlock s' = Some u) /\
  (s_tlock s = None \/ s_tlock s = Some t -> s_tlock s' = None).
Proof.
  intros H Hs. inv_step Hs. sys. cbn. rewrite !upd_same.
  repeat (split; [first [reflexivity | assumption | intros; apply upd_other; auto]|]).
  unfold unlock. destruct (s_tlock s) as [w|] eqn:E; cbn.
  - destruct (Nat.eqb_spec w t); cbn; rewrite ?E.
    + subst. repeat split; try congruence.
    + repeat split; try congruence. intros [G|G]; congruence.
  - repeat split; congruence.
Qed.

(** ** The mutex *)
Lemma dispatch_not_notify d : match dispatch d with BNotify _ _ => true | _ => false end = false.
Proof.
  unfold dispatch. destruct d; [reflexivity|]. destruct (parse_response _) as [[]| |]; try reflexivity.
  destruct (_ =? _); reflexivity.
Qed.
Lemma after_ack_not_notify p k : match after_ack p k with BNotify _ _ => true | _ => false end = false.
Proof. unfold after_ack. destruct k; [destruct (run_on _ _)|]; reflexivity. Qed.
Lemma lock_live c start ls tr s u :
  exec c start ls tr s -> s_tlock s = Some u -> exists o body, in_call u o tr body.
Proof.
  intros H E. apply (lock_inv _ _ _ _ _ H) in E.
  assert (G : exists o, pc_op (s_clients s u) = Some o) by (destruct (s_clients s u); cbn in *; try discriminate E; eauto).
  destruct G as (o&G). destruct (hist_in_call _ _ _ _ _ _ _ H G) as (body&I). eauto.
Qed.
Lemma lock_alive c start ls tr s u :
  exec c start ls tr s -> s_tlock s = Some u -> s_rx_alive s = true.
Proof.
  intro H. revert u. pattern tr, s. revert tr s H. apply exec_inv; [reflexivity|].
  intros tr s l s' es H IH Hs u E. destruct (bg_label l) eqn:Hb.
  - destruct (bg_frame _ _ _ _ _ Hs Hb) as (_&->&Et&_). rewrite Et in E. eauto.
  - destruct (call_label l) as [t|] eqn:Hl.
    + apply (call_frame _ _ _ _ _ _ Hs Hl).
    + destruct (env_frame _ _ _ _ _ Hs Hb Hl) as (_&_&_&_&Et&_). rewrite Et in E. specialize (IH _ E).
      destruct l; try discriminate Hb; try discriminate Hl; inv_step Hs; sys; congruence.
Qed.
Lemma client_not_locked c start ls tr s :
  exec c start ls tr s -> c_mode c = MClient -> cd_locked s = false.
Proof.
  intros H Hm. revert tr s H. apply exec_inv; [reflexivity|].
  intros tr s l s' es H IH Hs. unfold cd_locked in *. destruct (bg_label l) eqn:Hb.
  - destruct l; try discriminate Hb; inv_step Hs; sys; try congruence;
      repeat match goal with E : s_bg s = _ |- _ => rewrite E in *; clear E end; try discriminate; auto;
      match goal with |- context [dispatch ?d] => pose proof (dispatch_not_notify d) as G
        | |- context [after_ack ?a ?b] => pose proof (after_ack_not_notify a b) as G end; exact G.
  - destruct (call_label l) as [t|] eqn:Hl.
    + destruct (call_frame _ _ _ _ _ _ Hs Hl) as (_&_&_&->&_). exact IH.
    + destruct (env_frame _ _ _ _ _ Hs Hb Hl) as (_&_&->&_). exact IH.
Qed.

(** ** A call holding the mutex can run to its end on its own *)
Definition can_end (c : cfg) (s : sys) (u : nat) : Prop :=
  exists sched s' tr', forallb (own u) sched = true /\ run c s sched = Some (s', tr') /\
    s_clients s' u = CIdle /\ s_tlock s' = None.
Lemma can_end_step c s l s' es u :
  own u l = true -> step c s l = Some (s', es) -> can_end c s' u -> can_end c s u.
Proof.
  intros Hl Hs (sched&s2&tr'&H1&H2&H3). exists (l :: sched), s2, (stamp (s_now s) es ++ tr').
  cbn [forallb run]. rewrite Hl, Hs, H1, H2. auto.
Qed.
Lemma can_end_done c s u : s_clients s u = CIdle -> s_tlock s = None -> can_end c s u.
Proof. intros. exists [], s, []. auto. Qed.
Lemma unlock_own s u : s_tlock s = Some u -> s_tlock (unlock s u) = None.
Proof. intro E. unfold unlock. rewrite E, Nat.eqb_refl. reflexivity. Qed.
Lemma own_cl u : own u (LCl u true) = true. Proof. cbn. rewrite Nat.eqb_refl. reflexivity. Qed.
Lemma own_to u : own u (LTimeout u) = true. Proof. cbn. rewrite Nat.eqb_refl. reflexivity. Qed.

Lemma can_end_wait c s u o dl :
  ((exists a, o = ORead a) \/ (exists a v b, o = OWrite a v b)) ->
  s_rx_alive s = true -> s_tlock s = Some u -> s_clients s u = CWaitQ o dl -> can_end c s u.
Proof.
  intros Ho Ha Ht Hp. eapply can_end_step with (l := LTime dl); [reflexivity|reflexivity|].
  eapply can_end_step with (l := LTimeout u); [apply own_to| |].
  - cbn [step s_rx_alive set_now]. rewrite Ha. unfold cl_timeout. cbn [s_clients set_now s_now]. rewrite Hp.
    assert (L : dl <=? s_now s + dl = true) by (apply N.leb_le; lia). rewrite L.
    destruct Ho as [(a&->)|(a&v&b&->)]; unfold finish; reflexivity.
  - apply can_end_done; cbn; [apply upd_same|]. apply unlock_own. exact Ht.
Qed.
Lemma can_end_send c s u o bs :
  tunnel_op o = true -> s_rx_alive s = true -> s_tlock s = Some u -> s_clients s u = CSend o bs -> can_end c s u.
Proof.
  intros Ho Ha Ht Hp.
  destruct o; try discriminate Ho;
  (eapply can_end_step with (l := LCl u true); [apply own_cl|cbn [step]; rewrite Ha; unfold cl_step; rewrite Hp; unfold goto, finish; reflexivity|]).
  - eapply can_end_wait; [left; eexists; reflexivity|exact Ha|exact Ht|cbn; apply upd_same].
  - eapply can_end_wait; [right; eexists _, _, _; reflexivity|exact Ha|exact Ht|cbn; apply upd_same].
  - apply can_end_done; cbn; [apply upd_same|]. apply unlock_own. exact Ht.
  - apply can_end_done; cbn; [apply upd_same|]. apply unlock_own. exact Ht.
Qed.
Lemma can_end_chan c s u o pkt seq :
  tunnel_op o = true -> s_rx_alive s = true -> cd_locked s = false -> s_tlock s = Some u ->
  s_clients s u = CChan o pkt seq -> can_end c s u.
Proof.
  intros Ho Ha Hc Ht Hp. destruct (s_conn s) as [cd|] eqn:E.
  - destruct (tunneling_request_packet (c_prof c) {| tr_chan := cd_chan cd; tr_seq := seq; tr_cemi := pkt |}) as [bs| |] eqn:Er.
    + eapply can_end_step with (l := LCl u true); [apply own_cl|cbn [step]; rewrite Ha; unfold cl_step; rewrite Hp, Hc, E, Er; reflexivity|].
      eapply can_end_send; eauto; cbn; apply upd_same.
    + eapply can_end_step with (l := LCl u true); [apply own_cl|cbn [step]; rewrite Ha; unfold cl_step; rewrite Hp, Hc, E, Er; reflexivity|].
      apply can_end_done; cbn; [apply upd_same|]. apply unlock_own. exact Ht.
    + eapply can_end_step with (l := LCl u true); [apply own_cl|cbn [step]; rewrite Ha; unfold cl_step; rewrite Hp, Hc, E, Er; reflexivity|].
      apply can_end_done; cbn; [apply upd_same|]. apply unlock_own. exact Ht.
  - eapply can_end_step with (l := LCl u true); [apply own_cl|cbn [step]; rewrite Ha; unfold cl_step; rewrite Hp, Hc, E; reflexivity|].
    apply can_end_done; cbn; [apply upd_same|]. apply unlock_own. exact Ht.
Qed.
Lemma can_end_seq c s u o pkt :
  tunnel_op o = true -> s_rx_alive s = true -> cd_locked s = false -> s_tlock s = Some u ->
  s_clients s u = CSeq o pkt -> can_end c s u.
Proof.
  intros Ho Ha Hc Ht Hp. destruct (s_conn s) as [cd|] eqn:E.
  - eapply can_end_step with (l := LCl u true); [apply own_cl|cbn [step]; rewrite Ha; unfold cl_step; rewrite Hp, Hc, E; reflexivity|].
    eapply can_end_chan; eauto; cbn; apply upd_same.
  - eapply can_end_step with (l := LCl u true); [apply own_cl|cbn [step]; rewrite Ha; unfold cl_step; rewrite Hp, Hc, E; reflexivity|].
    apply can_end_done; cbn; [apply upd_same|]. apply unlock_own. exact Ht.
Qed.
Lemma holder_can_end c start ls tr s u o body :
  exec c start ls tr s -> s_tlock s = Some u -> in_call u o tr body -> tunnel_op o = true -> cd_locked s = false ->
  can_end c s u.
Proof.
  intros H Ht I Ho Hc. pose proof (lock_alive _ _ _ _ _ _ H Ht) as Ha.
  pose proof (proj2 (lock_inv _ _ _ _ _ H u) Ht) as Hh.
  destruct (in_call_pc _ _ _ _ _ _ _ _ H I) as (Eo&n&Hi).
  destruct (s_clients s u) as [|o1|o1 ?|o1 ? ?|o1|o1 ch|o1 bs|o1 dl|o1| |] eqn:Ep; cbn in Eo; try discriminate Eo;
    injection Eo as <-; cbn in Hh; try discriminate Hh; try discriminate Ho; cbn [hist] in Hi.
  - eapply can_end_seq; eauto.
  - eapply can_end_chan; eauto.
  - destruct Hi as (D&_). destruct o1; discriminate.
  - destruct Hi as (D&_). destruct o1; discriminate.
  - eapply can_end_send; eauto.
  - destruct o1; try discriminate Ho; try contradiction; (eapply can_end_wait; [|exact Ha|exact Ht|exact Ep]); eauto 6.
  - destruct Hi as ([-> | ->]&_); discriminate.
Qed.
