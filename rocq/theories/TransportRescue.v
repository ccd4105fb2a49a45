(** From every state every call can still come back. *)
From Verif Require Import Base Addresses Apdu Tunneling Emi Core Transport Wire Spec TraceSpec TraceSpec2 RescueSpec TransportBase TransportInv TransportCalls TransportReturn TransportConn TransportRuns TransportFair TransportRecover.
From Coq Require Import Lia ZifyBool ZifyNat ZifyN.
Open Scope N_scope.

Definition friendly (c : cfg) (s s' : sys) (q : trace) : Prop :=
  exists sched, forallb cooperative sched = true /\ run c s sched = Some (s', q).
Lemma fr_refl c s : friendly c s s [].
Proof. exists []. auto. Qed.
Lemma fr_step c s l s1 es s' q :
  step c s l = Some (s1, es) -> cooperative l = true -> friendly c s1 s' q -> friendly c s s' (stamp (s_now s) es ++ q).
Proof. intros Hs Hl (sched&F&R). exists (l :: sched). cbn. rewrite Hl, Hs, R. auto. Qed.
Lemma fr_trans c s s1 s2 q1 q2 : friendly c s s1 q1 -> friendly c s1 s2 q2 -> friendly c s s2 (q1 ++ q2).
Proof. intros (a&F1&R1) (b&F2&R2). exists (a ++ b). rewrite forallb_app, F1, F2, run_app, R1, R2. auto. Qed.

(** ** Bringing the task back to an empty socket *)
Definition kept (s s' : sys) : Prop :=
  s_clients s' = s_clients s /\ s_tlock s' = s_tlock s /\ s_rx_alive s' = s_rx_alive s /\ s_rxq s' = s_rxq s.
Lemma kept_trans a b d : kept a b -> kept b d -> kept a d.
Proof. unfold kept. intuition congruence. Qed.
Definition back (c : cfg) (s : sys) : Prop :=
  exists s' q, friendly c s s' q /\ kept s s' /\ (bg_gone s' = true \/ (s_bg s' = BRecv /\ s_inbox s' = [])).
Lemma back_step c s l s1 es : step c s l = Some (s1, es) -> cooperative l = true -> kept s s1 -> back c s1 -> back c s.
Proof.
  intros Hs Hl K (s'&q&F&K'&G). exists s', (stamp (s_now s) es ++ q). split; [eapply fr_step; eauto|]. split; [eapply kept_trans; eauto|exact G].
Qed.
Lemma back_here c s : s_bg s = BRecv -> s_inbox s = [] -> back c s.
Proof. intros B I. exists s, []. split; [apply fr_refl|]. split; [repeat split|auto]. Qed.
Lemma back_gone c s : bg_gone s = true -> back c s.
Proof. intros B. exists s, []. split; [apply fr_refl|]. split; [repeat split|auto]. Qed.
Ltac bgo Hb := cbn [step]; unfold bg_step; sysb; rewrite ?Hb; sysb; reflexivity.
Ltac kpt := repeat split.

Definition then_recv (c : cfg) (s : sys) : Prop := forall s', s_bg s' = BRecv -> s_inbox s' = s_inbox s -> back c s'.
Lemma back_notify c todo : forall s active, s_bg s = BNotify todo active -> then_recv c s -> back c s.
Proof.
  induction todo as [|x todo IH]; intros s active Hb K.
  - eapply back_step with (l := LBg true); [bgo Hb|reflexivity|kpt|]. apply K; reflexivity.
  - eapply back_step with (l := LListenerDrop x); [reflexivity|reflexivity|kpt|].
    eapply back_step with (l := LBg true); [|reflexivity| |].
    + cbn [step]. unfold bg_step. sysb. rewrite Hb. sysb. rewrite upd_same. cbn [li_alive]. reflexivity.
    + kpt.
    + eapply IH; [sysb; reflexivity|]. intros s' B I. apply K; assumption.
Qed.
Lemma back_store c s r : s_bg s = BStore r -> then_recv c s -> back c s.
Proof.
  intros Hb K. eapply back_step with (l := LBg true); [bgo Hb|reflexivity|kpt|].
  destruct (c_mode c); [apply K; reflexivity|]. eapply back_notify; [reflexivity|]. intros s' B I. apply K; assumption.
Qed.
Lemma back_accepted c s r : s_bg s = match c_mode c with MClient => BStore r | MMonitor => BMonEnable r end -> then_recv c s -> back c s.
Proof.
  intros Hb K. destruct (c_mode c) eqn:Hm; [eapply back_store; eauto|].
  eapply back_step with (l := LBg true); [bgo Hb|reflexivity|kpt|]. eapply back_store; [reflexivity|]. intros s' B I. apply K; assumption.
Qed.
Lemma back_sleep c s dl :
  (forall s', s_bg s' = BConnSend -> s_inbox s' = s_inbox s -> back c s') -> s_bg s = BConnSleep dl -> back c s.
Proof.
  intros K Hb. eapply back_step with (l := LTime dl); [reflexivity|reflexivity|kpt|].
  eapply back_step with (l := LBg true); [|reflexivity| |].
  - cbn [step]. unfold bg_step. sysb. rewrite Hb. replace (dl <=? s_now s + dl) with true by (symmetry; apply N.leb_le; lia). reflexivity.
  - kpt.
  - apply K; reflexivity.
Qed.
Lemma accepts7 : exists r, accept_connection (granting 7) = Some r.
Proof. eexists. vm_compute. reflexivity. Qed.
Lemma back_wait c s dl :
  (forall s', s_bg s' = BConnSend -> (length (s_inbox s') < length (s_inbox s))%nat -> back c s') ->
  (forall s', s_bg s' = BRecv -> s_inbox s' = [] \/ (length (s_inbox s') < length (s_inbox s))%nat -> back c s') ->
  s_bg s = BConnWait dl -> back c s.
Proof.
  intros K1 K2 Hb. destruct accepts7 as (r0&Er0). destruct (s_inbox s) as [|d rest] eqn:Ei.
  - eapply back_step with (l := LArrive (granting 7)); [reflexivity|reflexivity|kpt|].
    eapply back_step with (l := LBg true); [|reflexivity| |].
    + cbn [step]. unfold bg_step. sysb. rewrite Hb, Ei. cbn [app]. rewrite Er0. reflexivity.
    + kpt.
    + eapply back_accepted; [sysb; reflexivity|]. intros s' B I. apply K2; [exact B|]. left. rewrite I. reflexivity.
  - eapply back_step with (l := LBg true); [|reflexivity| |].
    + cbn [step]. unfold bg_step. sysb. rewrite Hb, Ei. reflexivity.
    + kpt.
    + destruct (accept_connection d) as [r|].
      * eapply back_accepted; [sysb; reflexivity|]. intros s' B I. apply K2; [exact B|]. right. rewrite I. sysb. cbn. lia.
      * eapply back_sleep; [|sysb; reflexivity]. intros s' B I. apply K1; [exact B|]. rewrite I. sysb. cbn. lia.
Qed.
Lemma back_beat c s :
  (forall s', s_bg s' = BConnSend -> s_inbox s' = s_inbox s -> back c s') -> then_recv c s -> s_bg s = BBeat -> back c s.
Proof.
  intros K1 K2 Hb. destruct (s_conn s) as [cd|] eqn:Ec.
  - eapply back_step with (l := LBg true); [cbn [step]; unfold bg_step; rewrite Hb, Ec; reflexivity|reflexivity|kpt|]. apply K2; reflexivity.
  - eapply back_step with (l := LBg true); [cbn [step]; unfold bg_step; rewrite Hb, Ec; reflexivity|reflexivity|kpt|].
    eapply back_step with (l := LBg true); [cbn [step]; unfold bg_step; sysb; reflexivity|reflexivity|kpt|].
    eapply back_step with (l := LBg true); [cbn [step]; unfold bg_step; sysb; reflexivity|reflexivity|kpt|].
    apply K1; reflexivity.
Qed.
Lemma back_tick c s :
  (forall s', s_bg s' = BConnSend -> s_inbox s' = s_inbox s -> back c s') -> then_recv c s ->
  match s_bg s with BAck _ _ _ | BEnq _ | BDiscSend _ => True | _ => False end -> back c s.
Proof.
  intros K1 K2 Hb. eapply back_step with (l := LTime (s_hb s)); [reflexivity|reflexivity|kpt|].
  assert (L : (s_hb s <=? s_now s + s_hb s) = true) by (apply N.leb_le; lia).
  destruct (s_bg s) eqn:E; try contradiction;
    (eapply back_step with (l := LTick); [cbn [step]; unfold bg_tick; sysb; rewrite E, L; reflexivity|reflexivity|kpt|]);
    apply back_beat; try reflexivity; intros s' B I; first [apply K1; assumption|apply K2; assumption].
Qed.
Lemma back_clear c s : (forall s', s_bg s' = BConnSend -> s_inbox s' = s_inbox s -> back c s') -> s_bg s = BClear -> back c s.
Proof.
  intros K Hb. eapply back_step with (l := LBg true); [bgo Hb|reflexivity|kpt|].
  eapply back_step with (l := LBg true); [cbn [step]; unfold bg_step; sysb; reflexivity|reflexivity|kpt|]. apply K; reflexivity.
Qed.
Lemma back_both c k :
  (forall s, s_bg s = BRecv -> (length (s_inbox s) <= k)%nat -> back c s) /\
  (forall s, s_bg s = BConnSend -> (length (s_inbox s) <= k)%nat -> back c s).
Proof.
  induction k as [|k [IHr IHs]].
  - assert (R : forall s, s_bg s = BRecv -> (length (s_inbox s) <= 0)%nat -> back c s).
    { intros s Hb L. apply back_here; [exact Hb|]. destruct (s_inbox s); [reflexivity|cbn in L; lia]. }
    split; [exact R|]. intros s Hb L. eapply back_step with (l := LBg true); [bgo Hb|reflexivity|kpt|].
    eapply back_wait; [| |sysb; reflexivity]; sysb.
    + intros s' _ L'. lia.
    + intros s' B [I|L']; [apply back_here; assumption|lia].
  - assert (S : forall s, s_bg s = BConnSend -> (length (s_inbox s) <= S k)%nat -> back c s).
    { intros s Hb L. eapply back_step with (l := LBg true); [bgo Hb|reflexivity|kpt|].
      eapply back_wait; [| |sysb; reflexivity]; sysb.
      - intros s' B L'. apply IHs; [exact B|lia].
      - intros s' B [I|L']; [apply back_here; assumption|apply IHr; [exact B|lia]]. }
    split; [|exact S]. intros s Hb L. destruct (s_inbox s) as [|d rest] eqn:Ei; [apply back_here; assumption|]. cbn in L.
    eapply back_step with (l := LBg true); [cbn [step]; unfold bg_step; rewrite Hb, Ei; reflexivity|reflexivity|kpt|].
    assert (K1 : forall s', s_bg s' = BConnSend -> s_inbox s' = rest -> back c s') by (intros s' B I; apply IHs; [exact B|rewrite I; lia]).
    assert (K2 : forall s', s_bg s' = BRecv -> s_inbox s' = rest -> back c s') by (intros s' B I; apply IHr; [exact B|rewrite I; lia]).
    assert (D : match dispatch d with BRecv | BAck _ _ _ | BDiscSend _ | BClear | BEnded | BPanicked => True | _ => False end).
    { unfold dispatch. destruct d; [exact I|]. destruct (parse_response _) as [[]| |]; try exact I. destruct (_ =? _); exact I. }
    destruct (dispatch d) eqn:Ed; try contradiction.
    + apply K2; reflexivity.
    + apply back_tick; [exact K1|exact K2|exact I].
    + apply back_tick; [exact K1|exact K2|exact I].
    + apply back_clear; [exact K1|reflexivity].
    + apply back_gone. reflexivity.
    + apply back_gone. reflexivity.
Qed.
Lemma comes_home c s : back c s.
Proof.
  assert (K1 : forall s', s_bg s' = BConnSend -> back c s') by (intros s' B; apply (proj2 (back_both c (length (s_inbox s')))); [exact B|lia]).
  assert (K2 : forall s', s_bg s' = BRecv -> back c s') by (intros s' B; apply (proj1 (back_both c (length (s_inbox s')))); [exact B|lia]).
  assert (T : then_recv c s) by (intros s' B _; apply K2, B).
  destruct (s_bg s) eqn:Hb.
  - destruct (s_conn s) eqn:Ec; (eapply back_step with (l := LBg true); [cbn [step]; unfold bg_step; rewrite Hb, Ec; reflexivity|reflexivity|kpt|]).
    + apply K2. reflexivity.
    + apply K1. reflexivity.
  - apply K1, Hb.
  - eapply back_wait; [| |exact Hb]; auto.
  - eapply back_sleep; [|exact Hb]. auto.
  - eapply back_step with (l := LBg true); [bgo Hb|reflexivity|kpt|]. eapply back_store; [reflexivity|]. intros s' B _. apply K2, B.
  - eapply back_store; eauto.
  - eapply back_notify; eauto.
  - apply K2, Hb.
  - apply back_tick; auto. rewrite Hb. exact I.
  - apply back_tick; auto. rewrite Hb. exact I.
  - apply back_tick; auto. rewrite Hb. exact I.
  - apply back_beat; auto.
  - apply back_clear; auto.
  - apply back_gone. unfold bg_gone. rewrite Hb. reflexivity.
  - apply back_gone. unfold bg_gone. rewrite Hb. reflexivity.
Qed.

(** ** A call comes back *)
Definition ended (t : nat) (q : trace) : Prop := existsb (fun x => comes_back t (snd x)) q = true.
Definition finishes (c : cfg) (u : nat) (s : sys) : Prop :=
  exists s' q, friendly c s s' q /\ ended u q /\ s_tlock s' = s_tlock (unlock s u) /\
    (forall v, v <> u -> s_clients s' v = s_clients s v) /\ s_rx_alive s' = true.
Lemma unlock_eq s s1 u : s_tlock s1 = s_tlock s -> s_tlock (unlock s1 u) = s_tlock (unlock s u).
Proof. intro E. unfold unlock. rewrite E. destruct (s_tlock s) as [v|] eqn:F; [destruct (Nat.eqb v u); [reflexivity|congruence]|congruence]. Qed.
Lemma ended_app u a b : ended u b -> ended u (a ++ b).
Proof. unfold ended. intro H. rewrite existsb_app, H. apply Bool.orb_true_r. Qed.
Lemma fin_after c u s s1 q :
  friendly c s s1 q -> s_tlock s1 = s_tlock s -> (forall v, v <> u -> s_clients s1 v = s_clients s v) -> finishes c u s1 -> finishes c u s.
Proof.
  intros F T O (s'&q'&F'&E&T'&O'&A). exists s', (q ++ q'). split; [eapply fr_trans; eauto|]. split; [apply ended_app, E|].
  split; [rewrite T'; apply unlock_eq, T|]. split; [intros v N; rewrite O', O by exact N; reflexivity|exact A].
Qed.
Lemma fin_step c u s l s1 es :
  step c s l = Some (s1, es) -> cooperative l = true -> s_tlock s1 = s_tlock s -> (forall v, v <> u -> s_clients s1 v = s_clients s v) ->
  finishes c u s1 -> finishes c u s.
Proof.
  intros Hs Hl. pose proof (fr_step c s l s1 es s1 [] Hs Hl (fr_refl c s1)) as F. rewrite app_nil_r in F. eapply fin_after, F.
Qed.
Lemma fin_end c u s l x evs0 e :
  step c s l = Some (set_client (unlock x u) u CIdle, evs0 ++ [e]) -> cooperative l = true -> comes_back u e = true ->
  s_tlock x = s_tlock s -> s_clients x = s_clients s -> s_rx_alive x = true -> finishes c u s.
Proof.
  intros Hs Hl He T C A. eexists _, _. split; [exact (fr_step c s l _ _ _ [] Hs Hl (fr_refl c _))|].
  split; [|split; [|split]].
  - unfold ended. rewrite app_nil_r. unfold stamp. rewrite map_app, existsb_app. cbn. rewrite He. rewrite !Bool.orb_true_r. reflexivity.
  - sysb. apply unlock_eq, T.
  - intros v N. sysb. rewrite upd_other by exact N. rewrite unlock_clients, C. reflexivity.
  - sysb. destruct (unlock_frame x u) as (_&_&_&->&_). exact A.
Qed.

(** *** Waiting for a message *)
Definition rescue_message : cemi :=
  {| ce_code := 0x29; ce_infos := []; ce_service := ldata_bytes 0xbc 0xe0 0x1105 0x0902 2 0x80 [9] |}.
Definition rescue : list N := tunnelled 7 0 (group_ind 0x0902 [9]).
Lemma rescue_dispatch : exists bs, dispatch rescue = BAck 7 0 (Some bs) /\ forall p, after_ack p (Some bs) = BEnq rescue_message.
Proof. eexists. split; [vm_compute; reflexivity|]. intros []; vm_compute; reflexivity. Qed.
Lemma rescue_arrives c s : s_rx_alive s = true -> s_bg s = BRecv -> s_inbox s = [] -> s_rxq s = [] ->
  exists s' q, friendly c s s' q /\ s_clients s' = s_clients s /\ s_tlock s' = s_tlock s /\ s_rx_alive s' = true /\ s_rxq s' = [rescue_message].
Proof.
  intros A B I Q. destruct rescue_dispatch as (bs&D&K). eexists _, _. split.
  - eapply fr_step with (l := LArrive rescue); [reflexivity|reflexivity|].
    eapply fr_step with (l := LBg true); [cbn [step]; unfold bg_step; sysb; rewrite B, I; cbn [app]; rewrite D; reflexivity|reflexivity|].
    eapply fr_step with (l := LBg true); [cbn [step]; unfold bg_step; sysb; rewrite K; reflexivity|reflexivity|].
    eapply fr_step with (l := LBg true); [cbn [step]; unfold bg_step; sysb; rewrite A, Q; cbn [length Nat.ltb channel_cap app]; reflexivity|reflexivity|].
    apply fr_refl.
  - sysb. auto.
Qed.
Definition listens (o : op) : bool := match o with ODisconnect | ONextMsg => true | _ => false end.
(** A message ends the call or is thrown away. *)
Lemma takes_one c s u o dl m q :
  s_rx_alive s = true -> s_clients s u = CWaitQ o dl -> listens o = true -> s_rxq s = m :: q ->
  finishes c u s \/ exists s1 q1 dl1, friendly c s s1 q1 /\ s_tlock s1 = s_tlock s /\ (forall v, v <> u -> s_clients s1 v = s_clients s v) /\
    s_rx_alive s1 = true /\ s_clients s1 u = CWaitQ o dl1 /\ s_rxq s1 = q /\ (ce_code m <> 0x29 \/ ldata_ind_from_cemi m = Panic).
Proof.
  intros A P L Q. assert (E : step c s (LCl u true) = on_message (set_rxq s q) u o dl m) by (cbn [step]; rewrite A; unfold cl_step; rewrite P, Q; reflexivity).
  unfold on_message in E. destruct o; try discriminate L.
  - left. eapply fin_end with (evs0 := [EvDeq u m]); [rewrite E; reflexivity|reflexivity|cbn; apply Nat.eqb_refl|reflexivity|reflexivity|exact A].
  - assert (Again : step c s (LCl u true) = goto (set_rxq s q) u (CWaitQ ONextMsg (s_now s + ms_api)) [EvDeq u m] -> ce_code m <> 0x29 ->
      exists s1 q1 dl1, friendly c s s1 q1 /\ s_tlock s1 = s_tlock s /\ (forall v, v <> u -> s_clients s1 v = s_clients s v) /\
        s_rx_alive s1 = true /\ s_clients s1 u = CWaitQ ONextMsg dl1 /\ s_rxq s1 = q /\ (ce_code m <> 0x29 \/ ldata_ind_from_cemi m = Panic)).
    { intros E1 N. eexists _, _, _. split; [eapply fr_step with (l := LCl u true); [exact E1|reflexivity|apply fr_refl]|]. sysb.
      split; [reflexivity|]. split; [intros v Nv; apply upd_other, Nv|]. split; [exact A|]. split; [apply upd_same|]. auto. }
    change code_LDataCon with 0x2e in *. change code_LDataInd with 0x29 in *.
    destruct (N.eqb_spec (ce_code m) 0x2e) as [C|C]; [right; apply Again; [exact E|rewrite C; discriminate]|].
    destruct ((ce_code m =? 0x29) || (ce_code m =? code_LBusmonInd)) eqn:D.
    + left. destruct (ldata_ind_from_cemi m);
        (eapply fin_end with (evs0 := [EvDeq u m]); [rewrite E; reflexivity|reflexivity|cbn; apply Nat.eqb_refl|reflexivity|reflexivity|exact A]).
    + right. apply Again; [exact E|]. apply Bool.orb_false_elim in D. destruct D as [D _]. apply N.eqb_neq in D. exact D.
Qed.
Lemma listen_ends c : forall k s u o dl, (length (s_rxq s) <= k)%nat ->
  s_rx_alive s = true -> s_clients s u = CWaitQ o dl -> listens o = true -> finishes c u s.
Proof.
  induction k as [|k IH]; intros s u o dl Lk A P L.
  - assert (Q : s_rxq s = []) by (destruct (s_rxq s); [reflexivity|cbn in Lk; lia]).
    assert (Gone : forall s1, bg_gone s1 = true -> s_rx_alive s1 = true -> s_clients s1 u = CWaitQ o dl -> s_rxq s1 = [] -> finishes c u s1).
    { intros s1 G A1 P1 Q1. eapply fin_end with (l := LCl u true) (evs0 := []); [cbn [step]; rewrite A1; unfold cl_step; rewrite P1, Q1, G; reflexivity|reflexivity|cbn; apply Nat.eqb_refl|reflexivity|reflexivity|exact A1]. }
    destruct (comes_home c s) as (s1&q1&F1&(K1&K2&K3&K4)&G).
    eapply fin_after; [exact F1|exact K2|intros; rewrite K1; reflexivity|].
    destruct G as [G|[G1 G2]]; [apply Gone; congruence|].
    destruct (rescue_arrives c s1) as (s2&q2&F2&C2&T2&A2&Q2); try congruence.
    eapply fin_after; [exact F2|exact T2|intros; rewrite C2; reflexivity|].
    destruct (takes_one c s2 u o dl rescue_message []) as [F|(s3&_&_&_&_&_&_&_&_&[N|N])]; try assumption; try congruence.
    + exfalso. apply N. reflexivity.
    + exfalso. vm_compute in N. discriminate N.
  - destruct (s_rxq s) as [|m q] eqn:Q; [apply (IH s u o dl); auto; rewrite Q; cbn; lia|].
    destruct (takes_one c s u o dl m q A P L Q) as [F|(s1&q1&dl1&F&T&O&A1&P1&Q1&_)]; [exact F|].
    eapply fin_after; [exact F|exact T|exact O|]. eapply IH; eauto. rewrite Q1. cbn in Lk. lia.
Qed.

(** *** The other calls *)
Lemma socket_ends c s u o : s_rx_alive s = true -> s_clients s u = CWaitSock o -> pc_fits (CWaitSock o) = true -> finishes c u s.
Proof.
  intros A P Ho.
  assert (K : forall s1 d rest, s_rx_alive s1 = true -> s_clients s1 u = CWaitSock o -> s_inbox s1 = d :: rest -> finishes c u s1).
  { intros s1 d rest A1 P1 I1. destruct o; try discriminate Ho;
      (eapply fin_end with (l := LCl u true) (evs0 := [EvClRecv u d]);
       [cbn [step]; rewrite A1; unfold cl_step; rewrite P1, I1; reflexivity|reflexivity|cbn; apply Nat.eqb_refl|reflexivity|reflexivity|exact A1]). }
  destruct (s_inbox s) as [|d rest] eqn:Ei; [|eapply K; eauto].
  eapply fin_step with (l := LArrive []); [reflexivity|reflexivity|reflexivity|reflexivity|].
  eapply K; [exact A|exact P|sysb; rewrite Ei; reflexivity].
Qed.
Lemma waitq_ends c s u o dl : s_rx_alive s = true -> s_clients s u = CWaitQ o dl -> pc_fits (CWaitQ o dl) = true -> finishes c u s.
Proof.
  intros A P Ho.
  assert (T : match o with ORead _ | OWrite _ _ _ => True | _ => False end -> finishes c u s).
  { intro Tr. eapply fin_step with (l := LTime dl); [reflexivity|reflexivity|reflexivity|reflexivity|].
    assert (D : (dl <=? s_now s + dl) = true) by (apply N.leb_le; lia).
    eapply fin_end with (l := LTimeout u) (evs0 := []); [cbn [step]; sysb; rewrite A; unfold cl_timeout; sysb; rewrite P, D; destruct o; try contradiction; reflexivity
      |reflexivity|cbn; apply Nat.eqb_refl|reflexivity|reflexivity|exact A]. }
  destruct o; try discriminate Ho; try (apply T; exact I); eapply listen_ends; eauto.
Qed.
Lemma send_ends c s u o bs : s_rx_alive s = true -> s_clients s u = CSend o bs -> pc_fits (CSend o bs) = true -> finishes c u s.
Proof.
  intros A P Ho.
  assert (E : step c s (LCl u true) = cl_step c s u true) by (cbn [step]; rewrite A; reflexivity). unfold cl_step in E. rewrite P in E.
  assert (U : forall pc s1, s1 = set_client s u pc -> s_tlock s1 = s_tlock s /\ (forall v, v <> u -> s_clients s1 v = s_clients s v) /\ s_clients s1 u = pc /\ s_rx_alive s1 = true).
  { intros pc s1 ->. sysb. repeat split; [intros w Nw; apply upd_other, Nw|apply upd_same|exact A]. }
  destruct o; try discriminate Ho;
    try (eapply fin_end with (evs0 := [_]); [rewrite E; reflexivity|reflexivity|cbn; apply Nat.eqb_refl|reflexivity|reflexivity|exact A]);
    (eapply fin_step; [rewrite E; reflexivity|reflexivity|reflexivity|intros w Nw; sysb; apply upd_other, Nw|]);
    first [eapply waitq_ends; [exact A|sysb; apply upd_same|reflexivity]|eapply socket_ends; [exact A|sysb; apply upd_same|reflexivity]].
Qed.
Lemma unnotify c s : exists s' q, friendly c s s' q /\ kept s s' /\ cd_locked s' = false.
Proof.
  destruct (cd_locked s) eqn:E; [|exists s, []; split; [apply fr_refl|split; [repeat split|exact E]]].
  destruct (comes_home c s) as (s'&q&F&K&G). exists s', q. split; [exact F|]. split; [exact K|].
  unfold cd_locked. unfold bg_gone in G. destruct G as [G|[G _]]; [destruct (s_bg s'); try discriminate G; reflexivity|rewrite G; reflexivity].
Qed.
(** Calls past the mutex. *)
Definition past (pc : client_pc) : bool := match pc with CIdle | CLock _ => false | _ => true end.
Lemma past_ends c s u : s_rx_alive s = true -> past (s_clients s u) = true -> pc_fits (s_clients s u) = true -> finishes c u s.
Proof.
  intros A0 P0 Ho. destruct (unnotify c s) as (s1&q1&F1&(K1&K2&K3&_)&N1).
  eapply fin_after; [exact F1|exact K2|intros; rewrite K1; reflexivity|]. rewrite <- K1 in P0, Ho. rewrite <- K3 in A0. clear s q1 F1 K1 K2 K3. rename s1 into s.
  assert (E : step c s (LCl u true) = cl_step c s u true) by (cbn [step]; rewrite A0; reflexivity). unfold cl_step in E.
  assert (Fin : forall o r, step c s (LCl u true) = finish s u o r [] -> finishes c u s).
  { intros o r X. eapply fin_end with (evs0 := []); [exact X|reflexivity|cbn; apply Nat.eqb_refl|reflexivity|reflexivity|exact A0]. }
  assert (Chan2 : forall x o ch, s_rx_alive x = true -> cd_locked x = false -> s_clients x u = CEp o ch -> TransportFair.asks o = true -> finishes c u x).
  { intros x o ch Ax Nx Px Hx. assert (Ex : step c x (LCl u true) = cl_step c x u true) by (cbn [step]; rewrite Ax; reflexivity). unfold cl_step in Ex. rewrite Px, Nx in Ex.
    destruct (s_conn x).
    - eapply fin_step; [exact Ex|reflexivity|reflexivity|intros w Nw; sysb; apply upd_other, Nw|].
      eapply send_ends; [exact Ax|sysb; apply upd_same|cbn; rewrite Hx; apply Bool.orb_true_r].
    - eapply fin_end with (evs0 := []); [exact Ex|reflexivity|cbn; apply Nat.eqb_refl|reflexivity|reflexivity|exact Ax]. }
  assert (Chan : forall x o pkt sq, s_rx_alive x = true -> cd_locked x = false -> s_clients x u = CChan o pkt sq -> tunnels o = true -> finishes c u x).
  { intros x o pkt sq Ax Nx Px Hx. assert (Ex : step c x (LCl u true) = cl_step c x u true) by (cbn [step]; rewrite Ax; reflexivity). unfold cl_step in Ex. rewrite Px, Nx in Ex.
    destruct (s_conn x).
    - destruct (tunneling_request_packet _ _).
      + eapply fin_step; [exact Ex|reflexivity|reflexivity|intros w Nw; sysb; apply upd_other, Nw|].
        eapply send_ends; [exact Ax|sysb; apply upd_same|cbn; rewrite Hx; reflexivity].
      + eapply fin_end with (evs0 := []); [exact Ex|reflexivity|cbn; apply Nat.eqb_refl|reflexivity|reflexivity|exact Ax].
      + eapply fin_end with (evs0 := []); [exact Ex|reflexivity|cbn; apply Nat.eqb_refl|reflexivity|reflexivity|exact Ax].
    - eapply fin_end with (evs0 := []); [exact Ex|reflexivity|cbn; apply Nat.eqb_refl|reflexivity|reflexivity|exact Ax]. }
  destruct (s_clients s u) as [|o|o pkt|o pkt sq|o|o ch|o bs|o dl|o| |l] eqn:P; try discriminate P0; rewrite ?N1 in E.
  - destruct (s_conn s) as [cd|] eqn:Ec; [|eapply Fin, E].
    eapply fin_step; [exact E|reflexivity|reflexivity|intros w Nw; sysb; apply upd_other, Nw|].
    eapply Chan; [exact A0|exact N1|sysb; apply upd_same|exact Ho].
  - eapply Chan; eauto.
  - destruct (s_conn s) as [cd|] eqn:Ec; [|eapply Fin, E].
    eapply fin_step; [exact E|reflexivity|reflexivity|intros w Nw; sysb; apply upd_other, Nw|].
    eapply Chan2; [exact A0|exact N1|sysb; apply upd_same|exact Ho].
  - eapply Chan2; eauto.
  - eapply send_ends; eauto.
  - eapply waitq_ends; eauto.
  - eapply socket_ends; eauto.
  - eapply Fin, E.
  - eapply fin_end with (evs0 := []); [exact E|reflexivity|cbn; apply Nat.eqb_refl|reflexivity|reflexivity|exact A0].
Qed.
Definition rescued (c : cfg) (t : nat) (s : sys) : Prop := exists s' q, friendly c s s' q /\ ended t q.
Lemma fin_rescued c t s : finishes c t s -> rescued c t s.
Proof. intros (s'&q&F&E&_). exists s', q. auto. Qed.
Lemma rescued_after c t s s1 q : friendly c s s1 q -> rescued c t s1 -> rescued c t s.
Proof. intros F (s'&q'&F'&E). exists s', (q ++ q'). split; [eapply fr_trans; eauto|apply ended_app, E]. Qed.
Lemma lock_ends c s t o : s_rx_alive s = true -> s_clients s t = CLock o -> s_tlock s = None -> rescued c t s.
Proof.
  intros A P T. assert (E : step c s (LCl t true) = after_lock c (set_tlock s (Some t)) t o) by (cbn [step]; rewrite A; unfold cl_step; rewrite P, T; reflexivity).
  assert (G : forall x pc, step c s (LCl t true) = goto x t pc [] -> s_rx_alive x = true -> past pc = true -> pc_fits pc = true -> rescued c t s).
  { intros x pc X Ax Px Hx. eapply rescued_after; [eapply fr_step with (l := LCl t true); [exact X|reflexivity|apply fr_refl]|].
    apply fin_rescued, past_ends; sysb; rewrite ?upd_same; assumption. }
  assert (K : forall x, step c s (LCl t true) = crash x t o [] -> rescued c t s).
  { intros x X. eexists _, _. split; [eapply fr_step with (l := LCl t true); [exact X|reflexivity|apply fr_refl]|].
    unfold ended. cbn. rewrite Nat.eqb_refl. reflexivity. }
  unfold after_lock in E. destruct o; try (destruct (op_cemi _ _));
    first [eapply K; exact E|eapply G; [exact E|sysb; exact A|reflexivity|reflexivity]|idtac].
  eapply G; [exact E| |reflexivity|reflexivity]. destruct (unlock_frame (set_tlock s (Some t)) t) as (_&_&_&->&_). exact A.
Qed.
Lemma call_rescued c start ls tr s t o body :
  exec c start ls tr s -> s_rx_alive s = true -> in_call t o tr body -> rescued c t s.
Proof.
  intros H A Hc. pose proof (pc_fits_inv _ _ _ _ _ H) as Ft.
  assert (Ht : s_clients s t <> CIdle) by (intro X; destruct (in_call_pc _ _ _ _ _ _ _ _ H Hc) as [Y _]; rewrite X in Y; discriminate Y).
  destruct (past (s_clients s t)) eqn:Pt; [apply fin_rescued, past_ends; auto|].
  destruct (s_clients s t) as [|o'| | | | | | | | |] eqn:P; try discriminate Pt; [contradiction|].
  destruct (s_tlock s) as [u|] eqn:T; [|eapply lock_ends; eauto].
  assert (Hu : holds (s_clients s u) = true) by (apply (lock_inv _ _ _ _ _ H), T).
  assert (Nu : t <> u) by (intros ->; rewrite P in Hu; discriminate Hu).
  assert (Fu : finishes c u s) by (apply past_ends; [exact A|destruct (s_clients s u); try discriminate Hu; reflexivity|apply Ft]).
  destruct Fu as (s1&q1&F1&_&T1&O1&A1). eapply rescued_after; [exact F1|].
  eapply lock_ends; [exact A1|rewrite O1 by exact Nu; exact P|]. rewrite T1. unfold unlock. rewrite T, Nat.eqb_refl. reflexivity.
Qed.
Lemma rescue_all c start ls tr s t o body :
  exec c start ls tr s -> s_rx_alive s = true -> in_call t o tr body ->
  exists sched s' q, forallb cooperative sched = true /\ run c s sched = Some (s', q) /\ exec c start ls (tr ++ q) s' /\
    exists n e, In (n, e) q /\ comes_back t e = true.
Proof.
  intros H A Hc. destruct (call_rescued _ _ _ _ _ _ _ _ H A Hc) as (s'&q&(sched&F&R)&E).
  exists sched, s', q. split; [exact F|]. split; [exact R|]. split; [eapply exec_app; eauto|].
  apply existsb_exists in E. destruct E as ([n e]&I&E). exists n, e. auto.
Qed.
Lemma reconnects c start ls tr s :
  exec c start ls tr s -> exists sched s' q, forallb cooperative sched = true /\ run c s sched = Some (s', q) /\
    (bg_gone s' = true \/ connected_now (tr ++ q) = true /\ arrived (tr ++ q) = consumed (tr ++ q)).
Proof.
  intro H. destruct (comes_home c s) as (s'&q&(sched&F&R)&_&G). exists sched, s', q. split; [exact F|]. split; [exact R|].
  destruct G as [G|[B I]]; [left; exact G|right]. pose proof (exec_app _ _ _ _ _ _ _ _ H R) as H'.
  split.
  - rewrite (connected_inv _ _ _ _ _ H'). pose proof (conn_inv _ _ _ _ _ H') as X. rewrite B in X. destruct (s_conn s'); [reflexivity|].
    destruct X as [X _]. specialize (X eq_refl). discriminate X.
  - pose proof (inbox_inv _ _ _ _ _ H') as X. rewrite I, app_nil_r in X. exact X.
Qed.
