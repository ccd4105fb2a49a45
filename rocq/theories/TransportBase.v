(** Step inversion, frame lemmas and induction principles for executions. *)
From Verif Require Import Base Addresses Apdu Tunneling Emi Core Transport Wire Spec TraceSpec.
From Coq Require Import Lia ZifyBool ZifyNat ZifyN.
Open Scope N_scope.

(** ** Inversion of steps *)
Ltac break H :=
  repeat match type of H with
  | context [match ?x with _ => _ end] =>
      first [is_var x; destruct x | destruct x eqn:?]; try discriminate H
  end.
Ltac open_step H :=
  unfold step, bg_step, bg_recv_err, bg_timeout, bg_tick, invoke, cl_step, after_lock, on_message,
    on_datagram, cl_sock_err, cl_timeout, cl_dbg, cl_cancel, finish, crash, goto, send_event in H;
  cbv beta zeta in H.
Ltac sysb := cbn [s_now s_conn s_rxq s_rx_alive s_inbox s_bg s_hb s_tlock s_clients s_listeners s_onconn
    set_now set_conn set_rxq set_rx_alive set_inbox set_bg set_hb set_tlock set_client set_listener set_onconn].
Ltac sysb_in H := cbn [s_now s_conn s_rxq s_rx_alive s_inbox s_bg s_hb s_tlock s_clients s_listeners s_onconn
    set_now set_conn set_rxq set_rx_alive set_inbox set_bg set_hb set_tlock set_client set_listener set_onconn] in H.
Ltac inv_step H := open_step H; break H; injection H as <- <-.

Lemma unlock_frame s t :
  s_now (unlock s t) = s_now s /\ s_conn (unlock s t) = s_conn s /\ s_rxq (unlock s t) = s_rxq s /\
  s_rx_alive (unlock s t) = s_rx_alive s /\ s_inbox (unlock s t) = s_inbox s /\ s_bg (unlock s t) = s_bg s /\
  s_hb (unlock s t) = s_hb s /\ s_clients (unlock s t) = s_clients s /\
  s_listeners (unlock s t) = s_listeners s /\ s_onconn (unlock s t) = s_onconn s.
Proof. unfold unlock. destruct (s_tlock s) as [u|]; [destruct (Nat.eqb u t)|]; repeat split. Qed.
Lemma unlock_now s t : s_now (unlock s t) = s_now s. Proof. apply unlock_frame. Qed.
Lemma unlock_conn s t : s_conn (unlock s t) = s_conn s. Proof. apply unlock_frame. Qed.
Lemma unlock_rxq s t : s_rxq (unlock s t) = s_rxq s. Proof. apply unlock_frame. Qed.
Lemma unlock_rx_alive s t : s_rx_alive (unlock s t) = s_rx_alive s. Proof. apply unlock_frame. Qed.
Lemma unlock_inbox s t : s_inbox (unlock s t) = s_inbox s. Proof. apply unlock_frame. Qed.
Lemma unlock_bg s t : s_bg (unlock s t) = s_bg s. Proof. apply unlock_frame. Qed.
Lemma unlock_hb s t : s_hb (unlock s t) = s_hb s. Proof. apply unlock_frame. Qed.
Lemma unlock_clients s t : s_clients (unlock s t) = s_clients s. Proof. apply unlock_frame. Qed.
Lemma unlock_listeners s t : s_listeners (unlock s t) = s_listeners s. Proof. apply unlock_frame. Qed.
Lemma unlock_onconn s t : s_onconn (unlock s t) = s_onconn s. Proof. apply unlock_frame. Qed.
Lemma unlock_tlock s t :
  s_tlock (unlock s t) = match s_tlock s with Some u => if Nat.eqb u t then None else Some u | None => None end.
Proof.
  unfold unlock. destruct (s_tlock s) as [u|] eqn:E; [destruct (Nat.eqb u t)|]; cbn; rewrite ?E; reflexivity.
Qed.
Global Hint Rewrite unlock_now unlock_conn unlock_rxq unlock_rx_alive unlock_inbox unlock_bg unlock_hb
  unlock_clients unlock_listeners unlock_onconn unlock_tlock : sys.
Ltac sys := repeat (progress (sysb; autorewrite with sys)).

Lemma upd_same A (f : nat -> A) i x : upd f i x i = x.
Proof. unfold upd. rewrite Nat.eqb_refl. reflexivity. Qed.
Lemma upd_other A (f : nat -> A) i j x : j <> i -> upd f i x j = f j.
Proof. unfold upd. intro H. destruct (Nat.eqb_spec j i); congruence. Qed.

(** ** Who moves *)
Definition bg_label (l : label) : bool :=
  match l with LBg _ | LBgRecvErr | LBgTimeout | LTick => true | _ => false end.
Definition call_label (l : label) : option nat :=
  match l with
  | LInvoke t _ | LCl t _ | LSockErr t | LTimeout t | LDbg t | LCancel t => Some t
  | _ => None
  end.

Lemma bg_frame c s l s' es :
  step c s l = Some (s', es) -> bg_label l = true ->
  s_now s' = s_now s /\ s_rx_alive s' = s_rx_alive s /\ s_tlock s' = s_tlock s /\ s_clients s' = s_clients s /\
  forallb bg_event es = true.
Proof.
  intros H Hl. destruct l; try discriminate Hl; clear Hl; inv_step H; sys; cbn;
    rewrite ?Bool.andb_true_r; repeat split;
    try (match goal with |- context [stop_events ?b] => destruct b end); reflexivity || congruence.
Qed.

Lemma call_frame c s l s' es t :
  step c s l = Some (s', es) -> call_label l = Some t ->
  s_now s' = s_now s /\ s_rx_alive s = true /\ s_rx_alive s' = true /\ s_bg s' = s_bg s /\ s_hb s' = s_hb s /\
  s_listeners s' = s_listeners s /\ (forall u, u <> t -> s_clients s' u = s_clients s u) /\
  forallb (call_event t) es = true.
Proof.
  intros H Hl. destruct l; try discriminate Hl; injection Hl as ->; inv_step H; sys; cbn;
    rewrite ?Nat.eqb_refl; repeat split; auto using upd_other; congruence.
Qed.

Lemma env_frame c s l s' es :
  step c s l = Some (s', es) -> bg_label l = false -> call_label l = None ->
  s_conn s' = s_conn s /\ s_rxq s' = s_rxq s /\ s_bg s' = s_bg s /\ s_hb s' = s_hb s /\
  s_tlock s' = s_tlock s /\ s_clients s' = s_clients s /\ s_onconn s' = s_onconn s /\
  s_now s <= s_now s' /\
  ((exists d, es = [EvArrive d] /\ s_inbox s' = s_inbox s ++ [d]) \/ (es = [] /\ s_inbox s' = s_inbox s)).
Proof.
  intros H Hb Hc. destruct l; try discriminate Hb; try discriminate Hc; clear Hb Hc; inv_step H; sys;
    repeat split; try lia; eauto.
Qed.

(** ** Traces *)
Lemma evs_app a b : evs (a ++ b) = evs a ++ evs b.
Proof. apply map_app. Qed.
Lemma evs_stamp n es : evs (stamp n es) = es.
Proof. unfold evs, stamp. rewrite map_map. cbn. apply map_id. Qed.
Lemma bg_events_app a b : bg_events (a ++ b) = bg_events a ++ bg_events b.
Proof. unfold bg_events. rewrite evs_app. apply filter_app. Qed.
Lemma bg_events_stamp n es : bg_events (stamp n es) = filter bg_event es.
Proof. unfold bg_events. rewrite evs_stamp. reflexivity. Qed.
Lemma call_events_app t a b : call_events t (a ++ b) = call_events t a ++ call_events t b.
Proof. apply filter_app. Qed.
Lemma call_events_stamp t n es : call_events t (stamp n es) = stamp n (filter (call_event t) es).
Proof.
  unfold call_events, stamp. induction es as [|e es IH]; [reflexivity|]. cbn.
  destruct (call_event t e); cbn; rewrite IH; reflexivity.
Qed.
Lemma filter_all A (f : A -> bool) l : forallb f l = true -> filter f l = l.
Proof.
  induction l as [|x l IH]; [reflexivity|]. cbn. destruct (f x); [|discriminate]. intro H. rewrite IH; auto.
Qed.
Lemma filter_none A (f : A -> bool) l : forallb (fun x => negb (f x)) l = true -> filter f l = [].
Proof.
  induction l as [|x l IH]; [reflexivity|]. cbn. destruct (f x); [discriminate|]. intro H. auto.
Qed.
Lemma forallb_imp A (f g : A -> bool) l :
  (forall x, f x = true -> g x = true) -> forallb f l = true -> forallb g l = true.
Proof. intros H. rewrite !forallb_forall. auto. Qed.
Lemma bg_not_call t e : bg_event e = true -> negb (call_event t e) = true.
Proof. destruct e as [| | | |[] ?|[] ?| | | | | | | | | | | | | |]; cbn; intros; congruence. Qed.
Lemma call_not_bg t e : call_event t e = true -> negb (bg_event e) = true.
Proof. destruct e as [| | | |[] ?|[] ?| | | | | | | | | | | | | |]; cbn; intros; congruence. Qed.
Lemma call_not_other t u e : u <> t -> call_event t e = true -> negb (call_event u e) = true.
Proof.
  intro N. destruct e as [| | | |[] ?|[] ?| | | | | | | | | | | | | |]; cbn; try congruence;
    intro E; apply Nat.eqb_eq in E; subst; destruct (Nat.eqb_spec t u); cbn; congruence.
Qed.

(** The contribution of a step to the two projections. *)
Lemma step_bg_events c s l s' es :
  step c s l = Some (s', es) -> bg_label l = false -> filter bg_event es = [].
Proof.
  intros H Hb. destruct (call_label l) as [t|] eqn:Hc.
  - destruct (call_frame _ _ _ _ _ _ H Hc) as (_&_&_&_&_&_&_&E). apply filter_none.
    eapply forallb_imp, E. apply call_not_bg.
  - destruct (env_frame _ _ _ _ _ H Hb Hc) as (_&_&_&_&_&_&_&_&[(d&->&_)|(->&_)]); reflexivity.
Qed.
Lemma step_bg_events_all c s l s' es :
  step c s l = Some (s', es) -> bg_label l = true -> filter bg_event es = es.
Proof. intros H Hb. apply filter_all. apply (bg_frame _ _ _ _ _ H Hb). Qed.
Lemma step_call_events c s l s' es t :
  step c s l = Some (s', es) -> call_label l <> Some t -> filter (call_event t) es = [].
Proof.
  intros H Hb. destruct (call_label l) as [u|] eqn:Hc.
  - destruct (call_frame _ _ _ _ _ _ H Hc) as (_&_&_&_&_&_&_&E). apply filter_none.
    eapply forallb_imp, E. intro x. apply call_not_other. congruence.
  - destruct (bg_label l) eqn:Hbg.
    + apply filter_none. eapply forallb_imp, (bg_frame _ _ _ _ _ H Hbg). apply bg_not_call.
    + destruct (env_frame _ _ _ _ _ H Hbg Hc) as (_&_&_&_&_&_&_&_&[(d&->&_)|(->&_)]); reflexivity.
Qed.
Lemma step_call_events_all c s l s' es t :
  step c s l = Some (s', es) -> call_label l = Some t -> filter (call_event t) es = es.
Proof. intros H Hb. apply filter_all. apply (call_frame _ _ _ _ _ _ H Hb). Qed.

Lemma in_evs e tr : In e (evs tr) <-> exists n, In (n, e) tr.
Proof.
  unfold evs. rewrite in_map_iff. split.
  - intros ((n, e') & <- & H). eauto.
  - intros (n & H). exists (n, e). auto.
Qed.

(** ** Executions *)
Lemma exec_app c start ls tr s ls' s' tr' :
  exec c start ls tr s -> run c s ls' = Some (s', tr') -> exec c start ls (tr ++ tr') s'.
Proof.
  revert tr s tr'. induction ls' as [|l ls' IH]; intros tr s tr' H R; cbn in R.
  - injection R as <- <-. rewrite app_nil_r. exact H.
  - destruct (step c s l) as [[s1 es]|] eqn:E; [|discriminate].
    destruct (run c s1 ls') as [[s2 tr2]|] eqn:E2; [|discriminate]. injection R as <- <-.
    rewrite app_assoc. eapply IH, E2. econstructor; eassumption.
Qed.
Lemma run_exec c start ls labels s tr :
  run c (init_sys start ls) labels = Some (s, tr) -> exec c start ls tr s.
Proof. intro R. apply (exec_app c start ls [] _ _ _ _ (exec_init _ _ _) R). Qed.
Lemma run_app c s l1 l2 :
  run c s (l1 ++ l2) =
  match run c s l1 with
  | Some (s1, t1) => match run c s1 l2 with Some (s2, t2) => Some (s2, t1 ++ t2) | None => None end
  | None => None
  end.
Proof.
  revert s. induction l1 as [|l l1 IH]; intro s; cbn [app run].
  - destruct (run c s l2) as [[s2 t2]|]; reflexivity.
  - destruct (step c s l) as [[s1 es]|]; [|reflexivity]. rewrite IH.
    destruct (run c s1 l1) as [[s2 t2]|]; [|reflexivity].
    destruct (run c s2 l2) as [[s3 t3]|]; [|reflexivity]. rewrite app_assoc. reflexivity.
Qed.

Lemma stamp_app n a b : stamp n (a ++ b) = stamp n a ++ stamp n b.
Proof. apply map_app. Qed.

(** A split of [a ++ b] falls into [a] or into [b]. *)
Lemma app_split A (a b p q : list A) x :
  a ++ b = p ++ x :: q ->
  (exists q', a = p ++ x :: q' /\ q = q' ++ b) \/ (exists p', p = a ++ p' /\ b = p' ++ x :: q).
Proof.
  revert p. induction a as [|y a IH]; intros p E.
  - right. exists p. split; [reflexivity|exact E].
  - destruct p as [|z p].
    + injection E as -> <-. left. exists a. auto.
    + injection E as -> E. destruct (IH p E) as [(q'&->&->)|(p'&->&->)]; [left; exists q'|right; exists p']; split; reflexivity.
Qed.
Lemma stamp_split n es p x q :
  stamp n es = p ++ x :: q ->
  exists e1 e e2, es = e1 ++ e :: e2 /\ p = stamp n e1 /\ x = (n, e) /\ q = stamp n e2.
Proof.
  revert p. induction es as [|e es IH]; intros p E.
  - destruct p; discriminate.
  - destruct p as [|y p].
    + injection E as <- <-. exists [], e, es. auto.
    + injection E as <- E. destruct (IH p E) as (e1&e'&e2&->&->&->&->). exists (e :: e1), e', e2. auto.
Qed.

(** Every event was emitted by a step from a reachable state. *)
Lemma exec_split c start ls tr s p n e q :
  exec c start ls tr s -> tr = p ++ (n, e) :: q ->
  exists tr0 s0 l s1 e1 e2,
    exec c start ls tr0 s0 /\ step c s0 l = Some (s1, e1 ++ e :: e2) /\
    n = s_now s0 /\ p = tr0 ++ stamp (s_now s0) e1 /\
    exec c start ls (tr0 ++ stamp (s_now s0) (e1 ++ e :: e2)) s1 /\
    exists q', q = stamp (s_now s0) e2 ++ q' /\ exists sched, run c s1 sched = Some (s, q').
Proof.
  intros H. revert p q. induction H as [|tr s l s' es H IH Hs]; intros p q E.
  - destruct p; discriminate.
  - apply app_split in E. destruct E as [(q'&E&->)|(p'&->&E)].
    + destruct (IH _ _ E) as (tr0&s0&l0&s1&e1&e2&H0&Hs0&->&->&H1&q''&->&sched&R).
      exists tr0, s0, l0, s1, e1, e2. repeat split; auto. exists (q'' ++ stamp (s_now s) es).
      rewrite app_assoc. split; [reflexivity|]. exists (sched ++ [l]). rewrite run_app, R. cbn [run]. rewrite Hs.
      rewrite app_nil_r. reflexivity.
    + apply stamp_split in E. destruct E as (e1&e'&e2&->&->&E&->). injection E as -> ->.
      exists tr, s, l, s', e1, e2. repeat split; auto.
      * econstructor; eassumption.
      * exists []. rewrite app_nil_r. split; [reflexivity|]. exists []. reflexivity.
Qed.
Lemma exec_in c start ls tr s n e :
  exec c start ls tr s -> In (n, e) tr ->
  exists tr0 s0 l s1 e1 e2 q,
    exec c start ls tr0 s0 /\ step c s0 l = Some (s1, e1 ++ e :: e2) /\ n = s_now s0 /\
    tr = tr0 ++ stamp (s_now s0) (e1 ++ e :: e2) ++ q.
Proof.
  intros H Hin. apply in_split in Hin. destruct Hin as (p&q&->).
  destruct (exec_split _ _ _ _ _ _ _ _ _ H eq_refl) as (tr0&s0&l&s1&e1&e2&H0&Hs&->&->&_&q'&->&_).
  exists tr0, s0, l, s1, e1, e2, q'. repeat split; auto.
  rewrite stamp_app. cbn. rewrite <- !app_assoc. reflexivity.
Qed.

(** Invariants. *)
Lemma exec_inv c start ls (P : trace -> sys -> Prop) :
  P [] (init_sys start ls) ->
  (forall tr s l s' es, exec c start ls tr s -> P tr s -> step c s l = Some (s', es) ->
     P (tr ++ stamp (s_now s) es) s') ->
  forall tr s, exec c start ls tr s -> P tr s.
Proof. intros H0 Hs tr s H. induction H; eauto. Qed.

(** Splitting a filtered list. *)
Lemma filter_split A (f : A -> bool) l p x q :
  filter f l = p ++ x :: q -> exists p' q', l = p' ++ x :: q' /\ filter f p' = p /\ filter f q' = q /\ f x = true.
Proof.
  revert p. induction l as [|y l IH]; intros p E; cbn in E.
  - destruct p; discriminate.
  - destruct (f y) eqn:Ey.
    + destruct p as [|z p].
      * injection E as -> <-. exists [], l. auto.
      * injection E as -> E. destruct (IH _ E) as (p'&q'&->&<-&<-&Hx). exists (z :: p'), q'.
        cbn. rewrite Ey. auto.
    + destruct (IH _ E) as (p'&q'&->&<-&<-&Hx). exists (y :: p'), q'. cbn. rewrite Ey. auto.
Qed.
Lemma map_split A B (f : A -> B) l p x q :
  map f l = p ++ x :: q -> exists p' y q', l = p' ++ y :: q' /\ map f p' = p /\ f y = x /\ map f q' = q.
Proof.
  revert p. induction l as [|y l IH]; intros p E; cbn in E.
  - destruct p; discriminate.
  - destruct p as [|z p].
    + injection E as <- <-. exists [], y, l. auto.
    + injection E as <- E. destruct (IH _ E) as (p'&y'&q'&->&<-&<-&<-). exists (y :: p'), y', q'. auto.
Qed.
(** Every background event was emitted by a background step from a reachable
    state; the earlier background events are those of the trace so far. *)
Lemma bg_split c start ls tr s a e b :
  exec c start ls tr s -> bg_events tr = a ++ e :: b ->
  exists tr0 s0 l s1 e1 e2,
    exec c start ls tr0 s0 /\ step c s0 l = Some (s1, e1 ++ e :: e2) /\ bg_label l = true /\
    a = bg_events tr0 ++ e1 /\ (exists b', b = e2 ++ b') /\
    exec c start ls (tr0 ++ stamp (s_now s0) (e1 ++ e :: e2)) s1 /\
    exists q, tr = (tr0 ++ stamp (s_now s0) (e1 ++ e :: e2)) ++ q /\ exists sched, run c s1 sched = Some (s, q).
Proof.
  intros H E. unfold bg_events in E. apply filter_split in E. destruct E as (p&q&E&<-&<-&He).
  unfold evs in E. apply map_split in E. destruct E as (p'&(n&e')&q'&->&<-&E&<-). cbn in E. subst e'.
  destruct (exec_split _ _ _ _ _ _ _ _ _ H eq_refl) as (tr0&s0&l&s1&e1&e2&H0&Hs&->&->&H1&q''&->&sched&R).
  assert (Hl : bg_label l = true).
  { destruct (bg_label l) eqn:Hb; [reflexivity|]. pose proof (step_bg_events _ _ _ _ _ Hs Hb) as F.
    rewrite filter_app in F. cbn in F. rewrite He in F. destruct (filter bg_event e1); discriminate. }
  pose proof (bg_frame _ _ _ _ _ Hs Hl) as (_&_&_&_&F). rewrite forallb_app in F. cbn in F. rewrite He in F.
  apply andb_prop in F. destruct F as [F1 F2].
  exists tr0, s0, l, s1, e1, e2. repeat split; auto.
  - fold (evs (tr0 ++ stamp (s_now s0) e1)). rewrite evs_app, filter_app, evs_stamp. fold (bg_events tr0).
    rewrite (filter_all _ _ _ F1). reflexivity.
  - exists (filter bg_event (evs q'')). fold (evs (stamp (s_now s0) e2 ++ q'')). rewrite evs_app, filter_app, evs_stamp.
    rewrite (filter_all _ _ _ F2). reflexivity.
  - exists q''. split; [|eauto]. unfold stamp. rewrite map_app. cbn [map]. rewrite <- !app_assoc. reflexivity.
Qed.

(** The handle, once dropped, stays dropped. *)
Lemma run_dead c s sched s' tr : run c s sched = Some (s', tr) -> s_rx_alive s = false -> s_rx_alive s' = false.
Proof.
  revert s tr. induction sched as [|l sched IH]; intros s tr R Ha; cbn in R.
  - injection R as <- _. exact Ha.
  - destruct (step c s l) as [[s1 es]|] eqn:E; [|discriminate].
    destruct (run c s1 sched) as [[s2 tr2]|] eqn:E2; [|discriminate]. injection R as <- <-.
    eapply IH; [exact E2|]. destruct (bg_label l) eqn:Hb.
    + destruct (bg_frame _ _ _ _ _ E Hb) as (_&->&_). exact Ha.
    + destruct (call_label l) as [t|] eqn:Hl.
      * destruct (call_frame _ _ _ _ _ _ E Hl) as (_&E1&_). congruence.
      * destruct l; try discriminate Hb; try discriminate Hl; inv_step E; sys; auto.
Qed.
