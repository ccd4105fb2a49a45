(** When the connection is given up after an error of the gateway. *)
From Verif Require Import Base Addresses Tunneling Emi Core Transport Wire Spec TraceSpec TraceSpec2 LiveSpec PromptSpec BaseProofs
  TransportBase TransportInv TransportBg TransportBgThm TransportBgThm2 TransportThm2 TransportReads TransportMore2 TransportRecover TransportRuns
  TransportPrompt TransportPrompt2 TransportReact PromptRuns TransportAck TransportFresh.
From Coq Require Import Lia.
Open Scope N_scope.

Lemma cleared_or_not (q : trace) : In EvCleared (evs q) \/ never EvCleared q.
Proof.
  unfold never. induction q as [|[k e] q IH]; [right; intros []|].
  destruct IH as [I|I]; [left; right; exact I|].
  destruct e; try (left; left; reflexivity); right; (intros [X|X]; [discriminate X|exact (I X)]).
Qed.
Lemma bg_in (q : trace) n g : Forall (fun x => fst x = n) q -> In g (bg_events q) -> In (n, g) q.
Proof.
  intros F I. unfold bg_events in I. apply filter_In in I. destruct I as [I _]. unfold evs in I. apply in_map_iff in I.
  destruct I as ((k&g')&G&I). cbn in G. subst g'. rewrite Forall_forall in F. specialize (F _ I). cbn in F. subst k. exact I.
Qed.
Lemma asks_after_clearing c start ls p n q s :
  exec c start ls (p ++ q) s -> at_rest c s -> Forall (fun x => fst x = n) q -> In EvCleared (evs q) ->
  exists ok, In (n, send_event ok Bg connection_datagram) q.
Proof.
  intros H R F I. apply in_evs in I. destruct I as (k&I). apply in_split in I. destruct I as (qa&qb&Eq).
  assert (B : bg_events (p ++ q) = bg_events (p ++ qa) ++ [EvCleared] ++ bg_events qb).
  { rewrite Eq, app_assoc, bg_events_app. reflexivity. }
  assert (Fb : Forall (fun x => fst x = n) qb).
  { rewrite Eq in F. apply Forall_app in F. destruct F as [_ F]. inversion F; assumption. }
  destruct (bg_events qb) as [|e b] eqn:Eb.
  - exfalso. rewrite app_nil_r in B. specialize (R (LBg true) I). cbn [step] in R. unfold bg_step in R.
    destruct (last_cleared _ _ _ _ _ _ H B) as [X|X]; rewrite X in R; discriminate R.
  - destruct (next_after_cleared _ _ _ _ _ _ _ _ H B) as (ok&->). exists ok. rewrite Eq. apply in_or_app. right. right.
    apply (bg_in qb); [exact Fb|]. rewrite Eb. left. reflexivity.
Qed.
Lemma dropped_at_once c start ls tr s p n d q rest :
  attended c start ls tr s -> Forall bytes (arrived tr) ->
  tr = p ++ (n, EvArrive d) :: q ++ rest -> Forall (fun x => fst x = n) q -> Forall (fun x => n < fst x) rest -> n < s_now s ->
  connected_now p = true -> (forall t, never (EvClRecv t d) q) ->
  ~ task_stopped (p ++ (n, EvArrive d) :: q) ->
  (length (queued (p ++ (n, EvArrive d) :: q)) < length (taken (p ++ (n, EvArrive d) :: q)) + 100)%nat ->
  connection_error d ->
  In (n, EvCleared) q /\ exists ok, In (n, send_event ok Bg connection_datagram) q.
Proof.
  intros HA Hb E Fq Fr Hn C NR NS Q L.
  pose proof (prompt_exec _ _ _ _ _ (attended_prompt _ _ _ _ _ HA)) as H.
  destruct (exec_split _ _ _ _ _ _ _ _ _ H E) as (tr0&s0&l&s1&e1&e2&H0&Hs&En&Ep&H1&_).
  destruct (arrive_first _ _ _ _ _ _ _ Hs) as [-> ->]. cbn [stamp map] in Ep. rewrite app_nil_r in Ep. subst tr0.
  pose proof (start_now _ _ _ _ _ H0) as Hst. rewrite <- En in Hst.
  destruct (moment _ _ _ _ _ _ HA Hst Hn) as (x&b&sm&Ex&Fx&Fb&Hm&Rm&Room).
  set (T := p ++ (n, EvArrive d) :: q) in *.
  assert (ET : x = T).
  { eapply (instant_split n x T b rest); auto.
    - rewrite <- Ex, E. unfold T. rewrite <- app_assoc. reflexivity.
    - unfold T. apply Forall_app. split; [rewrite En; exact (stamp_inv _ _ _ _ _ H0)|]. constructor; [cbn; lia|].
      eapply Forall_impl; [|exact Fq]. cbn. intros; lia. }
  subst x. clear Ex.
  assert (I : In EvCleared (evs q)).
  2:{ split.
      - apply in_evs in I. destruct I as (k&I). pose proof Fq as Fq'. rewrite Forall_forall in Fq'. specialize (Fq' _ I). cbn in Fq'. subst k. exact I.
      - eapply (asks_after_clearing c start ls (p ++ [(n, EvArrive d)])); [|exact Rm|exact Fq|exact I].
        rewrite <- app_assoc. exact Hm. }
  destruct (cleared_or_not q) as [I|NC]; [exact I|].
  assert (CT : connected_now T = true).
  { unfold T. apply connected_stays; [|exact NC]. rewrite connected_app. cbn. exact C. }
  pose proof (rest_nothing_waits _ _ _ _ _ Hm Rm Room NS CT Q) as W.
  assert (Hbt : Forall bytes (arrived T)).
  { rewrite E in Hb. change (p ++ (n, EvArrive d) :: q ++ rest) with (p ++ ((n, EvArrive d) :: q) ++ rest) in Hb. rewrite app_assoc, arrived_app in Hb.
    apply Forall_app in Hb. apply Hb. }
  pose proof (inbox_inv _ _ _ _ _ H0) as I0.
  unfold T in W. change ((n, EvArrive d) :: q) with ([(n, EvArrive d)] ++ q) in W. rewrite !arrived_app, !consumed_app, I0, <- app_assoc in W.
  apply app_inv_head in W. symmetry in W. change (consumed q = s_inbox s0 ++ d :: arrived q) in W.
  destruct (consumed_split _ _ _ _ W) as (q1&n'&e&q2&Eq&[->|[->|(t&->)]]).
  - exfalso. assert (X : connected_now (p ++ (n, EvArrive d) :: q1) = false).
    { eapply conn_recv_unconnected. rewrite <- app_assoc. cbn [app]. rewrite <- Eq. exact Hm. }
    rewrite connected_stays in X; [discriminate X|rewrite connected_app; cbn; exact C|]. rewrite Eq in NC. apply never_app in NC. apply NC.
  - assert (Bg2 : bg_events T = bg_events (p ++ (n, EvArrive d) :: q1) ++ EvBgRecv d :: bg_events q2).
    { unfold T. rewrite Eq. change (p ++ (n, EvArrive d) :: q1 ++ (n', EvBgRecv d) :: q2) with (p ++ ((n, EvArrive d) :: q1) ++ [(n', EvBgRecv d)] ++ q2).
      rewrite app_assoc, !bg_events_app, <- !app_assoc. reflexivity. }
    destruct (bg_events q2) as [|g gs] eqn:Eg.
    + exfalso. destruct (error_reconnects _ _ _ _ _ _ _ true Hm Hbt Bg2 L) as (s'&K&_). specialize (Rm (LBg true) I).
      cbn [run] in K. rewrite Rm in K. discriminate K.
    + pose proof (error_clears _ _ _ _ _ _ _ _ _ Hm Hbt Bg2 L) as ->. apply in_evs. exists n. rewrite Eq. apply in_or_app. right. right.
      apply (bg_in q2).
      * rewrite Eq in Fq. apply Forall_app in Fq. destruct Fq as [_ Fq]. inversion Fq; assumption.
      * rewrite Eg. left. reflexivity.
  - exfalso. apply (NR t). rewrite Eq, evs_app. apply in_or_app. right. left. reflexivity.
Qed.

(** The answer to a query says that the connection is gone; an hour of nothing but
    heart beats that are not answered follows. *)
Definition ignored : list label :=
  prompt_connect ++ [LArrive (state_answer 7 0); LBg true; LTime 5000; LInvoke 1 OStatus] ++ repeat (LCl 1 true) 4 ++
  [LTime 2000; LArrive (state_answer 7 0x21); LCl 1 true] ++ [LTime 53000; LTick; LBg true] ++
  concat (repeat [LTime 60000; LTick; LBg true] 60) ++ [LTime 1].
Definition ignored_trace : trace := trace_of client no_listeners ignored.
Lemma ignored_run : exists s, attended client 0 no_listeners ignored_trace s /\ s_now s = 3660001.
Proof.
  exists (state_after ignored). split; [|vm_compute; reflexivity]. eapply (run_attended _ _ _ [1%nat] ignored).
  - apply run_after. vm_compute. reflexivity.
  - vm_compute. reflexivity.
  - vm_compute. reflexivity.
Qed.
Lemma ignored_split : exists p q, ignored_trace = p ++ (7000, EvArrive (state_answer 7 0x21)) :: q /\ connected_now p = true.
Proof. exists (firstn 10 ignored_trace), (skipn 11 ignored_trace). split; vm_compute; reflexivity. Qed.
Definition stays (x : N * event) : bool := match snd x with EvCleared | EvBgEnd | EvBgPanic | EvEnq _ => false | _ => true end.
Lemma ignored_stays : forallb stays ignored_trace = true.
Proof. vm_compute. reflexivity. Qed.
Lemma stays_never tr e : forallb stays tr = true -> (forall n, stays (n, e) = false) -> never e tr.
Proof.
  intros A F I. unfold evs in I. apply in_map_iff in I. destruct I as ((n&e')&<-&I).
  rewrite forallb_forall in A. apply A in I. rewrite F in I. discriminate I.
Qed.
Lemma stays_runs tr : forallb stays tr = true -> ~ task_stopped tr.
Proof. intros A [I|I]; revert I; apply (stays_never _ _ A); reflexivity. Qed.
Lemma stays_connected tr p x q : forallb stays tr = true -> tr = p ++ x :: q -> ~ In EvCleared (evs q).
Proof.
  intros A E X. assert (N : never EvCleared tr) by (apply (stays_never _ _ A); reflexivity).
  apply N. rewrite E, evs_app. apply in_or_app. right. right. exact X.
Qed.
Lemma ignored_queue : queued ignored_trace = [].
Proof. vm_compute. reflexivity. Qed.
Lemma ignored_octets : Forall bytes (arrived ignored_trace).
Proof. octets. Qed.
Lemma not_dropped :
  ~ (forall c start ls tr s p n d q, attended c start ls tr s -> Forall bytes (arrived tr) ->
       tr = p ++ (n, EvArrive d) :: q -> n + 3600000 < s_now s -> connected_now p = true -> ~ task_stopped tr ->
       queued tr = [] -> connection_error d -> In EvCleared (evs q)).
Proof.
  intro F. destruct ignored_run as (s&HA&Hn). destruct ignored_split as (p&q&E&C).
  assert (X : In EvCleared (evs q)).
  { apply (F _ _ _ _ _ _ _ _ _ HA ignored_octets E).
    - rewrite Hn. lia.
    - exact C.
    - exact (stays_runs _ ignored_stays).
    - exact ignored_queue.
    - left. eexists. split; [apply state_looks|discriminate]. }
  exact (stays_connected _ _ _ _ ignored_stays E X).
Qed.
