(** What a user has after [connect] returned. *)
From Verif Require Import Base Addresses Tunneling Emi Core Transport Messages Connect Wire Spec TraceSpec
  TransportBase TransportInv TransportConn TransportThm3 TransportNotify TransportReturn TransportRuns.
From Coq Require Import Lia.
Open Scope N_scope.

Lemma connect_ok e start ls s : connect_call e start ls = MOk s <-> co_bind e = None /\ co_connect e = None /\ s = init_sys start ls.
Proof.
  unfold connect_call. destruct (co_bind e), (co_connect e); split; try discriminate;
    try (intros (?&?&?); discriminate).
  - intro H. injection H as <-. auto.
  - intros (_&_&->). reflexivity.
Qed.
Lemma connect_err e start ls t : connect_call e start ls = MErr t <->
  (exists x, co_bind e = Some x /\ t = ("Unable to get local address " ++ x)%string) \/
  (co_bind e = None /\ exists x, co_connect e = Some x /\ t = ("Unable to connect with target " ++ x)%string).
Proof.
  unfold connect_call. destruct (co_bind e) as [b|], (co_connect e) as [k|]; split.
  all: try (intro H; injection H as <-; eauto 6).
  all: try (intros [(x&E&->)|(E&x&F&->)]; congruence).
  discriminate.
Qed.
Lemma connect_no_panic e start ls : connect_call e start ls <> MPanic.
Proof. unfold connect_call. destruct (co_bind e), (co_connect e); discriminate. Qed.

Lemma connected_granted c start ls tr s p n cd q :
  exec c start ls tr s -> Forall bytes (arrived tr) -> tr = p ++ (n, EvConnected cd) :: q ->
  exists d, In d (arrived p) /\ grants d (cd_chan cd) (cd_ep cd).
Proof.
  intros H Hb E. destruct (exec_split _ _ _ _ _ _ _ _ _ H E) as (tr0&s0&l&s1&e1&e2&H0&Hs&_&Ep&H1&_).
  destruct (step_connected _ _ _ _ _ _ _ Hs) as (->&->&_). cbn in Ep. rewrite app_nil_r in Ep. subst p. cbn [app] in *.
  assert (Hl : bg_label l = true).
  { destruct (bg_label l) eqn:Hl; [reflexivity|]. pose proof (step_bg_events _ _ _ _ _ Hs Hl) as F. discriminate F. }
  assert (Hb0 : Forall bytes (arrived tr0)).
  { rewrite E, arrived_app in Hb. apply Forall_app in Hb. apply Hb. }
  destruct (bg_conn _ _ _ _ _ Hs Hl) as [_ [(r&Er&Ee&_)|[N _]]]; [|discriminate N].
  injection Ee as ->. pose proof (proj1 (granted_inv _ _ _ _ _ H0) r (or_intror Er)) as G.
  destruct (granted_grants _ _ _ _ _ _ _ H0 Hb0 G) as (d&Hd&Hg).
  exists d. split.
  - rewrite (inbox_inv _ _ _ _ _ H0). apply in_or_app. left. apply consumed_in. auto.
  - destruct (c_mode c); exact Hg.
Qed.
Lemma ungranted_unconnected c start ls tr s :
  exec c start ls tr s -> Forall bytes (arrived tr) ->
  (forall d ch ep, In d (arrived tr) -> ~ grants d ch ep) -> no_connected tr.
Proof.
  intros H Hb N. apply no_connected_iff. intros n cd I. apply in_split in I. destruct I as (p&q&E).
  destruct (connected_granted _ _ _ _ _ _ _ _ _ H Hb E) as (d&Hd&Hg).
  apply (N d _ _) in Hg; [exact Hg|]. rewrite E, arrived_app. apply in_or_app. auto.
Qed.
Lemma no_device e c start ls s0 sched s tr :
  connect_call e start ls = MOk s0 -> run c s0 sched = Some (s, tr) -> Forall bytes (arrived tr) ->
  (forall d ch ep, In d (arrived tr) -> ~ grants d ch ep) ->
  Forall before_event (evs tr).
Proof.
  intros C R Hb N. apply connect_ok in C. destruct C as (_&_&->). apply run_exec in R.
  pose proof (ungranted_unconnected _ _ _ _ _ R Hb N) as U.
  apply Forall_forall. intros x Hx. apply in_evs in Hx. destruct Hx as (n&Hx). apply in_split in Hx. destruct Hx as (p&q&E).
  eapply before_connection; [exact R|exact E|]. rewrite E in U. apply no_connected_app in U. apply U.
Qed.
Definition asks : list label := LInvoke 1 OIsConnected :: repeat (LCl 1 true) 2.
Definition reads : list label := LInvoke 1 (ORead lamp) :: repeat (LCl 1 true) 2.
Lemma not_connected :
  ~ (forall e c start ls s0 sched s tr t o, connect_call e start ls = MOk s0 -> run c s0 sched = Some (s, tr) ->
       ~ In (EvRet t o (RErr EDisconnected)) (evs tr)).
Proof.
  intro P.
  assert (R : exists s tr, run client (init_sys 0 no_listeners) reads = Some (s, tr) /\
    evs tr = [EvInvoke 1 (ORead lamp); EvRet 1 (ORead lamp) (RErr EDisconnected)]) by (vm_compute; eauto).
  destruct R as (s&tr&R&E).
  apply (P {| co_bind := None; co_connect := None |} _ _ _ _ _ _ _ 1%nat (ORead lamp) eq_refl R). rewrite E. cbn. auto.
Qed.
