(** From when the state returned by a status query is. *)
From Verif Require Import Base Addresses Tunneling Emi Core Transport Wire Spec TraceSpec TraceSpec2 LiveSpec PromptSpec AckSpec
  BaseProofs TransportBase TransportInv TransportCalls TransportThm TransportThm2 TransportThm3 TransportMore2 TransportRecover TransportRuns TransportPrompt TransportPrompt2 PromptRuns TransportAck.
From Coq Require Import Lia ZifyBool ZifyNat ZifyN.
Open Scope N_scope.

Lemma start_stamps c start ls tr s : exec c start ls tr s -> Forall (fun x => start <= fst x) tr.
Proof.
  revert tr s. apply exec_inv; [constructor|]. intros tr s l s' es H IH Hs. apply Forall_app. split; [exact IH|].
  apply Forall_forall. intros x Hx. unfold stamp in Hx. apply in_map_iff in Hx. destruct Hx as (e&<-&_). exact (start_now _ _ _ _ _ H).
Qed.
Lemma sorted_at c start ls p n e q s : exec c start ls (p ++ (n, e) :: q) s -> Forall (fun x => fst x <= n) p.
Proof.
  intro H. destruct (exec_split _ _ _ _ _ _ _ _ _ H eq_refl) as (tr0&s0&l&s1&e1&e2&H0&_&->&->&_).
  apply Forall_app. split; [exact (stamp_inv _ _ _ _ _ H0)|]. apply Forall_forall. intros x Hx. unfold stamp in Hx. apply in_map_iff in Hx.
  destruct Hx as (y&<-&_). cbn. lia.
Qed.
(** Just before the instant [n] nothing lies in the socket. *)
Lemma all_taken c start ls tr s n b q :
  attended c start ls tr s -> tr = b ++ q -> Forall (fun x => fst x < n) b -> Forall (fun x => n <= fst x) q -> n <= s_now s ->
  connected_now b = true -> ~ task_stopped b -> (length (queued b) < length (taken b) + 100)%nat -> arrived b = consumed b.
Proof.
  intros HA E Fb Fq Hn C NS Q. pose proof (prompt_exec _ _ _ _ _ (attended_prompt _ _ _ _ _ HA)) as H.
  assert (L : start < n).
  { pose proof (start_stamps _ _ _ _ _ H) as F. rewrite E in F. apply Forall_app in F. destruct F as [F _].
    destruct b as [|x b]; [discriminate C|]. inversion F; inversion Fb; subst. lia. }
  destruct (moment _ _ _ _ _ (n - 1) HA ltac:(lia) ltac:(lia)) as (x&y&sm&Ex&Fx&Fy&Hm&Rm&Room).
  assert (ET : x = b).
  { eapply (instant_split (n - 1) x b y q); auto.
    - rewrite <- Ex. exact E.
    - eapply Forall_impl; [|exact Fb]. cbn. intros. lia.
    - eapply Forall_impl; [|exact Fq]. cbn. intros. lia. }
  subst x. eapply rest_nothing_waits; eassumption.
Qed.
Lemma recv_last c s l s1 e1 t d e2 : step c s l = Some (s1, e1 ++ EvClRecv t d :: e2) -> forall n, arrived (stamp n e2) = [] /\ arrived (stamp n e1) = [].
Proof.
  intros Hs n. remember (e1 ++ EvClRecv t d :: e2) as es eqn:E.
  assert (X : arrived (stamp n es) = []).
  { destruct l; try (inv_step Hs; try reflexivity; try (match goal with |- context [stop_events ?b] => destruct b end; reflexivity);
      try (match goal with |- context [send_event ?b] => destruct b end; try reflexivity; match goal with |- context [stop_events ?b] => destruct b end; reflexivity); fail).
    inv_step Hs. destruct e1 as [|? [|]]; discriminate E. }
  rewrite E in X. unfold stamp in X. rewrite map_app in X. rewrite arrived_app in X. apply app_eq_nil in X. destruct X as [X1 X2]. split; [|exact X1].
  exact X2.
Qed.
Lemma taken_later c start ls b q1 k t d q2 s :
  exec c start ls (b ++ q1 ++ (k, EvClRecv t d) :: q2) s -> arrived b = consumed b -> exists m, In (m, EvArrive d) q1.
Proof.
  intros H E. rewrite app_assoc in H. destruct (exec_split _ _ _ _ _ _ _ _ _ H eq_refl) as (tr0&s0&l&s1&e1&e2&H0&Hs&->&Ep&H1&_).
  destruct (recv_last _ _ _ _ _ _ _ _ Hs (s_now s0)) as [A2 A1].
  pose proof (inbox_inv _ _ _ _ _ H1) as I. unfold stamp in I. rewrite map_app in I. cbn [map] in I.
  change ((s_now s0, EvClRecv t d) :: map (fun e => (s_now s0, e)) e2) with ([(s_now s0, EvClRecv t d)] ++ stamp (s_now s0) e2) in I.
  change (map (fun e => (s_now s0, e)) e1) with (stamp (s_now s0) e1) in I. rewrite app_assoc, <- Ep in I.
  rewrite !arrived_app, !consumed_app, A2, E, <- !app_assoc in I. apply app_inv_head in I. cbn [arrived flat_map snd app] in I. rewrite !app_nil_r in I.
  assert (Hd : In d (arrived q1)).
  { rewrite I. apply in_or_app. right. left. reflexivity. }
  unfold arrived in Hd. apply in_flat_map in Hd. destruct Hd as ((m&e)&Hi&He).
  destruct e; try (destruct He; fail). destruct He as [He|[]]. subst. eauto.
Qed.
Lemma status_is_fresh c start ls tr s p m t x r body n req b q :
  attended c start ls tr s -> Forall bytes (arrived tr) -> tr = p ++ (m, EvRet t OStatus (RStatus x)) :: r ->
  in_call t OStatus p body -> In (n, EvSend (Cl t) req) body ->
  tr = b ++ q -> Forall (fun x => fst x < n) b -> Forall (fun x => n <= fst x) q ->
  connected_now b = true -> ~ task_stopped b -> (length (queued b) < length (taken b) + 100)%nat ->
  exists k d, In (k, EvArrive d) p /\ n <= k /\ looks_like (recv_buffer d) (RConnState x).
Proof.
  intros HA Hb E Ic Hi Eb Fb Fq C NS Q. pose proof (prompt_exec _ _ _ _ _ (attended_prompt _ _ _ _ _ HA)) as H.
  destruct (status_returns _ _ _ _ _ _ _ _ _ _ H Hb E) as (body'&Ic'&O). cbn in O. destruct O as (n2&d2&n3&g&->&L).
  destruct Ic as (h&n0&Ec&Ni). destruct Ic' as (h'&n0'&Ec'&Ni').
  assert (Es : body = [(n2, EvSend (Cl t) d2); (n3, EvClRecv t g)]).
  { rewrite Ec in Ec'. clear -Ec' Ni Ni'. 
    assert (G : forall (a a' : trace) u v B B', a ++ (u, EvInvoke t OStatus) :: B = a' ++ (v, EvInvoke t OStatus) :: B' ->
      (forall x, In x B -> forall o', snd x <> EvInvoke t o') -> (forall x, In x B' -> forall o', snd x <> EvInvoke t o') -> B = B').
    { induction a as [|y a IH]; intros a' u v B B' F N1 N2; destruct a' as [|y' a'].
      - cbn in F. congruence.
      - exfalso. cbn in F. injection F as <- ->. refine (N1 (v, EvInvoke t OStatus) _ OStatus eq_refl). apply in_or_app. right. left. reflexivity.
      - exfalso. cbn in F. injection F as -> <-. refine (N2 (u, EvInvoke t OStatus) _ OStatus eq_refl). apply in_or_app. right. left. reflexivity.
      - cbn in F. injection F as _ F. eapply IH; eassumption. }
    eapply G; [exact Ec'| |]; intros y Hy; [apply Ni|apply Ni']; exact Hy. }
  rewrite Es in Hi. destruct Hi as [Hi|[Hi|[]]]; [|discriminate Hi]. injection Hi as -> ->. subst body.
  assert (Hg : exists p1 p2 p3, p = p1 ++ (n, EvSend (Cl t) req) :: p2 ++ (n3, EvClRecv t g) :: p3).
  { unfold call_events in Ec. 
    change (h ++ (n0, EvInvoke t OStatus) :: [(n, EvSend (Cl t) req); (n3, EvClRecv t g)]) with (h ++ [(n0, EvInvoke t OStatus)] ++ (n, EvSend (Cl t) req) :: [(n3, EvClRecv t g)]) in Ec.
    rewrite app_assoc in Ec. apply filter_split in Ec. destruct Ec as (p1&p2&->&_&Ec&_).
    apply (filter_split _ _ _ []) in Ec. destruct Ec as (p3&p4&->&_). exists p1, p3, p4. reflexivity. }
  destruct Hg as (p1&p2&p3&Ep).
  assert (Sn : Forall (fun y => fst y <= n3) (p1 ++ (n, EvSend (Cl t) req) :: p2)).
  { eapply sorted_at with (q := p3 ++ (m, EvRet t OStatus (RStatus x)) :: r). rewrite <- app_assoc. cbn [app]. rewrite E, Ep in H.
    rewrite <- app_assoc in H. cbn [app] in H. rewrite <- app_assoc in H. exact H. }
  assert (Ln : n <= n3).
  { rewrite Forall_forall in Sn. apply (Sn (n, EvSend (Cl t) req)). apply in_or_app. right. left. reflexivity. }
  assert (At : arrived b = consumed b).
  { eapply all_taken; try eassumption. pose proof (stamp_inv _ _ _ _ _ H) as F. rewrite Forall_forall in F.
    apply (F (n, EvSend (Cl t) req)). rewrite E, Ep, <- app_assoc. apply in_or_app. right. left. reflexivity. }
  assert (Hq : exists q1 q2, q = q1 ++ (n3, EvClRecv t g) :: q2 /\ b ++ q1 = p1 ++ (n, EvSend (Cl t) req) :: p2).
  { assert (Et : b ++ q = (p1 ++ (n, EvSend (Cl t) req) :: p2) ++ (n3, EvClRecv t g) :: p3 ++ (m, EvRet t OStatus (RStatus x)) :: r).
    { rewrite <- Eb, E, Ep, <- !app_assoc. cbn [app]. rewrite <- app_assoc. reflexivity. }
    clear -Et Fb Ln. revert Et. generalize (p1 ++ (n, EvSend (Cl t) req) :: p2). generalize (p3 ++ (m, EvRet t OStatus (RStatus x)) :: r).
    intros z a Et. revert a Et. induction b as [|y b IH]; intros a Et; [exists a, z; auto|]. inversion Fb; subst.
    destruct a as [|y' a]; cbn in Et; injection Et as -> Et; [cbn in *; lia|].
    destruct (IH ltac:(assumption) _ Et) as (q1&q2&->&F). exists q1, q2. split; [reflexivity|]. cbn. rewrite F. reflexivity. }
  destruct Hq as (q1&q2&->&Eq). rewrite Eb in H. destruct (taken_later _ _ _ _ _ _ _ _ _ _ H At) as (k&Hk).
  exists k, g. split; [|split; [|exact L]].
  - rewrite Ep. change ((n, EvSend (Cl t) req) :: p2 ++ (n3, EvClRecv t g) :: p3) with (((n, EvSend (Cl t) req) :: p2) ++ (n3, EvClRecv t g) :: p3).
    rewrite app_assoc, <- Eq. apply in_or_app. left. apply in_or_app. right. exact Hk.
  - rewrite Forall_forall in Fq. apply (Fq (k, EvArrive g)). apply in_or_app. left. exact Hk.
Qed.

(** ** A state that has waited half a minute *)
Definition state_after (sched : list label) : sys :=
  match run client (init_sys 0 no_listeners) sched with Some (s, _) => s | None => init_sys 0 no_listeners end.
Lemma run_after sched : nonempty (trace_of client no_listeners sched) = true ->
  run client (init_sys 0 no_listeners) sched = Some (state_after sched, trace_of client no_listeners sched).
Proof. unfold state_after, trace_of. destruct (run _ _ _) as [[s tr]|]; [reflexivity|discriminate]. Qed.
Lemma after_a_while c start ls ts sched s1 tr1 m dt s2 tr2 :
  attended c start ls tr1 s1 -> (forall u, s_clients s1 u = CIdle) -> s_bg s1 = BEnq m -> s_rx_alive s1 = true -> length (s_rxq s1) = 100%nat ->
  s_now s1 + dt <= s_hb s1 -> roomy tr1 s1 = true ->
  run c (set_now s1 (s_now s1 + dt)) sched = Some (s2, tr2) -> promptly c (set_now s1 (s_now s1 + dt)) ts sched = true ->
  attentively c (set_now s1 (s_now s1 + dt)) tr1 sched = true -> attended c start ls (tr1 ++ tr2) s2.
Proof.
  intros HA Id B Al F Hh Rm R P A.
  assert (H2 : attended c start ls tr1 (set_now s1 (s_now s1 + dt))).
  { pose proof (attended_step _ _ _ _ _ (LTime dt) _ _ HA eq_refl) as H2. cbn [stamp map] in H2. rewrite app_nil_r in H2. apply H2.
    intros d [= <-]. split; [|exact (roomy_room _ _ Rm)]. apply (full_rests _ _ _ m); assumption. }
  eapply (attentively_attended c start ls ts sched); [exact H2|intros u _; apply Id|exact P|exact A|exact R].
Qed.
Definition stale_first : list label := flood ++ [LArrive (state_answer 7 0)].
Definition stale_middle : sys := set_now (state_after stale_first) 30000.
Definition stale_call : list label := LInvoke 1 OStatus :: repeat (LCl 1 true) 5.
Definition stale_trace : trace :=
  trace_of client no_listeners stale_first ++ match run client stale_middle stale_call with Some (_, tr) => tr | None => [] end.
Definition stale_checks : bool :=
  nonempty (trace_of client no_listeners stale_first) && promptly client (init_sys 0 no_listeners) [] stale_first &&
  attentively client (init_sys 0 no_listeners) [] stale_first &&
  forallb (fun l => match l with LInvoke _ _ => false | _ => true end) stale_first &&
  match s_bg (state_after stale_first) with BEnq _ => true | _ => false end && s_rx_alive (state_after stale_first) &&
  Nat.eqb (length (s_rxq (state_after stale_first))) 100 && (s_now (state_after stale_first) =? 0) && (s_hb (state_after stale_first) =? 60000) &&
  roomy (trace_of client no_listeners stale_first) (state_after stale_first) &&
  match run client stale_middle stale_call with Some _ => true | None => false end &&
  promptly client stale_middle [1%nat] stale_call && attentively client stale_middle (trace_of client no_listeners stale_first) stale_call.
Lemma stale_checked : stale_checks = true.
Proof. vm_compute. reflexivity. Qed.
Lemma stale_attended : exists s, attended client 0 no_listeners stale_trace s.
Proof.
  pose proof stale_checked as F. unfold stale_checks in F. repeat (apply andb_prop in F; let G := fresh "G" in destruct F as [F G]).
  pose proof (run_after _ F) as R1. unfold stale_trace.
  assert (H1 : attended client 0 no_listeners (trace_of client no_listeners stale_first) (state_after stale_first)).
  { apply (run_attended _ _ _ [] stale_first); assumption. }
  assert (I1 : forall u, s_clients (state_after stale_first) u = CIdle) by (eapply idle_run; [exact R1|reflexivity|assumption]).
  unfold stale_middle in *. revert G G0 G1 G2 G3 G4 G5 G6 G7 H1 I1. generalize (state_after stale_first). generalize (trace_of client no_listeners stale_first).
  clear. intros tr1 s1 P1 P2 P3 P4 P5 P6 P7 P8 P9 HA Id.
  apply N.eqb_eq in P5, P6. apply Nat.eqb_eq in P7.
  destruct (s_bg s1) as [| | | | | | | | |m| | | | |] eqn:B; try discriminate P9.
  replace 30000 with (s_now s1 + 30000) in * by (rewrite P6; reflexivity).
  destruct (run client (set_now s1 (s_now s1 + 30000)) stale_call) as [[s2 tr2]|] eqn:R; [|discriminate P3]. exists s2.
  apply (after_a_while client 0 no_listeners [1%nat] stale_call s1 tr1 m 30000 s2 tr2); try assumption. rewrite P5, P6. lia.
Qed.
Definition stale_state : connstate_response := {| ss_chan := 7; ss_status := 0 |}.
Definition stale_before : trace := firstn (length stale_trace - 1) stale_trace.
Lemma stale_ends : stale_trace = stale_before ++ [(30000, EvRet 1 OStatus (RStatus stale_state))].
Proof. vm_compute. reflexivity. Qed.
Lemma stale_in_call : in_call 1 OStatus stale_before [(30000, EvSend (Cl 1) (state_datagram 7 gateway)); (30000, EvClRecv 1 (state_answer 7 0))].
Proof.
  exists [], 30000. split; [vm_compute; reflexivity|]. intros x [<-|[<-|[]]]; (split; [reflexivity|discriminate]).
Qed.
Definition early (x : N * event) : bool := match snd x with EvArrive _ => fst x =? 0 | EvCleared | EvBgEnd | EvBgPanic => false | _ => true end.
Lemma stale_early : forallb early stale_trace = true.
Proof. vm_compute. reflexivity. Qed.
Lemma stale_octets : Forall bytes (arrived stale_trace).
Proof. octets. Qed.
Lemma early_at tr x : forallb early tr = true -> In x tr -> early x = true.
Proof. intro F. rewrite forallb_forall in F. apply F. Qed.
Lemma early_never tr e : forallb early tr = true -> (forall n, early (n, e) = false) -> never e tr.
Proof.
  intros A F I. unfold evs in I. apply in_map_iff in I. destruct I as ((n&e')&<-&I). apply (early_at _ _ A) in I. rewrite F in I. discriminate I.
Qed.
Lemma early_runs tr : forallb early tr = true -> ~ task_stopped tr.
Proof. intros A [I|I]; revert I; apply (early_never _ _ A); reflexivity. Qed.
Lemma stale_answer :
  ~ (forall c start ls tr s p m t x r body n req, attended c start ls tr s -> Forall bytes (arrived tr) ->
       tr = p ++ (m, EvRet t OStatus (RStatus x)) :: r -> in_call t OStatus p body -> In (n, EvSend (Cl t) req) body ->
       never EvCleared tr -> ~ task_stopped tr ->
       exists k d, In (k, EvArrive d) p /\ n <= k /\ looks_like (recv_buffer d) (RConnState x)).
Proof.
  intro F. destruct stale_attended as (s&HA).
  destruct (F _ _ _ _ _ _ _ _ _ _ _ 30000 (state_datagram 7 gateway) HA stale_octets stale_ends stale_in_call) as (k&d&I&L&_).
  - left. reflexivity.
  - apply (early_never _ _ stale_early). reflexivity.
  - exact (early_runs _ stale_early).
  - assert (E : early (k, EvArrive d) = true) by (apply (early_at _ _ stale_early); rewrite stale_ends; apply in_or_app; left; exact I).
    apply N.eqb_eq in E. cbn in E. lia.
Qed.
