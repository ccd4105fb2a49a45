(** Upper bounds on waiting times in prompt executions. *)
From Verif Require Import Base Addresses Apdu Tunneling Emi Core Transport Wire Spec TraceSpec TraceSpec2 LiveSpec PromptSpec TransportBase TransportInv TransportCalls TransportReturn TransportThm TransportThm2 TransportThm3 TransportReads TransportRecover.
From Coq Require Import Lia ZifyBool ZifyNat ZifyN.
Open Scope N_scope.

Lemma prompt_exec c start ls tr s : prompt c start ls tr s -> exec c start ls tr s.
Proof. induction 1; [constructor|econstructor; eassumption]. Qed.

(** The last instant before the end of a stretch of time. *)
Lemma lets_last c s dt : lets_pass c s dt -> dt <> 0 -> at_rest c (set_now s (s_now s + (dt - 1))).
Proof. intros L D. apply L. lia. Qed.

(** ** Waiting calls *)
(** Until when the call of [t] may wait: from its datagram, or from its start. *)
Definition allow (t : nat) (b : N) (x : N * event) : N :=
  match snd x with
  | EvSend (Cl u) _ => if Nat.eqb u t then fst x + 10000 else b
  | EvDeq u _ => if Nat.eqb u t then b + 10000 else b
  | _ => b
  end.
Definition allow0 (t : nat) (b : N) (x : N * event) : N :=
  match snd x with
  | EvInvoke u _ => if Nat.eqb u t then fst x else b
  | EvSend (Cl u) _ | EvDeq u _ => if Nat.eqb u t then b + 10000 else b
  | _ => b
  end.
Lemma allow_other t n es : filter (call_event t) es = [] -> forall b, fold_left (allow t) (stamp n es) b = b.
Proof.
  induction es as [|e es IH]; [reflexivity|]. cbn [filter stamp map fold_left]. intros F b.
  destruct (call_event t e) eqn:E; [discriminate F|].
  assert (A : allow t b (n, e) = b).
  { unfold allow; cbn [snd fst]. destruct e as [| | | |[] ?|[] ?| | | | | | | | | | | | | |]; cbn in E |- *; try reflexivity; rewrite E; reflexivity. }
  rewrite A. exact (IH F b).
Qed.
Lemma allow0_other t n es : filter (call_event t) es = [] -> forall b, fold_left (allow0 t) (stamp n es) b = b.
Proof.
  induction es as [|e es IH]; [reflexivity|]. cbn [filter stamp map fold_left]. intros F b.
  destruct (call_event t e) eqn:E; [discriminate F|].
  assert (A : allow0 t b (n, e) = b).
  { unfold allow0; cbn [snd fst]. destruct e as [| | | |[] ?|[] ?| | | | | | | | | | | | | |]; cbn in E |- *; try reflexivity; rewrite E; reflexivity. }
  rewrite A. exact (IH F b).
Qed.
Lemma allow_call t tr : forall b, fold_left (allow t) tr b = fold_left (allow t) (call_events t tr) b.
Proof.
  induction tr as [|[n e] tr IH]; [reflexivity|]. intro b. unfold call_events. cbn [filter snd fold_left].
  destruct (call_event t e) eqn:E; [apply IH|].
  pose proof (allow_other t n [e] ltac:(cbn; rewrite E; reflexivity) b) as A. cbn [stamp map fold_left] in A. rewrite A. apply IH.
Qed.
Lemma allow0_call t tr : forall b, fold_left (allow0 t) tr b = fold_left (allow0 t) (call_events t tr) b.
Proof.
  induction tr as [|[n e] tr IH]; [reflexivity|]. intro b. unfold call_events. cbn [filter snd fold_left].
  destruct (call_event t e) eqn:E; [apply IH|].
  pose proof (allow0_other t n [e] ltac:(cbn; rewrite E; reflexivity) b) as A. cbn [stamp map fold_left] in A. rewrite A. apply IH.
Qed.

Lemma timer_not_due c s t o dl dt :
  s_rx_alive s = true -> s_clients s t = CWaitQ o dl -> is_transfer o -> lets_pass c s dt -> s_now s <= dl -> s_now s + dt <= dl.
Proof.
  intros Ha Ep Ho L Hd. destruct (N.eq_dec dt 0) as [->|D]; [lia|].
  specialize (lets_last _ _ _ L D (LTimeout t) I). cbn. rewrite Ha. unfold cl_timeout. sysb. rewrite Ep.
  destruct o; try destruct Ho; destruct (N.leb_spec dl (s_now s + (dt - 1))); try discriminate; lia.
Qed.

Lemma waiting_inv c start ls tr s :
  prompt c start ls tr s -> s_rx_alive s = true ->
  forall t o dl, s_clients s t = CWaitQ o dl -> is_transfer o -> s_now s <= dl /\ dl <= fold_left (allow t) tr 0.
Proof.
  induction 1 as [|tr s l s' es HP IH Hs HT]; [discriminate|]. intros Ha t o dl Ep Ho.
  pose proof (alive_back _ _ _ _ _ Hs Ha) as Ha0. specialize (IH Ha0 t). rewrite fold_left_app.
  assert (D : call_label l = Some t \/ call_label l <> Some t).
  { destruct (call_label l) as [u|]; [destruct (Nat.eq_dec u t); [left|right]; congruence|right; discriminate]. }
  destruct D as [D|D].
  - clear HT. destruct (call_frame _ _ _ _ _ _ Hs D) as (En&_). rewrite En. clear En.
    destruct l; try discriminate D; injection D as ->; inv_step Hs; sysb_in Ep; rewrite ?unlock_clients in Ep; sysb_in Ep; rewrite ?upd_same in Ep;
      try discriminate Ep; try (injection Ep as <- <-); try (destruct Ho; fail); try congruence;
      cbn [stamp map fold_left allow snd fst app]; rewrite ?Nat.eqb_refl; unfold ms_api; try (split; lia).
    all: specialize (IH _ _ eq_refl Ho); split; lia.
  - rewrite (allow_other _ _ _ (step_call_events _ _ _ _ _ _ Hs D)).
    destruct (call_label l) as [u|] eqn:Hc.
    + destruct (call_frame _ _ _ _ _ _ Hs Hc) as (->&_&_&_&_&_&Eu&_). rewrite Eu in Ep by congruence. exact (IH _ _ Ep Ho).
    + destruct (bg_label l) eqn:Hb.
      * destruct (bg_frame _ _ _ _ _ Hs Hb) as (->&_&_&Ec&_). rewrite Ec in Ep. exact (IH _ _ Ep Ho).
      * destruct (env_frame _ _ _ _ _ Hs Hb Hc) as (_&_&_&_&_&Ec&_). rewrite Ec in Ep. destruct (IH _ _ Ep Ho) as [I1 I2]. split; [|exact I2].
        destruct l as [dt| | | | | | | | | | | | | |]; try discriminate Hb; try discriminate Hc;
          try (inv_step Hs; sysb; exact I1).
        injection Hs as <- <-. sysb. eapply timer_not_due; eauto.
Qed.

Lemma messages_deqs t ms : messages_taken t (deqs t ms) = N.of_nat (length ms).
Proof.
  unfold messages_taken, deqs. f_equal. induction ms as [|m ms IH]; [reflexivity|]. cbn. rewrite Nat.eqb_refl. cbn. rewrite IH. reflexivity.
Qed.
Lemma allow_deqs t ms b : fold_left (allow t) (deqs t ms) b = b + 10000 * N.of_nat (length ms).
Proof.
  revert b. induction ms as [|m ms IH]; intro b; [cbn; lia|]. cbn [deqs map fold_left]. unfold deqs in IH. rewrite IH. unfold allow. cbn [snd fst].
  rewrite Nat.eqb_refl. cbn [length]. lia.
Qed.
Lemma allow0_deqs t ms b : fold_left (allow0 t) (deqs t ms) b = b + 10000 * N.of_nat (length ms).
Proof.
  revert b. induction ms as [|m ms IH]; intro b; [cbn; lia|]. cbn [deqs map fold_left]. unfold deqs in IH. rewrite IH. unfold allow0. cbn [snd fst].
  rewrite Nat.eqb_refl. cbn [length]. lia.
Qed.

(** A call that has sent its request. *)
Lemma sent_waits c start ls tr s t o body n2 d :
  exec c start ls tr s -> in_call t o tr body -> is_transfer o -> In (n2, EvSend (Cl t) d) body ->
  exists dl h n n1 seq ms, s_clients s t = CWaitQ o dl /\ call_events t tr = h ++ (n, EvInvoke t o) :: body /\
    body = [(n1, EvSeq t seq); (n2, EvSend (Cl t) d)] ++ deqs t ms /\ (forall a v b, o = OWrite a v b -> ms = []).
Proof.
  intros H I Ho Hi. pose proof I as (h&n'&Ec&_).
  destruct (in_call_pc _ _ _ _ _ _ _ _ H I) as (G&n&Hh).
  assert (Hn : sends t ((n, EvInvoke t o) :: body) <> []).
  { intro F. rewrite sends_nil in F. specialize (F (n2, EvSend (Cl t) d)). cbn in F. rewrite Nat.eqb_refl in F.
    discriminate F. auto. }
  assert (X : forall n1 seq m dd ms, body = [(n1, EvSeq t seq); (m, EvSend (Cl t) dd)] ++ deqs t ms -> m = n2 /\ dd = d).
  { intros n1 seq m dd ms E. rewrite E in Hi. cbn in Hi. destruct Hi as [F|[F|F]]; [discriminate F|injection F as <- <-; auto|].
    apply in_map_iff in F. destruct F as (x&F&_). discriminate F. }
  destruct (s_clients s t) as [|o1|o1 ?|o1 ? ?|o1|o1 ch|o1 bs|o1 dl|o1| |] eqn:Ep; cbn in G; try discriminate G; injection G as G; subst; cbn [hist] in Hh.
  - exfalso. apply Hn. eapply opened_sends, Hh.
  - exfalso. apply Hn. destruct Hh as (_&_&Hh). eapply opened_sends, Hh.
  - exfalso. apply Hn. destruct Hh as (_&_&Hh). eapply numbered_sends, Hh.
  - exfalso. apply Hn. destruct Hh as (_&Hh). eapply opened_sends, Hh.
  - exfalso. apply Hn. destruct Hh as (_&_&Hh). eapply opened_sends, Hh.
  - exfalso. apply Hn. eapply ready_sends, Hh.
  - destruct o; try destruct Ho.
    + destruct Hh as (cur0&ms&Hh&Ecur&_). destruct (tunnel_sent_shape _ _ _ _ _ Hh eq_refl) as (n0&n1&seq&m&dd&->).
      injection Ecur as En Eb. destruct (X n1 seq m dd ms Eb) as [-> ->].
      exists dl, h, n', n1, seq, ms. repeat split; auto. discriminate.
    + destruct Hh as (Hh&_). destruct (tunnel_sent_shape _ _ _ _ _ Hh eq_refl) as (n0&n1&seq&m&dd&Ecur).
      injection Ecur as En Eb. destruct (X n1 seq m dd [] Eb) as [-> ->].
      exists dl, h, n', n1, seq, []. auto.
  - exfalso. destruct Hh as ([->| ->]&_); destruct Ho.
  - destruct Ho.
  - destruct Ho.
Qed.

Lemma transfer_in_time c start ls tr s t o body n2 d :
  prompt c start ls tr s -> s_rx_alive s = true -> in_call t o tr body -> is_transfer o -> In (n2, EvSend (Cl t) d) body ->
  s_now s <= n2 + 10000 + 10000 * messages_taken t body.
Proof.
  intros HP Ha I Ho Hi. pose proof (prompt_exec _ _ _ _ _ HP) as H.
  destruct (sent_waits _ _ _ _ _ _ _ _ _ _ H I Ho Hi) as (dl&h&n&n1&seq&ms&Ep&Ec&->&_).
  destruct (waiting_inv _ _ _ _ _ HP Ha _ _ _ Ep Ho) as [A B]. rewrite allow_call, Ec, fold_left_app in B.
  cbn [fold_left app] in B. rewrite allow_deqs in B. unfold allow in B. cbn [snd fst] in B. rewrite Nat.eqb_refl in B.
  assert (M : messages_taken t ([(n1, EvSeq t seq); (n2, EvSend (Cl t) d)] ++ deqs t ms) = N.of_nat (length ms)).
  { rewrite <- (messages_deqs t ms). reflexivity. }
  rewrite M. lia.
Qed.

Lemma write_in_time c start ls tr s t a v b body n2 d :
  prompt c start ls tr s -> s_rx_alive s = true -> in_call t (OWrite a v b) tr body -> In (n2, EvSend (Cl t) d) body ->
  s_now s <= n2 + 10000.
Proof.
  intros HP Ha I Hi.
  destruct (sent_waits _ _ _ _ _ _ _ _ _ _ (prompt_exec _ _ _ _ _ HP) I Logic.I Hi) as (dl&h&n&n1&seq&ms&_&_&E&W).
  rewrite (W _ _ _ eq_refl) in E. pose proof (transfer_in_time _ _ _ _ _ _ _ _ _ _ HP Ha I Logic.I Hi) as T.
  rewrite E in T. unfold messages_taken in T. cbn in T. lia.
Qed.

(** ** A single caller *)
Lemma others_idle c start ls tr s t : exec c start ls tr s -> only_caller t tr -> forall u, u <> t -> s_clients s u = CIdle.
Proof.
  intros H O u Hu. destruct (pc_op (s_clients s u)) as [o|] eqn:E.
  - exfalso. destruct (hist_in_call _ _ _ _ _ _ _ H E) as (body&h&n&Ec&_). apply Hu, (O u o). apply in_evs. exists n.
    apply (proj1 (filter_In (fun x => call_event u (snd x)) (n, EvInvoke u o) tr)). fold (call_events u tr). rewrite Ec. apply in_or_app. right. left. reflexivity.
  - destruct (s_clients s u); cbn in E; try discriminate E; reflexivity.
Qed.
Definition waits (pc : client_pc) : bool := match pc with CIdle | CWaitQ _ _ | CWaitSock _ => true | _ => false end.
Lemma sole_goes_on c start ls tr s t dt :
  exec c start ls tr s -> c_mode c = MClient -> s_rx_alive s = true -> only_caller t tr -> waits (s_clients s t) = false -> lets_pass c s dt -> dt = 0.
Proof.
  intros H Hm Ha O W L. destruct (N.eq_dec dt 0) as [->|D]; [reflexivity|exfalso].
  pose proof (lets_last _ _ _ L D (LCl t true) I) as R. cbn in R. rewrite Ha in R. unfold cl_step in R. sysb_in R.
  assert (NL : forall m, cd_locked (set_now s m) = false).
  { intro m. exact (client_not_locked _ _ _ _ _ H Hm). }
  destruct (s_clients s t) as [|o|o pkt|o pkt seq|o|o ch|o bs|o dl|o| |] eqn:Ep; try discriminate W; rewrite ?NL in R.
  - destruct (s_tlock s) as [u|] eqn:El.
    + apply (lock_inv _ _ _ _ _ H) in El. destruct (Nat.eq_dec u t) as [->|N]; [rewrite Ep in El; discriminate El|].
      rewrite (others_idle _ _ _ _ _ _ H O u N) in El. discriminate El.
    + unfold after_lock in R. destruct o; unfold goto, crash in R; try discriminate R; destruct (op_cemi _ _); discriminate R.
  - destruct (s_conn s); discriminate R.
  - destruct (s_conn s); [destruct (tunneling_request_packet _ _)|]; discriminate R.
  - destruct (s_conn s); discriminate R.
  - destruct (s_conn s); discriminate R.
  - destruct (hist_inv _ _ _ _ _ H t) as (h&cur&_&_&Hh). rewrite Ep in Hh. cbn [hist] in Hh.
    destruct Hh as [(Hh&_)|(Hh&_)]; destruct o; discriminate.
  - discriminate R.
  - discriminate R.
Qed.

Lemma sole_inv c start ls tr s t :
  prompt c start ls tr s -> c_mode c = MClient -> s_rx_alive s = true -> only_caller t tr ->
  match s_clients s t with
  | CIdle | CWaitSock _ => True
  | CWaitQ o dl => is_transfer o -> dl <= fold_left (allow0 t) tr 0
  | _ => s_now s <= fold_left (allow0 t) tr 0
  end.
Proof.
  intros HP Hm. induction HP as [|tr s l s' es HP IH Hs HT]; [cbn; auto|]. intros Ha O.
  pose proof (alive_back _ _ _ _ _ Hs Ha) as Ha0. pose proof (prompt_exec _ _ _ _ _ HP) as H.
  assert (O0 : only_caller t tr). { intros u o I. apply (O u o). rewrite evs_app. apply in_or_app. left. exact I. }
  specialize (IH Ha0 O0). pose proof (waiting_inv _ _ _ _ _ HP Ha0 t) as WI. rewrite fold_left_app.
  assert (D : call_label l = Some t \/ call_label l <> Some t).
  { destruct (call_label l) as [u|]; [destruct (Nat.eq_dec u t); [left|right]; congruence|right; discriminate]. }
  destruct D as [D|D].
  - clear HT. destruct (call_frame _ _ _ _ _ _ Hs D) as (En&_). rewrite En. clear En.
    destruct l; try discriminate D; injection D as ->; inv_step Hs; sysb; rewrite ?unlock_clients; sysb; rewrite ?upd_same;
      try exact I; cbn [stamp map fold_left allow0 snd fst app]; rewrite ?Nat.eqb_refl; unfold ms_api;
      try match goal with G : s_clients s t = _ |- _ => rewrite ?G in * end;
      try exact IH; try lia; try (intro Ho; destruct Ho; fail); try (intro Ho; lia).
    all: intro Ho; specialize (IH Ho); destruct (WI _ _ eq_refl Ho); lia.
  - rewrite (allow0_other _ _ _ (step_call_events _ _ _ _ _ _ Hs D)).
    destruct (call_label l) as [u|] eqn:Hc.
    + destruct (call_frame _ _ _ _ _ _ Hs Hc) as (->&_&_&_&_&_&Eu&_). rewrite Eu by congruence. exact IH.
    + destruct (bg_label l) eqn:Hb.
      * destruct (bg_frame _ _ _ _ _ Hs Hb) as (->&_&_&->&_). exact IH.
      * destruct (env_frame _ _ _ _ _ Hs Hb Hc) as (_&_&_&_&_&->&_).
        destruct l as [dt| | | | | | | | | | | | | |]; try discriminate Hb; try discriminate Hc;
          try (inv_step Hs; sysb; exact IH).
        injection Hs as <- <-. sysb. destruct (waits (s_clients s t)) eqn:W.
        { destruct (s_clients s t); try discriminate W; exact IH. }
        rewrite (sole_goes_on _ _ _ _ _ _ _ H Hm Ha0 O0 W (HT _ eq_refl)), N.add_0_r. exact IH.
Qed.

Lemma allow0_quiet t body :
  (forall x, In x body -> is_send t (snd x) = false /\ forall o, snd x <> EvInvoke t o) ->
  forall b, fold_left (allow0 t) body b = b + 10000 * messages_taken t body.
Proof.
  induction body as [|[n e] body IH]; intros Q b; [unfold messages_taken; cbn; lia|]. cbn [fold_left]. rewrite IH by (intros x Hx; apply Q; right; exact Hx).
  destruct (Q (n, e) (or_introl eq_refl)) as [Q1 Q2]. cbn [snd] in Q1, Q2. unfold allow0, messages_taken. cbn [snd fst filter].
  destruct e as [| | | |[|u] ?|[] ?| | | | | |u ?| | |u o| | | | |]; try lia.
  - cbn in Q1. rewrite Q1. lia.
  - destruct (Nat.eqb_spec u t); cbn [length]; lia.
  - destruct (Nat.eqb_spec u t) as [->|]; [destruct (Q2 o); reflexivity|lia].
Qed.
Lemma sent_or_not c start ls tr s t o body :
  exec c start ls tr s -> in_call t o tr body -> is_transfer o ->
  (exists n2 d, In (n2, EvSend (Cl t) d) body) \/ (waits (s_clients s t) = false /\ forall x, In x body -> is_send t (snd x) = false).
Proof.
  intros H I Ho. destruct (in_call_pc _ _ _ _ _ _ _ _ H I) as (G&n&Hh).
  assert (Y : sends t ((n, EvInvoke t o) :: body) = [] -> forall x, In x body -> is_send t (snd x) = false).
  { intros Z x Hx. rewrite sends_nil in Z. apply Z. right. exact Hx. }
  destruct (s_clients s t) as [|o1|o1 ?|o1 ? ?|o1|o1 ch|o1 bs|o1 dl|o1| |] eqn:Ep; cbn in G; try discriminate G; injection G as G; subst; cbn [hist] in Hh;
    try (right; split; [reflexivity|apply Y]).
  - eapply opened_sends, Hh.
  - destruct Hh as (_&_&Hh). eapply opened_sends, Hh.
  - destruct Hh as (_&_&Hh). eapply numbered_sends, Hh.
  - destruct Hh as (_&Hh). eapply opened_sends, Hh.
  - destruct Hh as (_&_&Hh). eapply opened_sends, Hh.
  - eapply ready_sends, Hh.
  - left. destruct o; try destruct Ho.
    + destruct Hh as (cur0&ms&Hh&Ecur&_). destruct (tunnel_sent_shape _ _ _ _ _ Hh eq_refl) as (n0&n1&seq&m&dd&->).
      injection Ecur as En Eb. exists m, dd. rewrite Eb. right. left. reflexivity.
    + destruct Hh as (Hh&_). destruct (tunnel_sent_shape _ _ _ _ _ Hh eq_refl) as (n0&n1&seq&m&dd&Ecur).
      injection Ecur as En Eb. exists m, dd. rewrite Eb. right. left. reflexivity.
  - exfalso. destruct Hh as ([->| ->]&_); destruct Ho.
  - destruct Ho.
  - destruct Ho.
Qed.
Lemma transfer_in_time_alone c start ls tr s t o h n body :
  prompt c start ls tr s -> c_mode c = MClient -> s_rx_alive s = true -> only_caller t tr -> is_transfer o ->
  call_events t tr = h ++ (n, EvInvoke t o) :: body ->
  (forall x, In x body -> call_end t (snd x) = false /\ forall o', snd x <> EvInvoke t o') ->
  s_now s <= n + 10000 + 10000 * messages_taken t body.
Proof.
  intros HP Hm Ha O Ho Ec Q. pose proof (prompt_exec _ _ _ _ _ HP) as H.
  assert (IC : in_call t o tr body) by (exists h, n; auto).
  pose proof (sole_inv _ _ _ _ _ t HP Hm Ha O) as S. rewrite allow0_call, Ec, fold_left_app in S.
  cbn [fold_left] in S.
  assert (E0 : forall b, allow0 t b (n, EvInvoke t o) = n) by (intro; unfold allow0; cbn; rewrite Nat.eqb_refl; reflexivity).
  rewrite E0 in S.
  destruct (sent_or_not _ _ _ _ _ _ _ _ H IC Ho) as [(n2&d&Hi)|(W&NS)].
  - destruct (sent_waits _ _ _ _ _ _ _ _ _ _ H IC Ho Hi) as (dl&h'&n'&n1&seq&ms&Ep&_&->&_). rewrite Ep in S.
    destruct (waiting_inv _ _ _ _ _ HP Ha _ _ _ Ep Ho) as [A _]. specialize (S Ho).
    cbn [fold_left app] in S. rewrite allow0_deqs in S. unfold allow0 in S. cbn [snd fst] in S. rewrite Nat.eqb_refl in S.
    assert (M : messages_taken t ([(n1, EvSeq t seq); (n2, EvSend (Cl t) d)] ++ deqs t ms) = N.of_nat (length ms)).
    { rewrite <- (messages_deqs t ms). reflexivity. }
    rewrite M. lia.
  - rewrite allow0_quiet in S by (intros x Hx; split; [apply NS, Hx|apply Q, Hx]).
    destruct (s_clients s t); try discriminate W; lia.
Qed.
