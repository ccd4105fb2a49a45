(** Counting what the task does. *)
From Verif Require Import Base Addresses Apdu Tunneling Emi Core Transport Wire Spec TraceSpec TraceSpec2 CountSpec TransportBase TransportInv TransportCalls TransportReads ResponseProofs.
From Coq Require Import Lia ZifyBool ZifyNat ZifyN.
Open Scope N_scope.

Lemma count_app f tr tr' : count f (tr ++ tr') = count f tr + count f tr'.
Proof. unfold count. rewrite filter_app, app_length. lia. Qed.
Lemma count_stamp f n es : count f (stamp n es) = N.of_nat (length (filter f es)).
Proof.
  unfold count, stamp. f_equal. induction es as [|e es IH]; [reflexivity|]. cbn [map filter snd]. destruct (f e); cbn [length]; rewrite IH; reflexivity.
Qed.
Lemma count_none f n es : (forall e, f e = true -> bg_event e = true) -> filter bg_event es = [] -> count f (stamp n es) = 0.
Proof.
  intros F H. rewrite count_stamp. replace (filter f es) with (@nil event); [reflexivity|]. symmetry.
  induction es as [|e es IH]; [reflexivity|]. cbn [filter] in *. destruct (bg_event e) eqn:B; [discriminate H|].
  destruct (f e) eqn:E; [rewrite (F _ E) in B; discriminate B|]. apply IH, H.
Qed.

(** Steps of others: nothing counts. *)
Lemma others c s l s' es : step c s l = Some (s', es) -> bg_label l = false ->
  s_bg s' = s_bg s /\ s_hb s' = s_hb s /\ s_now s <= s_now s' /\
  forall f, (forall e, f e = true -> bg_event e = true) -> count f (stamp (s_now s) es) = 0.
Proof.
  intros Hs Hb. pose proof (step_bg_events _ _ _ _ _ Hs Hb) as E. destruct (call_label l) as [t|] eqn:Hc.
  - destruct (call_frame _ _ _ _ _ _ Hs Hc) as (->&_&_&->&->&_). repeat split; [lia|]. intros f F. apply count_none; assumption.
  - destruct (env_frame _ _ _ _ _ Hs Hb Hc) as (_&_&->&->&_&_&_&L&_). repeat split; [exact L|]. intros f F. apply count_none; assumption.
Qed.
Ltac bgev := let e := fresh in intro e; destruct e as [| | | |[]|[]| | | | | | | | | | | | | |]; cbn; congruence.

(** The services of what the task sends. *)
Lemma service_connection : service (connection_request_packet connection_request_tunnel) = 0x0205.
Proof. reflexivity. Qed.
Lemma service_feature r : service (feature_set_packet r) = 0x0424.
Proof. reflexivity. Qed.
Lemma service_ack a : service (tunneling_ack_packet a) = 0x0421.
Proof. reflexivity. Qed.
Lemma service_disconnect_response a : service (disconnect_response_packet a) = 0x020a.
Proof. reflexivity. Qed.
Lemma service_state a : service (connstate_request_packet a) = 0x0207.
Proof. reflexivity. Qed.

Ltac counting :=
  rewrite ?count_app, ?count_stamp; cbn [filter length task_sends answers asks beats enables ticks drops task_takes takes_connecting
    takes_receiving ack_failed takes_chosen orb app];
  rewrite ?service_connection, ?service_feature, ?service_ack, ?service_disconnect_response, ?service_state;
  repeat match goal with |- context [?a =? ?b] => is_ground a; is_ground b; let v := eval vm_compute in (a =? b) in change (a =? b) with v end;
  cbn [orb length filter].

(** ** Answers *)
Definition owes (b : bg_pc) : N := match b with BAck _ _ _ | BDiscSend _ => 1 | _ => 0 end.
Lemma stop_filter f b : f EvBgEnd = false -> f EvBgPanic = false -> filter f (stop_events b) = [].
Proof. intros E P. destruct b; cbn; rewrite ?E, ?P; reflexivity. Qed.
Lemma dispatch_owes d : owes (dispatch d) <= 1.
Proof. destruct (dispatch d); cbn; lia. Qed.
Lemma after_ack_owes p k : owes (after_ack p k) = 0.
Proof. unfold after_ack. destruct k as [bs|]; [destruct (run_on _ _)|]; reflexivity. Qed.
Lemma answers_inv c start ls tr s : exec c start ls tr s -> count answers tr + owes (s_bg s) <= count takes_receiving tr.
Proof.
  revert tr s. apply exec_inv; [vm_compute; discriminate|]. intros tr s l s' es H IH Hs. rewrite !count_app.
  destruct (bg_label l) eqn:Hb.
  - destruct l; try discriminate Hb; clear Hb; inv_step Hs; sysb; counting; rewrite ?stop_filter by reflexivity; cbn [length];
      try (match goal with G : s_bg s = _ |- _ => rewrite ?G in IH end); cbn [owes] in *;
      rewrite ?after_ack_owes; try lia;
      try (match goal with |- context [owes (dispatch ?d)] => pose proof (dispatch_owes d) end); try lia.
  - destruct (others _ _ _ _ _ Hs Hb) as (->&_&_&O). rewrite !O by bgev. lia.
Qed.

Ltac task_step IH Hs := inv_step Hs; sysb; counting; rewrite ?stop_filter by reflexivity; cbn [length];
  try (match goal with G : s_bg ?s = _ |- _ => rewrite ?G in IH end).

(** ** Requests for the info service *)
Definition enabling (b : bg_pc) : N := match b with BMonEnable _ => 1 | _ => 0 end.
Lemma dispatch_enabling d : enabling (dispatch d) = 0.
Proof.
  unfold dispatch. destruct d; [reflexivity|]. destruct (parse_response _) as [[]| |]; try reflexivity. destruct (_ =? _); reflexivity.
Qed.
Lemma after_ack_enabling p k : enabling (after_ack p k) = 0.
Proof. unfold after_ack. destruct k as [bs|]; [destruct (run_on _ _)|]; reflexivity. Qed.
Lemma enables_inv c start ls tr s : exec c start ls tr s -> count enables tr + enabling (s_bg s) <= count takes_connecting tr.
Proof.
  revert tr s. apply exec_inv; [vm_compute; discriminate|]. intros tr s l s' es H IH Hs. rewrite !count_app.
  destruct (bg_label l) eqn:Hb.
  - destruct l; try discriminate Hb; clear Hb; task_step IH Hs; cbn [enabling] in *; rewrite ?dispatch_enabling, ?after_ack_enabling; lia.
  - destruct (others _ _ _ _ _ Hs Hb) as (->&_&_&O). rewrite !O by bgev. lia.
Qed.
Lemma enables_client c start ls tr s : exec c start ls tr s -> c_mode c = MClient -> count enables tr + enabling (s_bg s) = 0.
Proof.
  intros H M. revert H. revert tr s. apply exec_inv; [reflexivity|]. intros tr s l s' es H IH Hs. rewrite !count_app.
  destruct (bg_label l) eqn:Hb.
  - destruct l; try discriminate Hb; clear Hb; task_step IH Hs; cbn [enabling] in *; rewrite ?dispatch_enabling, ?after_ack_enabling; try congruence; lia.
  - destruct (others _ _ _ _ _ Hs Hb) as (->&_&_&O). rewrite !O by bgev. lia.
Qed.

(** ** Connection requests *)
Definition paid (start now : N) (b : bg_pc) (a r : N) : Prop :=
  match b with
  | BConnWait _ => 10000 * a + start <= 10000 * (r + 1) + now
  | BConnSleep d => 10000 * (a + 1) + start <= 10000 * (r + 1) + d /\ d <= now + 10000
  | _ => 10000 * (a + 1) + start <= 10000 * (r + 1) + now
  end.
Lemma paid_most start now b a r :
  10000 * (a + 1) + start <= 10000 * (r + 1) + now -> (forall d, b <> BConnSleep d) -> paid start now b a r.
Proof. intros L D. destruct b; cbn; try lia. destruct (D deadline). reflexivity. Qed.
Lemma dispatch_sleep d x : dispatch d <> BConnSleep x.
Proof. unfold dispatch. destruct d; [discriminate|]. destruct (parse_response _) as [[]| |]; try discriminate. destruct (_ =? _); discriminate. Qed.
Lemma after_ack_sleep p k x : after_ack p k <> BConnSleep x.
Proof. unfold after_ack. destruct k as [bs|]; [destruct (run_on _ _)|]; discriminate. Qed.
Lemma asks_inv c start ls tr s : exec c start ls tr s -> paid start (s_now s) (s_bg s) (count asks tr) (count takes_connecting tr).
Proof.
  revert tr s. apply exec_inv; [cbn; unfold count; cbn; lia|]. intros tr s l s' es H IH Hs. rewrite !count_app.
  destruct (bg_label l) eqn:Hb.
  - destruct l; try discriminate Hb; clear Hb; task_step IH Hs; cbn [paid] in *; unfold ms_retry in *;
      first [lia|apply paid_most; [lia|intro; first [apply dispatch_sleep|apply after_ack_sleep]]].
  - destruct (others _ _ _ _ _ Hs Hb) as (->&_&L&O). rewrite !O by bgev. rewrite !N.add_0_r. destruct (s_bg s); cbn [paid] in *; lia.
Qed.
Lemma asks_bound c start ls tr s : exec c start ls tr s -> count asks tr <= 1 + count takes_connecting tr + (s_now s - start) / 10000.
Proof.
  intro H. pose proof (asks_inv _ _ _ _ _ H) as P.
  assert (Q : 10000 * count asks tr <= 10000 * (count takes_connecting tr + 1) + (s_now s - start)).
  { destruct (s_bg s); cbn [paid] in P; lia. }
  assert (D : (10000 * count asks tr) / 10000 <= (10000 * (count takes_connecting tr + 1) + (s_now s - start)) / 10000) by (apply N.div_le_mono; lia).
  rewrite (N.mul_comm 10000 (count asks tr)), N.div_mul, (N.mul_comm 10000 (_ + 1)), N.div_add_l in D by lia. lia.
Qed.

(** ** Heart beats *)
Definition beating (b : bg_pc) : N := match b with BBeat => 1 | _ => 0 end.
Lemma dispatch_beating d : beating (dispatch d) = 0.
Proof. unfold dispatch. destruct d; [reflexivity|]. destruct (parse_response _) as [[]| |]; try reflexivity. destruct (_ =? _); reflexivity. Qed.
Lemma after_ack_beating p k : beating (after_ack p k) = 0.
Proof. unfold after_ack. destruct k as [bs|]; [destruct (run_on _ _)|]; reflexivity. Qed.
Lemma beats_inv c start ls tr s : exec c start ls tr s -> count beats tr + beating (s_bg s) <= count ticks tr.
Proof.
  revert tr s. apply exec_inv; [vm_compute; discriminate|]. intros tr s l s' es H IH Hs. rewrite !count_app.
  destruct (bg_label l) eqn:Hb.
  - destruct l; try discriminate Hb; clear Hb; task_step IH Hs; cbn [beating] in *; rewrite ?dispatch_beating, ?after_ack_beating; try lia.
  - destruct (others _ _ _ _ _ Hs Hb) as (->&_&_&O). rewrite !O by bgev. lia.
Qed.
Lemma ticks_inv c start ls tr s : exec c start ls tr s -> 60000 * count ticks tr + start <= s_hb s /\ s_hb s <= s_now s + 60000.
Proof.
  revert tr s. apply exec_inv; [cbn; unfold count; cbn; lia|]. intros tr s l s' es H IH Hs. rewrite !count_app.
  destruct (bg_label l) eqn:Hb.
  - destruct l; try discriminate Hb; clear Hb; task_step IH Hs; unfold next_tick, ms_heart_beat;
      try (match goal with |- context [?a <? ?b] => destruct (N.ltb_spec a b) end); lia.
  - destruct (others _ _ _ _ _ Hs Hb) as (_&->&L&O). rewrite !O by bgev. lia.
Qed.
Lemma ticks_bound c start ls tr s : exec c start ls tr s -> count ticks tr <= 1 + (s_now s - start) / 60000.
Proof.
  intro H. destruct (ticks_inv _ _ _ _ _ H) as [A B].
  assert (Q : 60000 * count ticks tr <= 60000 * 1 + (s_now s - start)) by lia.
  assert (D : (60000 * count ticks tr) / 60000 <= (60000 * 1 + (s_now s - start)) / 60000) by (apply N.div_le_mono; lia).
  rewrite (N.mul_comm 60000 (count ticks tr)), N.div_mul, (N.mul_comm 60000 1), N.div_add_l in D by lia. lia.
Qed.
Lemma drops_inv c start ls tr s : exec c start ls tr s -> count drops tr <= count ticks tr.
Proof.
  revert tr s. apply exec_inv; [vm_compute; discriminate|]. intros tr s l s' es H IH Hs. rewrite !count_app.
  destruct (bg_label l) eqn:Hb.
  - destruct l; try discriminate Hb; clear Hb; task_step IH Hs; lia.
  - destruct (others _ _ _ _ _ Hs Hb) as (_&_&_&O). rewrite !O by bgev. lia.
Qed.

(** ** Together *)
Lemma sends_sum c start ls tr s : exec c start ls tr s ->
  count task_sends tr = count answers tr + count asks tr + count beats tr + count enables tr.
Proof.
  revert tr s. apply exec_inv; [reflexivity|]. intros tr s l s' es H IH Hs. rewrite !count_app.
  destruct (bg_label l) eqn:Hb.
  - destruct l; try discriminate Hb; clear Hb; task_step IH Hs; lia.
  - destruct (others _ _ _ _ _ Hs Hb) as (_&_&_&O). rewrite !O by bgev. lia.
Qed.
Lemma takes_sum tr : count task_takes tr = count takes_connecting tr + count takes_receiving tr.
Proof.
  induction tr as [|[n e] tr IH]; [reflexivity|]. unfold count in *. cbn [filter snd]. destruct e; cbn [task_takes takes_connecting takes_receiving length]; lia.
Qed.
Lemma traffic_client c start ls tr s : exec c start ls tr s -> c_mode c = MClient ->
  count task_sends tr <= count task_takes tr + 2 + (s_now s - start) / 10000 + (s_now s - start) / 60000.
Proof.
  intros H M. rewrite (sends_sum _ _ _ _ _ H), takes_sum.
  pose proof (answers_inv _ _ _ _ _ H). pose proof (asks_bound _ _ _ _ _ H). pose proof (beats_inv _ _ _ _ _ H).
  pose proof (ticks_bound _ _ _ _ _ H). pose proof (enables_client _ _ _ _ _ H M). lia.
Qed.
Lemma traffic_monitor c start ls tr s : exec c start ls tr s ->
  count task_sends tr <= count task_takes tr + count takes_connecting tr + 2 + (s_now s - start) / 10000 + (s_now s - start) / 60000.
Proof.
  intros H. rewrite (sends_sum _ _ _ _ _ H), takes_sum.
  pose proof (answers_inv _ _ _ _ _ H). pose proof (asks_bound _ _ _ _ _ H). pose proof (beats_inv _ _ _ _ _ H).
  pose proof (ticks_bound _ _ _ _ _ H). pose proof (enables_inv _ _ _ _ _ H). lia.
Qed.

(** ** Delivery *)
Definition holding (p : profile) (b : bg_pc) : N :=
  match b with
  | BEnq _ => 1
  | BAck _ _ k => match after_ack p k with BEnq _ => 1 | _ => 0 end
  | _ => 0
  end.
Lemma holding_le p b : holding p b <= 1.
Proof. destruct b; cbn; try lia. destruct (after_ack p k); lia. Qed.
Lemma has_message_dispatch p d : bytes d -> has_message p d -> holding p (dispatch d) = 1.
Proof.
  intros Hb (t&m&L&R). apply parse_response_complete in L; [|apply recv_buffer_bytes, Hb]. unfold dispatch. destruct d as [|x d].
  - exfalso. vm_compute in L. discriminate L.
  - rewrite L. cbn [holding after_ack]. rewrite R. reflexivity.
Qed.
Lemma after_ack_holding p k : holding p (after_ack p k) = match after_ack p k with BEnq _ => 1 | _ => 0 end.
Proof. unfold after_ack. destruct k as [bs|]; [destruct (run_on _ _)|]; reflexivity. Qed.
Definition enqs (e : event) : bool := match e with EvEnq _ => true | _ => false end.
Lemma count_queued tr : N.of_nat (length (queued tr)) = count enqs tr.
Proof.
  induction tr as [|[n e] tr IH]; [reflexivity|]. unfold queued, count in *. cbn [flat_map filter snd]. rewrite app_length.
  destruct e; cbn [enqs length]; lia.
Qed.
Lemma delivery_inv c start ls tr s f : exec c start ls tr s -> (forall d, f d = true -> has_message (c_prof c) d) ->
  Forall bytes (arrived tr) -> s_rx_alive s = true ->
  count (takes_chosen f) tr <= count enqs tr + count ticks tr + count ack_failed tr + holding (c_prof c) (s_bg s).
Proof.
  intros H F. pattern tr, s. revert tr s H. apply exec_inv; [intros; vm_compute; discriminate|].
  intros tr s l s' es H IH Hs Hby Ha. pose proof (alive_back _ _ _ _ _ Hs Ha) as Ha0.
  assert (Hby' : Forall bytes (arrived tr)). { rewrite arrived_app in Hby. apply Forall_app in Hby. apply Hby. }
  specialize (IH Hby' Ha0). rewrite !count_app.
  destruct (bg_label l) eqn:Hb.
  - pose proof (inbox_inv _ _ _ _ _ H) as E.
    destruct l; try discriminate Hb; clear Hb; clear Hby; task_step IH Hs; cbn [enqs filter length] in *; rewrite ?after_ack_holding; cbn [holding] in *; try lia; try congruence.
    + destruct (f l) eqn:Fl; cbn [length]; [|pose proof (holding_le (c_prof c) (dispatch l)); lia].
      rewrite (has_message_dispatch (c_prof c) l); [lia| |apply F, Fl].
      rewrite E in Hby'. apply Forall_app in Hby'. destruct Hby' as [_ X]. inversion X; assumption.
    + pose proof (holding_le (c_prof c) (BAck chan seq k)) as X. cbn [holding] in X. lia.
    + pose proof (holding_le (c_prof c) (BAck chan seq k)) as X. cbn [holding] in X. lia.
  - destruct (others _ _ _ _ _ Hs Hb) as (->&_&_&O). rewrite !O by bgev. lia.
Qed.
Lemma delivery c start ls tr s f : exec c start ls tr s -> (forall d, f d = true -> has_message (c_prof c) d) ->
  Forall bytes (arrived tr) -> s_rx_alive s = true ->
  count (takes_chosen f) tr <= N.of_nat (length (queued tr)) + count ticks tr + count ack_failed tr + 1.
Proof.
  intros H F Hb Ha. pose proof (delivery_inv _ _ _ _ _ _ H F Hb Ha). rewrite count_queued. pose proof (holding_le (c_prof c) (s_bg s)). lia.
Qed.
Lemma drops_bound c start ls tr s : exec c start ls tr s -> count drops tr <= 1 + (s_now s - start) / 60000.
Proof. intro H. pose proof (drops_inv _ _ _ _ _ H). pose proof (ticks_bound _ _ _ _ _ H). lia. Qed.

(** ** Silence *)
Definition settled (s : sys) : Prop :=
  s_inbox s = [] /\ s_conn s <> None /\ match s_bg s with BRecv | BBeat | BNotify _ _ => True | _ => False end.
Lemma settled_step c s l s' es : step c s l = Some (s', es) -> undisturbed l = true -> settled s -> settled s' /\ ~ In EvCleared es.
Proof.
  intros Hs U (Hi&Hc&Hb). unfold settled. destruct l; try discriminate U; inv_step Hs; try discriminate U; sys;
    try (match goal with G : s_bg s = _ |- _ => rewrite ?G in * end); try (destruct Hb; fail); try congruence;
    try (split; [repeat split; first [assumption|congruence|discriminate|exact I]|cbn; intuition discriminate]).
Qed.
Lemma settled_run c sched : forall s s' q, run c s sched = Some (s', q) -> forallb undisturbed sched = true -> settled s ->
  settled s' /\ ~ In EvCleared (evs q).
Proof.
  induction sched as [|l sched IH]; intros s s' q R U S; cbn in R; [injection R as <- <-; split; [exact S|intros []]|].
  destruct (step c s l) as [[s1 es]|] eqn:Es; [|discriminate R]. destruct (run c s1 sched) as [[s2 t2]|] eqn:R2; [|discriminate R].
  injection R as <- <-. cbn in U. apply andb_prop in U. destruct U as [U1 U2]. destruct (settled_step _ _ _ _ _ Es U1 S) as [S1 N1].
  destruct (IH _ _ _ R2 U2 S1) as [S2 N2]. split; [exact S2|]. rewrite evs_app, evs_stamp. intro X. apply in_app_or in X. tauto.
Qed.
Lemma never_detected c start ls p s l cd s1 sched s' q :
  exec c start ls p s -> arrived p = consumed p -> step c s l = Some (s1, [EvConnected cd]) ->
  run c s1 sched = Some (s', q) -> forallb undisturbed sched = true ->
  ~ In EvCleared (evs q).
Proof.
  intros H E Hs R U. pose proof (inbox_inv _ _ _ _ _ H) as I. rewrite E in I.
  assert (I0 : s_inbox s = []). { rewrite <- (app_nil_r (consumed p)) in I at 1. apply app_inv_head in I. auto. }
  assert (S : settled s1).
  { unfold settled. destruct l; open_step Hs; break Hs; try discriminate Hs; injection Hs as <- _; sysb; (split; [exact I0|split; [discriminate|destruct (c_mode c); exact Logic.I]]). }
  eapply settled_run; eassumption.
Qed.

(** ** Calls *)
Definition unsent (pc : client_pc) : N :=
  match pc with CLock _ | CSeq _ _ | CChan _ _ _ | CChan2 _ | CEp _ _ | CSend _ _ => 1 | _ => 0 end.
Lemma count_call f t n es : (forall e, f e = true -> call_event t e = true) -> filter (call_event t) es = [] -> count f (stamp n es) = 0.
Proof.
  intros F H. rewrite count_stamp. replace (filter f es) with (@nil event); [reflexivity|]. symmetry.
  induction es as [|e es IH]; [reflexivity|]. cbn [filter] in *. destruct (call_event t e) eqn:B; [discriminate H|].
  destruct (f e) eqn:E; [rewrite (F _ E) in B; discriminate B|]. apply IH, H.
Qed.
Lemma calls_inv c start ls tr s t : exec c start ls tr s -> count (is_send t) tr + unsent (s_clients s t) <= count (calls t) tr.
Proof.
  intro H. pattern tr, s. revert tr s H. apply exec_inv; [vm_compute; discriminate|]. intros tr s l s' es H IH Hs. rewrite !count_app.
  assert (D : call_label l = Some t \/ call_label l <> Some t).
  { destruct (call_label l) as [u|]; [destruct (Nat.eq_dec u t); [left|right]; congruence|right; discriminate]. }
  destruct D as [D|D].
  - rewrite !count_stamp. destruct l; try discriminate D; injection D as ->; inv_step Hs; sysb; rewrite ?unlock_clients; sysb; rewrite ?upd_same;
      cbn [filter is_send calls app length]; rewrite ?Nat.eqb_refl; cbn [length unsent];
      try (match goal with G : s_clients s t = _ |- _ => rewrite ?G in * end); cbn [unsent] in *; try lia;
      try (match goal with G : pc_op ?p = _ |- _ => destruct p; cbn [unsent] in *; lia end).
  - rewrite !(count_call _ t) by first [exact (step_call_events _ _ _ _ _ _ Hs D)|let e := fresh in intro e; destruct e as [| | | |[]|[]| | | | | | | | | | | | | |]; cbn; congruence].
    replace (s_clients s' t) with (s_clients s t); [lia|]. destruct (bg_label l) eqn:Hb.
    + destruct (bg_frame _ _ _ _ _ Hs Hb) as (_&_&_&->&_). reflexivity.
    + destruct (call_label l) as [u|] eqn:Hc.
      * destruct (call_frame _ _ _ _ _ _ Hs Hc) as (_&_&_&_&_&_&Eu&_). symmetry. apply Eu. congruence.
      * destruct (env_frame _ _ _ _ _ Hs Hb Hc) as (_&_&_&_&_&->&_). reflexivity.
Qed.
Lemma calls_bound c start ls tr s t : exec c start ls tr s -> count (is_send t) tr <= count (calls t) tr.
Proof. intro H. pose proof (calls_inv _ _ _ _ _ t H). lia. Qed.
Lemma answers_bound c start ls tr s : exec c start ls tr s -> count answers tr <= count takes_receiving tr.
Proof. intro H. pose proof (answers_inv _ _ _ _ _ H). lia. Qed.
Lemma beats_bound c start ls tr s : exec c start ls tr s -> count beats tr <= 1 + (s_now s - start) / 60000.
Proof. intro H. pose proof (beats_inv _ _ _ _ _ H). pose proof (ticks_bound _ _ _ _ _ H). lia. Qed.
