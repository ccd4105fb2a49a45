(** To which request the state returned by a status query belongs. *)
From Verif Require Import Base Addresses Tunneling Emi Core Transport Wire Spec TraceSpec TraceSpec2 LiveSpec PromptSpec CountSpec OwnSpec
  TransportBase TransportInv TransportRuns TransportPrompt PromptRuns TransportAck TransportFresh.
From Coq Require Import Lia.
Open Scope N_scope.

Lemma told_app a b : told (a ++ b) = (told a + told b)%nat.
Proof. unfold told. rewrite evs_app, filter_app, app_length. reflexivity. Qed.
Lemma told_in k d tr : In (k, EvArrive d) tr -> service (recv_buffer d) = 0x0208 -> (1 <= told tr)%nat.
Proof.
  intros I E. apply in_split in I. destruct I as (a&b&->). rewrite told_app. unfold told at 2. cbn [evs map snd filter tells_state].
  rewrite E. cbn. lia.
Qed.
Lemma own_answer c start ls tr s p m t x r body n req b q :
  attended c start ls tr s -> Forall bytes (arrived tr) -> tr = p ++ (m, EvRet t OStatus (RStatus x)) :: r ->
  in_call t OStatus p body -> In (n, EvSend (Cl t) req) body ->
  tr = b ++ q -> Forall (fun x => fst x < n) b -> Forall (fun x => n <= fst x) q ->
  connected_now b = true -> ~ task_stopped b -> (length (queued b) < length (taken b) + 100)%nat ->
  (asked b <= told b)%nat -> asked p = S (asked b) -> (asked p <= told p)%nat.
Proof.
  intros HA Hb E Ic Hi Eb Fb Fq C NS Q L S.
  destruct (status_is_fresh _ _ _ _ _ _ _ _ _ _ _ _ _ _ _ HA Hb E Ic Hi Eb Fb Fq C NS Q) as (k&d&Ia&Lk&rest&Hd).
  assert (V : service (recv_buffer d) = 0x0208) by (rewrite Hd; reflexivity).
  rewrite E in Eb. symmetry in Eb. apply app_split in Eb. destruct Eb as [(q'&Eq&_)|(p'&Ep&_)].
  - exfalso. rewrite Forall_forall in Fb. assert (I : In (k, EvArrive d) b) by (rewrite Eq; apply in_or_app; auto).
    apply Fb in I. cbn in I. lia.
  - rewrite S, Ep, told_app. rewrite Ep in Ia. apply in_app_or in Ia. destruct Ia as [I|I].
    + exfalso. rewrite Forall_forall in Fb. apply Fb in I. cbn in I. lia.
    + pose proof (told_in _ _ _ I V). lia.
Qed.

(** A heart beat at 0, a query 5 ms later, the answer to the heart beat after 5 ms
    more; then that to the query, which the background task gets. *)
Definition overtaken : list label :=
  prompt_connect ++ [LTime 5; LInvoke 1 OStatus] ++ repeat (LCl 1 true) 4 ++
  [LTime 5; LArrive (state_answer 7 0); LCl 1 true; LTime 5; LArrive (state_answer 7 0x21); LBg true].
Definition overtaken_trace : trace := trace_of client no_listeners overtaken.
Definition good : connstate_response := {| ss_chan := 7; ss_status := 0 |}.
Fixpoint answers_only (k : nat) (tr : trace) : bool :=
  match tr with
  | [] => true
  | (_, e) :: tr' => if tells_state e then match k with O => false | S k' => answers_only k' tr' end
                     else answers_only (if asks_state e then S k else k) tr'
  end.
Lemma asks_tells e : asks_state e = true -> tells_state e = false.
Proof. destruct e; try discriminate; reflexivity. Qed.
Lemma answers_only_sound tr : forall k, answers_only k tr = true -> forall a b, tr = a ++ b -> (told a <= asked a + k)%nat.
Proof.
  induction tr as [|[n e] tr IH]; intros k A a b E.
  - destruct a; [|discriminate E]. unfold told. cbn. lia.
  - destruct a as [|y a]; [unfold told; cbn; lia|]. cbn in E. injection E as <- E. cbn [answers_only] in A.
    unfold told, asked in *. cbn [evs map snd filter] in *. destruct (tells_state e) eqn:T.
    + destruct (asks_state e) eqn:K; [apply asks_tells in K; congruence|].
      destruct k as [|k]; [discriminate A|]. specialize (IH _ A _ _ E). cbn [length]. unfold evs in IH. lia.
    + specialize (IH _ A _ _ E). unfold evs in IH. destruct (asks_state e); cbn [length]; lia.
Qed.
Definition overtaken_before : trace := firstn 10 overtaken_trace.
Lemma overtaken_attended : exists s, attended client 0 no_listeners overtaken_trace s.
Proof.
  exists (state_after overtaken). eapply (run_attended _ _ _ [1%nat] overtaken).
  - apply run_after. vm_compute. reflexivity.
  - vm_compute. reflexivity.
  - vm_compute. reflexivity.
Qed.
Lemma overtaken_ends : exists r, overtaken_trace = overtaken_before ++ (10, EvRet 1 OStatus (RStatus good)) :: r.
Proof. exists (skipn 11 overtaken_trace). vm_compute. reflexivity. Qed.
Lemma overtaken_in_call :
  in_call 1 OStatus overtaken_before [(5, EvSend (Cl 1) (state_datagram 7 gateway)); (10, EvClRecv 1 (state_answer 7 0))].
Proof. exists [], 5. split; [vm_compute; reflexivity|]. intros x [<-|[<-|[]]]; (split; [reflexivity|discriminate]). Qed.
Definition quiet_event (x : N * event) : bool := match snd x with EvCleared | EvBgEnd | EvBgPanic => false | _ => true end.
Lemma overtaken_quiet : forallb quiet_event overtaken_trace = true.
Proof. vm_compute. reflexivity. Qed.
Lemma quiet_never tr e : forallb quiet_event tr = true -> (forall n, quiet_event (n, e) = false) -> never e tr.
Proof.
  intros A F I. unfold evs in I. apply in_map_iff in I. destruct I as ((n&e')&<-&I).
  rewrite forallb_forall in A. apply A in I. rewrite F in I. discriminate I.
Qed.
Lemma overtaken_octets : Forall bytes (arrived overtaken_trace).
Proof. octets. Qed.
Lemma overtaken_answers : only_answers overtaken_trace.
Proof.
  intros a b E. assert (A : answers_only 0 overtaken_trace = true) by (vm_compute; reflexivity).
  pose proof (answers_only_sound _ _ A _ _ E). lia.
Qed.
Lemma overtaken_counts : asked overtaken_before = 2%nat /\ told overtaken_before = 1%nat.
Proof. split; vm_compute; reflexivity. Qed.
Lemma another_answer :
  ~ (forall c start ls tr s p m t x r body, attended c start ls tr s -> Forall bytes (arrived tr) -> only_answers tr ->
       tr = p ++ (m, EvRet t OStatus (RStatus x)) :: r -> in_call t OStatus p body ->
       never EvCleared tr -> ~ task_stopped tr -> (asked p <= told p)%nat).
Proof.
  intro F. destruct overtaken_attended as (s&HA). destruct overtaken_ends as (r&E).
  assert (L : (asked overtaken_before <= told overtaken_before)%nat).
  { apply (F _ _ _ _ _ _ _ _ _ _ _ HA overtaken_octets overtaken_answers E overtaken_in_call).
    - apply (quiet_never _ _ overtaken_quiet). reflexivity.
    - intros [I|I]; revert I; apply (quiet_never _ _ overtaken_quiet); reflexivity. }
  destruct overtaken_counts as [A B]. rewrite A, B in L. lia.
Qed.
