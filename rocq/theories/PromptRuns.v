(** Concrete prompt executions, for the examples of PropsPrompt.v. *)
From Verif Require Import Base Addresses Apdu Tunneling Emi Core Transport Wire Spec TraceSpec TraceSpec2 LiveSpec PromptSpec TransportBase TransportRuns TransportPrompt.
From Coq Require Import Lia ZifyBool ZifyNat ZifyN.
Open Scope N_scope.

Definition nonempty {A} (l : list A) : bool := match l with [] => false | _ => true end.
(** The program rests for [dt] milliseconds; only the tasks [ts] make calls. *)
Definition quiet (s : sys) (dt : N) (ts : list nat) : bool :=
  match s_bg s with
  | BRecv => negb (nonempty (s_inbox s)) && (s_now s + dt <=? s_hb s)
  | BConnWait dl => negb (nonempty (s_inbox s)) && (s_now s + dt <=? dl)
  | BConnSleep dl => s_now s + dt <=? dl
  | BNotify (l :: _) _ => li_alive (s_listeners s l) && negb (Nat.ltb (li_count (s_listeners s l)) (li_cap (s_listeners s l)))
  | BEnded | BPanicked => true
  | _ => false
  end &&
  forallb (fun t => match s_clients s t with
                    | CIdle => true
                    | CWaitQ (ORead _) dl | CWaitQ (OWrite _ _ _) dl => negb (nonempty (s_rxq s)) && negb (bg_gone s) && (s_now s + dt <=? dl)
                    | CWaitQ _ _ => negb (nonempty (s_rxq s)) && negb (bg_gone s)
                    | CWaitSock _ => negb (nonempty (s_inbox s))
                    | CLock _ => match s_tlock s with Some _ => true | None => false end
                    | _ => false
                    end) ts.
Lemma quiet_rests c s dt ts : (forall u, ~ In u ts -> s_clients s u = CIdle) -> quiet s dt ts = true -> lets_pass c s dt.
Proof.
  intros O Q d Hd l Hl. unfold quiet in Q. apply andb_prop in Q. destruct Q as [Q1 Q2].
  assert (CL : forall t ok, cl_step c (set_now s (s_now s + d)) t ok = None /\ cl_timeout (set_now s (s_now s + d)) t = None).
  { intros t ok. unfold cl_step, cl_timeout. sysb. destruct (in_dec Nat.eq_dec t ts) as [I|I]; [|rewrite (O t I); auto].
    rewrite forallb_forall in Q2. specialize (Q2 t I). destruct (s_clients s t) as [|o| | | | | |o dl|o| |]; try discriminate Q2; auto.
    - destruct (s_tlock s); [auto|discriminate Q2].
    - unfold bg_gone in *. sysb. destruct o; destruct (s_rxq s); cbn in Q2; try discriminate Q2;
        try (destruct (s_bg s); cbn in Q2; try discriminate Q2; auto; fail).
      all: destruct (N.leb_spec dl (s_now s + d)); [exfalso; lia|]; destruct (s_bg s); cbn in Q2; try discriminate Q2; auto.
    - destruct (s_inbox s); [auto|discriminate Q2]. }
  destruct l; try destruct Hl; cbn [step].
  - unfold bg_step. sysb. destruct (s_bg s); try discriminate Q1; auto.
    + destruct (s_inbox s); [reflexivity|discriminate Q1].
    + destruct (N.leb_spec deadline (s_now s + d)); [exfalso; lia|reflexivity].
    + destruct todo as [|x todo]; [discriminate Q1|]. apply andb_prop in Q1. destruct Q1 as [-> Q1]. destruct (Nat.ltb _ _); [discriminate Q1|reflexivity].
    + destruct (s_inbox s); [reflexivity|discriminate Q1].
  - unfold bg_timeout. sysb. destruct (s_bg s); try discriminate Q1; auto.
    destruct (N.leb_spec deadline (s_now s + d)); [exfalso; lia|reflexivity].
  - unfold bg_tick. sysb. destruct (s_bg s); try discriminate Q1; auto.
    destruct (N.leb_spec (s_hb s) (s_now s + d)); [exfalso; lia|reflexivity].
  - sysb. destruct (s_rx_alive s); [apply CL|reflexivity].
  - sysb. destruct (s_rx_alive s); [apply (CL t true)|reflexivity].
Qed.

Lemma quiet_now c s ts : (forall u, ~ In u ts -> s_clients s u = CIdle) -> quiet s 1 ts = true -> at_rest c s.
Proof.
  intros O Q. pose proof (quiet_rests c s 1 ts O Q 0 eq_refl) as R. rewrite N.add_0_r in R. destruct s. exact R.
Qed.
Fixpoint promptly (c : cfg) (s : sys) (ts : list nat) (sched : list label) : bool :=
  match sched with
  | [] => true
  | l :: sched =>
      match l with
      | LTime dt => quiet s dt ts
      | LInvoke t _ => existsb (Nat.eqb t) ts
      | _ => true
      end &&
      match step c s l with Some (s', _) => promptly c s' ts sched | None => false end
  end.
Lemma idle_kept c s l s' es t : step c s l = Some (s', es) -> s_clients s t = CIdle -> (forall o, l <> LInvoke t o) -> s_clients s' t = CIdle.
Proof.
  intros Hs E N. destruct (call_label l) as [u|] eqn:Hc.
  - destruct (Nat.eq_dec t u) as [->|D]; [|destruct (call_frame _ _ _ _ _ _ Hs Hc) as (_&_&_&_&_&_&X&_); rewrite (X t D); exact E].
    exfalso. destruct l; try discriminate Hc; injection Hc as ->; try (destruct (N o); reflexivity);
      cbn in Hs; destruct (s_rx_alive s); try discriminate Hs;
      unfold cl_step, cl_sock_err, cl_timeout, cl_dbg, cl_cancel, pc_op in Hs; rewrite E in Hs; discriminate Hs.
  - destruct (bg_label l) eqn:Hb.
    + destruct (bg_frame _ _ _ _ _ Hs Hb) as (_&_&_&->&_). exact E.
    + destruct (env_frame _ _ _ _ _ Hs Hb Hc) as (_&_&_&_&_&->&_). exact E.
Qed.
Lemma promptly_prompt c start ls ts sched : forall s tr s' tr',
  prompt c start ls tr s -> (forall u, ~ In u ts -> s_clients s u = CIdle) -> promptly c s ts sched = true -> run c s sched = Some (s', tr') ->
  prompt c start ls (tr ++ tr') s'.
Proof.
  induction sched as [|l sched IH]; intros s tr s' tr' HP O Q R.
  - injection R as <- <-. rewrite app_nil_r. exact HP.
  - cbn [promptly] in Q. apply andb_prop in Q. destruct Q as [Q1 Q2]. cbn [run] in R.
    destruct (step c s l) as [[s1 es]|] eqn:Hs; [|discriminate R].
    destruct (run c s1 sched) as [[s2 tr2]|] eqn:R2; [|discriminate R]. injection R as <- <-. rewrite app_assoc.
    eapply IH; [|  |exact Q2|exact R2].
    + econstructor; [exact HP|exact Hs|]. intros dt ->. eapply quiet_rests; eassumption.
    + intros u Hu. eapply idle_kept; [exact Hs|apply O, Hu|]. intros o ->. apply existsb_exists in Q1.
      destruct Q1 as (x&Hx&E). apply Nat.eqb_eq in E. subst. contradiction.
Qed.
Lemma run_prompt c start ls ts sched s tr :
  run c (init_sys start ls) sched = Some (s, tr) -> promptly c (init_sys start ls) ts sched = true -> prompt c start ls tr s.
Proof. intros R Q. apply (promptly_prompt c start ls ts sched _ [] _ _ (prompt_init _ _ _) (fun _ _ => eq_refl) Q R). Qed.

(** The same with room in the channels. *)
Definition roomy (tr : trace) (s : sys) : bool :=
  forallb (fun x => negb (li_alive (s_listeners s x)) || Nat.ltb (li_count (s_listeners s x)) (li_cap (s_listeners s x))) (registered tr).
Lemma roomy_room tr s : roomy tr s = true -> has_room tr s.
Proof.
  intros R x I A. unfold roomy in R. rewrite forallb_forall in R. specialize (R x I). rewrite A in R. apply Nat.ltb_lt. exact R.
Qed.
Fixpoint attentively (c : cfg) (s : sys) (tr : trace) (sched : list label) : bool :=
  match sched with
  | [] => true
  | l :: sched =>
      match l with LTime _ => roomy tr s | _ => true end &&
      match step c s l with Some (s', es) => attentively c s' (tr ++ stamp (s_now s) es) sched | None => false end
  end.
Lemma attentively_attended c start ls ts sched : forall s tr s' tr',
  attended c start ls tr s -> (forall u, ~ In u ts -> s_clients s u = CIdle) -> promptly c s ts sched = true -> attentively c s tr sched = true ->
  run c s sched = Some (s', tr') -> attended c start ls (tr ++ tr') s'.
Proof.
  induction sched as [|l sched IH]; intros s tr s' tr' HP O Q A R.
  - injection R as <- <-. rewrite app_nil_r. exact HP.
  - cbn [promptly] in Q. apply andb_prop in Q. destruct Q as [Q1 Q2]. cbn [attentively] in A. apply andb_prop in A. destruct A as [A1 A2]. cbn [run] in R.
    destruct (step c s l) as [[s1 es]|] eqn:Hs; [|discriminate R].
    destruct (run c s1 sched) as [[s2 tr2]|] eqn:R2; [|discriminate R]. injection R as <- <-. rewrite app_assoc.
    eapply IH; [|  |exact Q2|exact A2|exact R2].
    + econstructor; [exact HP|exact Hs|]. intros dt ->. split; [eapply quiet_rests; eassumption|exact (roomy_room _ _ A1)].
    + intros u Hu. eapply idle_kept; [exact Hs|apply O, Hu|]. intros o ->. apply existsb_exists in Q1.
      destruct Q1 as (x&Hx&E). apply Nat.eqb_eq in E. subst. contradiction.
Qed.
Lemma run_attended c start ls ts sched s tr :
  run c (init_sys start ls) sched = Some (s, tr) -> promptly c (init_sys start ls) ts sched = true -> attentively c (init_sys start ls) [] sched = true ->
  attended c start ls tr s.
Proof. intros R Q A. apply (attentively_attended c start ls ts sched _ [] _ _ (attended_init _ _ _) (fun _ _ => eq_refl) Q A R). Qed.

(** Connected at once, first heart beat at once. *)
Definition prompt_connect : list label := connect_with 7 ++ [LTick; LBg true].
(** A read that gets a telegram for another address after 6 s and waits 10 s more. *)
Definition slow_read : list label :=
  prompt_connect ++ call4 1 (ORead lamp) ++ [LTime 6000] ++ deliver (tunnelled 7 0 (group_ind 0x0902 [9])) ++ [LCl 1 true; LTime 10000].
(** A minute with a heart beat due at its end. *)
Definition calm_minute : list label := prompt_connect ++ [LTime 60000].
(** A request that is not answered; the next one is due. *)
Definition unanswered : list label := [LBg true; LBg true; LTime 30000; LBgTimeout; LTime 10000].
