(** Concrete steady executions, for the examples of PropsAnswer.v. *)
From Verif Require Import Base Addresses Apdu Tunneling Emi Core Transport Wire Spec TraceSpec TraceSpec2 LiveSpec PromptSpec AnswerSpec
  TransportBase TransportRuns TransportPrompt PromptRuns.
Open Scope N_scope.

Definition no_errors (sched : list label) : bool := forallb (fun l => match l with LBgRecvErr => false | _ => true end) sched.
Lemma promptly_steady c start ls ts sched : forall s tr s' tr',
  steady c start ls tr s -> (forall u, ~ In u ts -> s_clients s u = CIdle) -> promptly c s ts sched = true -> no_errors sched = true ->
  run c s sched = Some (s', tr') -> steady c start ls (tr ++ tr') s'.
Proof.
  induction sched as [|l sched IH]; intros s tr s' tr' HP O Q NE R.
  - injection R as <- <-. rewrite app_nil_r. exact HP.
  - cbn [promptly] in Q. apply andb_prop in Q. destruct Q as [Q1 Q2]. cbn [no_errors forallb] in NE. apply andb_prop in NE. destruct NE as [NE1 NE2].
    cbn [run] in R. destruct (step c s l) as [[s1 es]|] eqn:Hs; [|discriminate R].
    destruct (run c s1 sched) as [[s2 tr2]|] eqn:R2; [|discriminate R]. injection R as <- <-. rewrite app_assoc.
    eapply IH; [|  |exact Q2|exact NE2|exact R2].
    + econstructor; [exact HP|exact Hs| |intros ->; discriminate NE1]. intros dt ->. eapply quiet_rests; eassumption.
    + intros u Hu. eapply idle_kept; [exact Hs|apply O, Hu|]. intros o ->. apply existsb_exists in Q1.
      destruct Q1 as (x&Hx&E). apply Nat.eqb_eq in E. subst. contradiction.
Qed.
Lemma run_steady c start ls ts sched s tr :
  run c (init_sys start ls) sched = Some (s, tr) -> promptly c (init_sys start ls) ts sched = true -> no_errors sched = true ->
  steady c start ls tr s.
Proof. intros R Q NE. apply (promptly_steady c start ls ts sched _ [] _ _ (steady_init _ _ _) (fun _ _ => eq_refl) Q NE R). Qed.

(** Connected; after a minute a heart beat cannot be sent and the connection is given up. *)
Definition connection_lost : list label := prompt_connect ++ [LTime 60000; LTick; LBg false; LBg true].
(** Then the gateway answers the next connection request after 250 ms. *)
Definition connected_again : list label :=
  connection_lost ++ [LBg true; LBg true; LTime 250; LArrive (granting 9); LBg true; LBg true; LTime 1].
(** Or nobody answers: one request, a failed attempt 40 s later, another request 10 s later. *)
Definition nobody_answers : list label :=
  connection_lost ++ [LBg true; LBg true; LTime 30000; LBgTimeout; LTime 10000; LBg true; LBg false; LTime 10000; LBg true; LBg true; LTime 500].
