(** Every outcome of a read, messages taken by calls, why a connection is given up. *)
From Verif Require Import Base Addresses Apdu Tunneling Emi Core Transport Wire Spec BaseProofs EmiProofs ResponseProofs TraceSpec TraceSpec2
  TransportBase TransportInv TransportConn TransportCalls TransportReturn TransportThm TransportThm2 TransportThm3
  TransportBg TransportBgThm TransportBgThm2 TransportBgThm3 TransportBgThm4 TransportMore TransportMore2 TransportWire TransportOrder.
From Coq Require Import Lia ZifyBool ZifyNat ZifyN.
Open Scope N_scope.

(** ** Reads *)
Lemma timed_deqs dl n0 t o n1 e1 n2 e2 ms :
  timed dl ([(n0, EvInvoke t o); (n1, e1); (n2, e2)] ++ deqs t ms) -> dl = last (map fst ms) n2 + 10000.
Proof.
  intros (_&cur&x&E&->). f_equal. destruct ms as [|(n3,m) ms _] using rev_ind.
  - cbn [deqs map app last] in *. change [(n0, EvInvoke t o); (n1, e1); (n2, e2)] with ([(n0, EvInvoke t o); (n1, e1)] ++ [(n2, e2)]) in E.
    apply app_inj_tail in E. destruct E as (_&<-). reflexivity.
  - unfold deqs in E. rewrite map_app, app_assoc in E. apply app_inj_tail in E. destruct E as (_&<-).
    rewrite map_app. cbn. rewrite last_last. reflexivity.
Qed.
Lemma read_returns c start ls tr s p n t a r q :
  exec c start ls tr s -> Forall bytes (arrived tr) -> tr = p ++ (n, EvRet t (ORead a) r) :: q ->
  exists body, in_call t (ORead a) p body /\ read_outcome t a p n r body.
Proof.
  intros H Hb E. destruct (ret_hist _ _ _ _ _ _ _ _ _ _ _ H E) as (h&cur&tr0&s0&e1&Ec&Hc&Hh&Hs&H0&Ep&->).
  assert (B : forall x y, In (x, EvDeq t y) (cur ++ stamp (s_now s0) e1) -> bytes (ce_service y)).
  { intros x y Hy. eapply taken_service; [exact H|exact Hb|]. rewrite E. apply in_or_app. left.
    assert (In (x, EvDeq t y) (call_events t p)) as Hi by (rewrite Ec; apply in_or_app; right; exact Hy).
    unfold call_events in Hi. apply filter_In in Hi. apply Hi. }
  assert (S : forall ms : list (N * cemi), (forall x y, In (x, y) ms -> bytes (ce_service y)) -> Forall (skip_read a) (map snd ms) -> Forall (not_for a) (map snd ms)).
  { intros ms Hm Hf. rewrite Forall_forall in *. intros y Hy. specialize (Hf y Hy). apply in_map_iff in Hy. destruct Hy as ((x&y')&Ey&Hy).
    cbn in Ey. subst y'. intro Hi. destruct (Hf Hi) as (j&J1&J2). exists j. split; [|exact J2]. apply indication_iff; [|exact J1]. exact (Hm _ _ Hy). }
  inversion Hs; subst; match goal with G : s_clients s0 t = _ |- _ => rewrite G in Hh; cbn [hist] in Hh end;
    cbn [read_outcome stamp map] in *; rewrite ?app_nil_r in *.
  - destruct Hh as (_&_&(n0&->)). exists []. split; [|auto]. exists h, n0. split; [exact Ec|apply quiet_nil].
  - destruct Hh as (_&_&(n0&n1&->)). exists [(n1, EvSeq t seq)]. split; [|eauto]. exists h, n0. split; [exact Ec|]. quiet.
  - destruct Hh as (D&_). discriminate D.
  - destruct Hh as (D&_). discriminate D.
  - destruct (tunnel_ready_shape _ _ _ _ _ _ Hh eq_refl) as (n0&n1&seq&->).
    eexists. split; [exists h, n0; split; [exact Ec|]|eauto 8].
    apply (quiet_app t [_] [_]); apply quiet_one; try reflexivity; discriminate.
  - match goal with G : (exists a, _) \/ _ |- _ => destruct G as [(?&G)|(?&?&?&G)]; discriminate G end.
  - destruct Hh as (cur0&ms&Hse&->&Hsk&_). destruct (tunnel_sent_shape _ _ _ _ _ Hse eq_refl) as (n0&n1&seq&n2&d&->).
    exists ([(n1, EvSeq t seq); (n2, EvSend (Cl t) d)] ++ deqs t ms). split; [exists h, n0; split; [exact Ec|quiet]|].
    exists n1, seq, n2, d, ms. split; [reflexivity|]. split.
    + apply S; [|exact Hsk]. intros x y Hy. apply (B x). apply in_or_app. right. apply in_takes. exact Hy.
    + split; [|eapply bg_gone_events; eauto].
      destruct (queue_inv _ _ _ _ _ H0) as [Q _]. match goal with G : s_rxq s0 = [] |- _ => rewrite G in Q end.
      rewrite app_nil_r in Q. exact Q.
  - destruct Hh as (cur0&ms&Hse&->&Hsk&Ht). destruct (tunnel_sent_shape _ _ _ _ _ Hse eq_refl) as (n0&n1&seq&n2&d&->).
    exists ([(n1, EvSeq t seq); (n2, EvSend (Cl t) d)] ++ deqs t ms). split; [exists h, n0; split; [exact Ec|quiet]|].
    exists n1, seq, n2, d, ms. split; [reflexivity|]. split.
    + apply S; [|exact Hsk]. intros x y Hy. apply (B x). apply in_or_app. right. apply in_takes. exact Hy.
    + rewrite (timed_deqs _ _ _ _ _ _ _ _ _ Ht) in *. assumption.
  - destruct Hh as (cur0&ms&Hse&->&Hsk&_). destruct (tunnel_sent_shape _ _ _ _ _ Hse eq_refl) as (n0&n1&seq&n2&d&->).
    exists ([(n1, EvSeq t seq); (n2, EvSend (Cl t) d)] ++ deqs t ms ++ [(s_now s0, EvDeq t m)]). split.
    { exists h, n0. split; [rewrite Ec, <- app_assoc; reflexivity|quiet]. }
    exists n1, seq, n2, d, ms, (s_now s0), m, i. rewrite takes_app. split; [reflexivity|]. split.
    + apply S; [|exact Hsk]. intros x y Hy. apply (B x). apply in_or_app. left. apply in_or_app. right. apply in_takes. exact Hy.
    + split; [assumption|]. split; [|auto]. apply indication_iff; [|assumption]. apply (B (s_now s0)). apply in_or_app. right. left. reflexivity.
  - destruct Hh as (cur0&ms&Hse&->&Hsk&_). destruct (tunnel_sent_shape _ _ _ _ _ Hse eq_refl) as (n0&n1&seq&n2&d&->).
    exists ([(n1, EvSeq t seq); (n2, EvSend (Cl t) d)] ++ deqs t ms ++ [(s_now s0, EvDeq t m)]). split.
    { exists h, n0. split; [rewrite Ec, <- app_assoc; reflexivity|quiet]. }
    exists n1, seq, n2, d, ms, (s_now s0), m. rewrite takes_app. split; [reflexivity|]. split.
    + apply S; [|exact Hsk]. intros x y Hy. apply (B x). apply in_or_app. left. apply in_or_app. right. apply in_takes. exact Hy.
    + split; [assumption|]. apply no_indication_iff. assumption.
Qed.
(** What a read does with a message. *)
Lemma deq_read c s l s' e1 e2 t m a dl :
  step c s l = Some (s', e1 ++ EvDeq t m :: e2) -> s_clients s t = CWaitQ (ORead a) dl ->
  (ce_code m <> 0x29 /\ e2 = []) \/
  (ce_code m = 0x29 /\ match ldata_ind_from_cemi m with
                       | Ok i => if ld_dest (li_data i) =? addr_to_u16 a then e2 = [EvRet t (ORead a) (RBytes (li_value i))] else e2 = []
                       | _ => e2 = [EvRet t (ORead a) (RErr EBadCemi)]
                       end).
Proof.
  intros Hs Hp. destruct (deq_cases _ _ _ _ _ _ _ _ Hs) as (->&Hl&o&dl'&q&Hp'&Hq&_). rewrite Hp in Hp'. injection Hp' as <- <-.
  cbn [app] in Hs. destruct l; try discriminate Hl; injection Hl as ->; cbn [step] in Hs; destruct (s_rx_alive s); try discriminate Hs;
    unfold invoke, cl_step, cl_sock_err, cl_timeout, cl_dbg, cl_cancel in Hs; rewrite Hp in Hs; cbn [pc_op] in Hs; try discriminate Hs.
  - rewrite Hq in Hs. unfold on_message in Hs. change code_LDataCon with 0x2e in Hs. change code_LDataInd with 0x29 in Hs.
    destruct (N.eqb_spec (ce_code m) 0x2e) as [E|E].
    + left. injection Hs as _ <-. split; [rewrite E; discriminate|reflexivity].
    + destruct (N.eqb_spec (ce_code m) 0x29) as [E'|E'].
      * right. split; [exact E'|]. destruct (ldata_ind_from_cemi m) as [i| |].
        -- destruct (ld_dest (li_data i) =? addr_to_u16 a); injection Hs as _ <-; reflexivity.
        -- injection Hs as _ <-. reflexivity.
        -- injection Hs as _ <-. reflexivity.
      * left. injection Hs as _ <-. auto.
  - destruct (dl <=? s_now s); discriminate Hs.
Qed.
Lemma read_message c start ls tr s p n t a m q body :
  exec c start ls tr s -> Forall bytes (arrived tr) -> tr = p ++ (n, EvDeq t m) :: q -> in_call t (ORead a) p body ->
  (forall i, is_ind m -> indication_of m i -> ld_dest (li_data i) = addr_to_u16 a ->
     exists q', q = (n, EvRet t (ORead a) (RBytes (li_value i))) :: q') /\
  (is_ind m -> (length (ce_service m) < 9)%nat -> exists q', q = (n, EvRet t (ORead a) (RErr EBadCemi)) :: q').
Proof.
  intros H Hb E I. assert (Hsv : bytes (ce_service m)).
  { eapply (taken_service _ _ _ _ _ t m n H Hb). rewrite E. apply in_mid. }
  destruct (exec_split _ _ _ _ _ _ _ _ _ H E) as (tr0&s0&l&s1&e1&e2&H0&Hs&->&Ep&_&q'&->&_).
  destruct (deq_cases _ _ _ _ _ _ _ _ Hs) as (->&_&o&dl&qq&Hp&_). cbn [stamp map] in Ep. rewrite app_nil_r in Ep. subst p.
  destruct (in_call_pc _ _ _ _ _ _ _ _ H0 I) as (G&_). rewrite Hp in G. injection G as ->.
  pose proof (deq_read _ _ _ _ _ _ _ _ _ _ Hs Hp) as D. split.
  - intros i Hi Hj Hd. apply indication_iff in Hj; [|exact Hsv]. destruct D as [(D&_)|(_&D)]; [contradiction|].
    rewrite Hj, Hd, N.eqb_refl in D. subst e2. exists q'. reflexivity.
  - intros Hi Hj. apply ldata_ind_err_iff in Hj. destruct D as [(D&_)|(_&D)]; [contradiction|]. rewrite Hj in D. subst e2. exists q'. reflexivity.
Qed.

(** ** A call that waits with nothing queued gets what is queued later *)
Lemma fresh_deq c start ls tr s p d q n t o v r n0 n3 m z :
  exec c start ls tr s ->
  tr = p ++ (n0, EvSend (Cl t) d) :: q ++ (n, EvRet t o v) :: r ->
  call_events t (p ++ (n0, EvSend (Cl t) d) :: q) = z ++ [(n3, EvDeq t m)] ->
  queued p = taken p -> In m (queued q) /\ In m (taken q).
Proof.
  intros H E Ec He.
  change ((n0, EvSend (Cl t) d) :: q ++ (n, EvRet t o v) :: r)
    with (((n0, EvSend (Cl t) d) :: q) ++ (n, EvRet t o v) :: r) in E. rewrite app_assoc in E.
  assert (M : In (n3, EvDeq t m) (call_events t q)).
  { rewrite call_events_app in Ec. cbn [call_events filter snd call_event] in Ec. rewrite Nat.eqb_refl in Ec.
    fold (call_events t q) in Ec. destruct (call_events t q) as [|y w] using rev_ind.
    - exfalso. apply app_inj_tail in Ec. destruct Ec as (_&D). discriminate D.
    - rewrite app_comm_cons, app_assoc in Ec. apply app_inj_tail in Ec. destruct Ec as (_&->). apply in_or_app. right. left. reflexivity. }
  assert (Mq : In (n3, EvDeq t m) q) by (unfold call_events in M; apply filter_In in M; tauto).
  assert (Mt : In m (taken q)) by (unfold taken; apply in_flat_map; eexists; split; [exact Mq|left; reflexivity]).
  split; [|exact Mt].
  destruct (exec_split _ _ _ _ _ _ _ _ _ H E) as (tr0&s0&l&s1&e1&e2&H0&Hs&_&Ep&_).
  assert (exists s2, exec c start ls (tr0 ++ stamp (s_now s0) (e1 ++ EvRet t o v :: e2)) s2) as (s2&H2)
    by (eexists; econstructor; eassumption).
  destruct (queue_inv _ _ _ _ _ H2) as (Q&_).
  rewrite stamp_app, app_assoc, <- Ep, queued_app, taken_app in Q.
  rewrite (queued_app p), (taken_app p) in Q. rewrite He in Q.
  change (queued ((n0, EvSend (Cl t) d) :: q)) with (queued q) in Q.
  change (taken ((n0, EvSend (Cl t) d) :: q)) with (taken q) in Q.
  assert (Z : queued (stamp (s_now s0) (EvRet t o v :: e2)) = []).
  { assert (Hl : bg_label l = false).
    { destruct (bg_label l) eqn:Hl; [|reflexivity]. destruct (bg_frame _ _ _ _ _ Hs Hl) as (_&_&_&_&F).
      rewrite forallb_app in F. apply andb_prop in F. destruct F as (_&F). discriminate F. }
    rewrite queued_bg, bg_events_stamp. pose proof (step_bg_events _ _ _ _ _ Hs Hl) as F. rewrite filter_app in F.
    apply app_eq_nil in F. destruct F as (_&->). reflexivity. }
  rewrite Z, app_nil_r, <- !app_assoc in Q. apply app_inv_head in Q. rewrite Q. apply in_or_app. auto.
Qed.
Lemma fresh_write c start ls tr s p d q n t a v b r n0 :
  exec c start ls tr s ->
  tr = p ++ (n0, EvSend (Cl t) d) :: q ++ (n, EvRet t (OWrite a v b) RUnit) :: r ->
  queued p = taken p -> exists m, In m (queued q) /\ In m (taken q) /\ is_con m.
Proof.
  intros H E He. pose proof E as E0.
  change ((n0, EvSend (Cl t) d) :: q ++ (n, EvRet t (OWrite a v b) RUnit) :: r)
    with (((n0, EvSend (Cl t) d) :: q) ++ (n, EvRet t (OWrite a v b) RUnit) :: r) in E. rewrite app_assoc in E.
  destruct (write_returns _ _ _ _ _ _ _ _ _ _ _ _ _ H E) as (body&(h&ni&Ec&_)&n1&seq&n2&d'&n3&m&->&Hm).
  exists m. assert (X : forall x y z w : N * event, h ++ x :: [y; z; w] = (h ++ [x; y; z]) ++ [w]) by (intros; rewrite <- app_assoc; reflexivity).
  rewrite X in Ec. destruct (fresh_deq _ _ _ _ _ _ _ _ _ _ _ _ _ _ _ _ _ H E0 Ec He). auto.
Qed.

(** ** Delivery looks neither at the channel nor at the sequence number *)
Lemma delivered_anyway c s d t m :
  idle_at s -> bytes d -> looks_like (recv_buffer d) (RTunReq t) -> run_on (cemi_from_packet (c_prof c)) (tr_cemi t) = Ok m ->
  s_rx_alive s = true -> (length (s_rxq s) < 100)%nat ->
  run c s [LArrive d; LBg true; LBg true; LBg true] =
    Some (set_rxq s (s_rxq s ++ [m]),
          [(s_now s, EvArrive d); (s_now s, EvBgRecv d); (s_now s, EvSend Bg (ack_datagram (tr_chan t) (tr_seq t))); (s_now s, EvEnq m)]).
Proof.
  intros (Hb&Hi) Hd Hl Hm Ha Hq. rewrite <- ackp_eq. apply (dispatch_of _ _ Hd) in Hl.
  apply Nat.ltb_lt in Hq.
  unfold run, step, bg_step, channel_cap, after_ack. destruct s. cbn in *. subst. cbn. rewrite Hl. cbn. rewrite Hm. cbn. rewrite Hq. reflexivity.
Qed.
(** No message is queued more often than datagrams carrying it were received. *)
Lemma sublist_filter A (f : A -> bool) (a b : list A) : sublist a b -> (length (filter f a) <= length (filter f b))%nat.
Proof. induction 1; cbn; [lia| |]; destruct (f x); cbn; lia. Qed.

(** ** Why a connection is given up *)
Lemma clear_step c start ls tr s l s' es :
  exec c start ls tr s -> step c s l = Some (s', es) -> no_recv_error l = true -> Forall bytes (arrived tr) ->
  (s_bg s = BClear -> gives_up (negb (s_rx_alive s)) (bg_events tr)) ->
  s_bg s' = BClear -> gives_up (negb (s_rx_alive s')) (bg_events (tr ++ stamp (s_now s) es)).
Proof.
  intros H Hs Hn Hb IH Hc. rewrite bg_events_app, bg_events_stamp. destruct (bg_label l) eqn:Hl.
  - rewrite (step_bg_events_all _ _ _ _ _ Hs Hl). pose proof (bg_hist _ _ _ _ _ H) as Hh.
    pose proof (conn_inv _ _ _ _ _ H) as Hci.
    destruct (bg_frame _ _ _ _ _ Hs Hl) as (_&Ea&_). rewrite Ea.
    assert (R : forall h (x : list event), rev h = x -> h = rev x) by (intros h x <-; symmetry; apply rev_involutive).
    destruct l; try discriminate Hl; try discriminate Hn; inv_step Hs; sys; cbn [s_bg set_bg set_conn set_rxq set_inbox set_hb set_listener set_onconn] in Hc; try discriminate Hc;
      repeat match goal with E : s_bg s = _ |- _ => rewrite E in *; clear E end; cbn [bg_ok] in Hh;
      try (destruct (s_conn s); discriminate Hc); try (destruct (c_mode c); discriminate Hc).
    + left. match goal with E : s_inbox s = ?x :: _ |- _ => rename x into d; pose proof E as Ei end.
      exists (bg_events tr), d. rewrite Hc. split; [reflexivity|].
      assert (Bd : bytes d).
      { pose proof (inbox_inv _ _ _ _ _ H) as I. rewrite Ei in I. rewrite I in Hb. apply Forall_app in Hb. destruct Hb as (_&Hb).
        inversion Hb; assumption. }
      pose proof (dispatch_spec d Bd) as D. rewrite Hc in D. destruct D as [D|D]; [left; exact D|]. right.
      split; [intros ->; discriminate Hc|]. split; [exact D|]. intros size chan seq pad rest Hlt Er.
      assert (P : parse_response (recv_buffer d) = Panic) by (apply parse_response_panic_iff; [apply recv_buffer_bytes, Bd|eauto 8]).
      unfold dispatch in Hc. rewrite P in Hc. destruct d; discriminate Hc.
    + exfalso. exact (after_ack_shape _ _ _ Hc).
    + destruct Hh as (d&h'&E&_). apply R in E. right. left. exists (rev h'), d, chan, seq. rewrite E. cbn [rev]. rewrite <- app_assoc. reflexivity.
    + right. right. right. right. split; [reflexivity|].
      destruct Hh as (d&ch&seq&bs&h'&E&Hd&_). apply R in E. cbn [rev] in E. rewrite <- app_assoc in E. cbn [app] in E. rewrite app_nil_r.
      assert (Bd : bytes d) by (eapply bgrecv_bytes; [exact H|exact Hb|rewrite E; apply in_or_app; right; left; reflexivity]).
      pose proof (dispatch_spec d Bd) as D. rewrite Hd in D. destruct D as (t&L&<-&<-&_).
      exists (rev h'), d, t. rewrite E, ackp_eq. auto.
    + destruct Hh as (h'&[E|(m&E)]); apply R in E; cbn [rev] in E.
      * right. right. left. match goal with |- context [connstate_request_packet {| sq_chan := ?a; sq_endpoint := ?b |}] => exists (rev h'), (statep a b) end. rewrite E, <- app_assoc. split; [reflexivity|apply service_state].
      * right. right. right. left. match goal with |- context [connstate_request_packet {| sq_chan := ?a; sq_endpoint := ?b |}] => exists (rev h'), m, (statep a b) end. rewrite E, <- !app_assoc. split; [reflexivity|apply service_state].
    + exfalso. cbn [connecting] in Hci. intuition discriminate.
  - rewrite (step_bg_events _ _ _ _ _ Hs Hl), app_nil_r.
    destruct (call_label l) as [t|] eqn:Hcl.
    + destruct (call_frame _ _ _ _ _ _ Hs Hcl) as (_&E1&E3&E2&_). rewrite E2 in Hc. rewrite E1 in IH. rewrite E3. auto.
    + destruct (env_frame _ _ _ _ _ Hs Hl Hcl) as (_&_&E&_). rewrite E in Hc. specialize (IH Hc).
      destruct (s_rx_alive s) eqn:Ea.
      * unfold gives_up in *. destruct IH as [X|[X|[X|[X|(D&_)]]]]; auto. discriminate D.
      * destruct l; try discriminate Hl; try discriminate Hcl; inv_step Hs; sys; rewrite ?Ea; exact IH.
Qed.

Lemma clear_inv c start ls sched : forall s tr,
  run c (init_sys start ls) sched = Some (s, tr) -> forallb no_recv_error sched = true -> Forall bytes (arrived tr) ->
  s_bg s = BClear -> gives_up (negb (s_rx_alive s)) (bg_events tr).
Proof.
  induction sched as [|l sched IH] using rev_ind; intros s tr R Hf Hb Hc.
  - cbn in R. injection R as <- <-. discriminate Hc.
  - rewrite run_app in R. destruct (run c (init_sys start ls) sched) as [[s1 t1]|] eqn:R1; [|discriminate R].
    cbn [run] in R. destruct (step c s1 l) as [[s2 es]|] eqn:Es; [|discriminate R]. injection R as <- <-. rewrite app_nil_r in *.
    rewrite forallb_app in Hf. apply andb_prop in Hf. destruct Hf as (Hf&Hl). cbn in Hl. rewrite andb_true_r in Hl.
    assert (Hb0 : Forall bytes (arrived t1)) by (rewrite arrived_app in Hb; apply Forall_app in Hb; tauto).
    eapply clear_step; try eassumption.
    + apply run_exec in R1. exact R1.
    + intro Hc1. exact (IH _ _ eq_refl Hf Hb0 Hc1).
Qed.
Lemma run_split c s0 sched s tr p n e q :
  run c s0 sched = Some (s, tr) -> tr = p ++ (n, e) :: q ->
  exists a l b s1 t1 s2 e1 e2 q', sched = a ++ l :: b /\ run c s0 a = Some (s1, t1) /\ step c s1 l = Some (s2, e1 ++ e :: e2) /\
    n = s_now s1 /\ p = t1 ++ stamp (s_now s1) e1 /\ run c s2 b = Some (s, q') /\ q = stamp (s_now s1) e2 ++ q'.
Proof.
  revert s0 tr p. induction sched as [|l sched IH]; intros s0 tr p R E.
  - cbn in R. injection R as <- <-. destruct p; discriminate E.
  - cbn in R. destruct (step c s0 l) as [[s1 es]|] eqn:Es; [|discriminate R].
    destruct (run c s1 sched) as [[s2 tr2]|] eqn:R2; [|discriminate R]. injection R as <- <-.
    destruct (Nat.lt_ge_cases (length p) (length es)) as [L|L].
    + exists [], l, sched, s0, [], s1.
      assert (X : forall (a b c d : trace) y, a ++ b = c ++ y :: d -> (length c < length a)%nat -> exists d', a = c ++ y :: d' /\ d = d' ++ b).
      { clear. induction a as [|x a IH]; intros b c d y E L; [cbn in L; lia|]. destruct c as [|z c].
        - injection E as -> <-. exists a. auto.
        - injection E as -> E. destruct (IH _ _ _ _ E) as (d'&->&->); [cbn in L; lia|]. exists d'. auto. }
      destruct (X _ _ _ _ _ E) as (d'&E1&->); [unfold stamp; rewrite map_length; exact L|].
      assert (Y : forall (f : event -> N * event) (es : list event) c (y : N * event) d, map f es = c ++ y :: d ->
                exists c' y' d', es = c' ++ y' :: d' /\ c = map f c' /\ y = f y' /\ d = map f d').
      { clear. induction es as [|x es IH]; intros c y d E; [destruct c; discriminate E|]. destruct c as [|z c].
        - injection E as <- <-. exists [], x, es. auto.
        - injection E as <- E. destruct (IH _ _ _ E) as (c'&y'&d''&->&->&->&->). exists (x :: c'), y', d''. auto. }
      destruct (Y _ _ _ _ _ E1) as (c'&y'&d''&->&->&Ey&->). injection Ey as -> <-.
      exists c', d'', tr2. repeat split; auto.
    + assert (X : exists p', p = stamp (s_now s0) es ++ p' /\ tr2 = p' ++ (n, e) :: q).
      { clear - E L. revert p E L. induction es as [|x es IH]; intros p E L; [exists p; auto|].
        destruct p as [|y p]; [cbn in L; lia|]. injection E as <- E. destruct (IH p E) as (p'&->&->); [cbn in L; lia|]. exists p'. auto. }
      destruct X as (p'&->&->).
      destruct (IH _ _ _ R2 eq_refl) as (a&l'&b&s3&t1&s4&e1&e2&q'&->&R1&Es'&->&->&Rb&->).
      exists (l :: a), l', b, s3, (stamp (s_now s0) es ++ t1), s4, e1, e2, q'. repeat split; auto.
      * cbn [run]. rewrite Es, R1. reflexivity.
      * rewrite app_assoc. reflexivity.
Qed.
Lemma alive_back c s l s' es : step c s l = Some (s', es) -> s_rx_alive s' = true -> s_rx_alive s = true.
Proof.
  intros Hs Ha. destruct (bg_label l) eqn:Hl; [destruct (bg_frame _ _ _ _ _ Hs Hl) as (_&E&_); congruence|].
  destruct (call_label l) as [t|] eqn:Hc; [apply (call_frame _ _ _ _ _ _ Hs Hc)|].
  destruct l; try discriminate Hl; try discriminate Hc; inv_step Hs; sysb_in Ha; try exact Ha; discriminate Ha.
Qed.
Lemma alive_back_run c sched : forall s s' tr, run c s sched = Some (s', tr) -> s_rx_alive s' = true -> s_rx_alive s = true.
Proof.
  induction sched as [|l sched IH]; intros s s' tr R Ha; cbn in R; [injection R as <- <-; exact Ha|].
  destruct (step c s l) as [[s1 es]|] eqn:Es; [|discriminate R]. destruct (run c s1 sched) as [[s2 t2]|] eqn:R2; [|discriminate R].
  injection R as <- <-. eapply alive_back; [exact Es|]. eapply IH; eassumption.
Qed.
Lemma step_cleared c s l s' e1 e2 : step c s l = Some (s', e1 ++ EvCleared :: e2) -> e1 = [] /\ e2 = [] /\ s_bg s = BClear.
Proof.
  intro Hs. remember (e1 ++ EvCleared :: e2) as es eqn:E.
  destruct l; inv_step Hs; try (destruct e1 as [|? [|? [|]]]; discriminate E);
    try (match type of E with context [stop_events ?b] => destruct b end; destruct e1 as [|? [|? [|]]]; discriminate E).
  destruct e1 as [|? [|? [|]]]; try discriminate E. injection E as <-. auto.
Qed.
Lemma cleared_reason c start ls sched s tr p n q :
  run c (init_sys start ls) sched = Some (s, tr) -> forallb no_recv_error sched = true -> Forall bytes (arrived tr) ->
  tr = p ++ (n, EvCleared) :: q -> gives_up (negb (s_rx_alive s)) (bg_events p).
Proof.
  intros R Hf Hb E. destruct (run_split _ _ _ _ _ _ _ _ _ R E) as (a&l&b&s1&t1&s2&e1&e2&q'&->&R1&Es&->&->&Rb&->).
  destruct (step_cleared _ _ _ _ _ _ Es) as (->&->&Hc). cbn [stamp map] in *. rewrite app_nil_r in *.
  rewrite forallb_app in Hf. apply andb_prop in Hf. destruct Hf as (Hf&_).
  assert (Hb0 : Forall bytes (arrived t1)) by (rewrite E, arrived_app in Hb; apply Forall_app in Hb; tauto).
  pose proof (clear_inv _ _ _ _ _ _ R1 Hf Hb0 Hc) as G. destruct (s_rx_alive s) eqn:Ea.
  - assert (s_rx_alive s1 = true) as A by (eapply alive_back; [exact Es|]; eapply alive_back_run; eassumption).
    rewrite A in G. exact G.
  - unfold gives_up in *. destruct G as [X|[X|[X|[X|(_&X)]]]]; auto 6.
Qed.

(** ** The task keeps running *)
Lemma keeps_running c start ls tr s :
  exec c start ls tr s -> Forall bytes (arrived tr) -> Forall (harmless (c_prof c)) (received tr) -> ~ task_stopped tr.
Proof.
  intros H Hb Hr Hst.
  assert (R : forall d, In (EvBgRecv d) (bg_events tr) -> harmless (c_prof c) d).
  { intros d Hd. rewrite Forall_forall in Hr. apply Hr. rewrite received_bg. apply in_flat_map. exists (EvBgRecv d). split; [exact Hd|left; reflexivity]. }
  destruct Hst as [Hst|Hst]; (apply in_bg_events in Hst; [|reflexivity]; apply in_split in Hst; destruct Hst as (a&b&E);
    pose proof (stop_reason _ _ _ _ _ _ _ _ H Hb E) as S; cbn in S).
  - destruct S as (_&a'&d&r&->&L). destruct (R d) as (R1&_); [rewrite E; apply in_or_app; left; apply in_mid|]. exact (R1 _ L).
  - destruct S as (_&a'&d&[(->&size&chan&seq&pad&rest&L&Er)|(Hp&t&->&L&O)]).
    + destruct (R d) as (_&R2&_); [rewrite E; apply in_or_app; left; apply in_mid|]. exact (R2 _ _ _ _ _ L Er).
    + destruct (R d) as (_&_&R3); [rewrite E; apply in_or_app; left; apply in_mid|]. exact (R3 Hp _ L O).
Qed.

Lemma delivered_twice c s d t m :
  idle_at s -> bytes d -> looks_like (recv_buffer d) (RTunReq t) -> run_on (cemi_from_packet (c_prof c)) (tr_cemi t) = Ok m ->
  s_rx_alive s = true -> (length (s_rxq s) < 99)%nat ->
  exists tr, run c s ([LArrive d; LBg true; LBg true; LBg true] ++ [LArrive d; LBg true; LBg true; LBg true]) =
    Some (set_rxq s (s_rxq s ++ [m; m]), tr) /\ queued tr = [m; m].
Proof.
  intros Hi Hd Hl Hm Ha Hq.
  assert (I2 : idle_at (set_rxq s (s_rxq s ++ [m]))) by (destruct s; exact Hi).
  eexists. split.
  - rewrite run_app, (delivered_anyway c s d t m) by (assumption || lia).
    rewrite (delivered_anyway c (set_rxq s (s_rxq s ++ [m])) d t m).
    + cbn [s_rxq set_rxq s_now]. rewrite <- app_assoc. reflexivity.
    + exact I2.
    + exact Hd.
    + exact Hl.
    + exact Hm.
    + exact Ha.
    + cbn [s_rxq set_rxq]. rewrite app_length. cbn [length]. lia.
  - reflexivity.
Qed.
