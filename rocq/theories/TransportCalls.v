(** What every API call does between its invocation and its end. *)
From Verif Require Import Base Addresses Apdu Tunneling Emi Core Transport Wire Spec TraceSpec
  TransportBase TransportInv TransportConn.
From Coq Require Import Lia ZifyBool ZifyNat ZifyN.
Open Scope N_scope.

(** Calls that send a tunnelling request, and those that send something else. *)
Definition tunnel_op (o : op) : bool :=
  match o with ORead _ | OWrite _ _ _ | OSolicit _ | OMWrite _ _ _ => true | _ => false end.
Definition direct_op (o : op) : bool :=
  match o with OStatus | ODisconnect | OMDisconnect => true | _ => false end.
Definition request (c : cfg) (o : op) (ch seq : N) (bs : list N) : Prop :=
  exists pkt, op_cemi (c_prof c) o = Ok pkt /\
    tunneling_request_packet (c_prof c) {| tr_chan := ch; tr_seq := seq; tr_cemi := pkt |} = Ok bs.
Definition direct (o : op) (ch : N) (ep : hpai) : list N :=
  match o with
  | OStatus => connstate_request_packet {| sq_chan := ch; sq_endpoint := ep |}
  | _ => disconnect_request_packet {| dq_chan := ch; dq_endpoint := ep |}
  end.
(** Messages skipped by a read of address [a], and by next_msg. *)
Definition skip_read (a : knx_address) (m : cemi) : Prop :=
  ce_code m = 0x29 -> exists i, ldata_ind_from_cemi m = Ok i /\ ld_dest (li_data i) <> addr_to_u16 a.
Definition skip_next (m : cemi) : Prop := ce_code m <> 0x29 /\ ce_code m <> 0x2b.

Definition opened (t : nat) (o : op) (cur : trace) : Prop := exists n, cur = [(n, EvInvoke t o)].
Definition numbered (t : nat) (o : op) (seq : N) (cur : trace) : Prop :=
  exists n n1, cur = [(n, EvInvoke t o); (n1, EvSeq t seq)].
Definition ready (c : cfg) (tr : trace) (t : nat) (o : op) (bs : list N) (cur : trace) : Prop :=
  (tunnel_op o = true /\ exists ch ep seq, granted tr ch ep /\ request c o ch seq bs /\ numbered t o seq cur) \/
  (direct_op o = true /\ exists ch ep ch' ep', granted tr ch ep' /\ granted tr ch' ep /\ bs = direct o ch ep /\ opened t o cur).
Definition sent (c : cfg) (tr : trace) (t : nat) (o : op) (cur : trace) : Prop :=
  exists cur0 n bs, ready c tr t o bs cur0 /\ cur = cur0 ++ [(n, EvSend (Cl t) bs)].
Definition deqs (t : nat) (ms : list (N * cemi)) : trace := map (fun x => (fst x, EvDeq t (snd x))) ms.
Definition timed (dl : N) (cur : trace) : Prop :=
  Forall (fun x => fst x + 10000 <= dl) cur /\ exists cur' x, cur = cur' ++ [x] /\ dl = fst x + 10000.

Definition hist (c : cfg) (tr : trace) (t : nat) (pc : client_pc) (cur : trace) : Prop :=
  match pc with
  | CIdle => cur = []
  | CLock o => opened t o cur
  | CSeq o pkt => tunnel_op o = true /\ op_cemi (c_prof c) o = Ok pkt /\ opened t o cur
  | CChan o pkt seq => tunnel_op o = true /\ op_cemi (c_prof c) o = Ok pkt /\ numbered t o seq cur
  | CChan2 o => direct_op o = true /\ opened t o cur
  | CEp o ch => direct_op o = true /\ (exists ep, granted tr ch ep) /\ opened t o cur
  | CSend o bs => ready c tr t o bs cur
  | CWaitQ o dl =>
      match o with
      | ORead a => exists cur0 ms, sent c tr t o cur0 /\ cur = cur0 ++ deqs t ms /\
                     Forall (skip_read a) (map snd ms) /\ timed dl cur
      | OWrite _ _ _ => sent c tr t o cur /\ timed dl cur
      | ODisconnect => sent c tr t o cur
      | ONextMsg => exists cur0 ms, opened t o cur0 /\ cur = cur0 ++ deqs t ms /\ Forall skip_next (map snd ms)
      | _ => False
      end
  | CWaitSock o => (o = OStatus \/ o = OMDisconnect) /\ sent c tr t o cur
  | CConnChk => opened t OIsConnected cur
  | CAddL l => opened t (OAddListener l) cur
  end.

Lemma ready_app c tr tr' t o bs cur : ready c tr t o bs cur -> ready c (tr ++ tr') t o bs cur.
Proof.
  intros [[H (ch&ep&seq&G&X)]|[H (ch&ep&ch'&ep'&G&G'&X)]]; [left|right]; (split; [exact H|]).
  - exists ch, ep, seq. auto using granted_app.
  - exists ch, ep, ch', ep'. auto using granted_app.
Qed.
Lemma sent_app c tr tr' t o cur : sent c tr t o cur -> sent c (tr ++ tr') t o cur.
Proof. intros (cur0&n&bs&H&X). exists cur0, n, bs. auto using ready_app. Qed.
Lemma hist_app c tr tr' t pc cur : hist c tr t pc cur -> hist c (tr ++ tr') t pc cur.
Proof.
  destruct pc as [|o|o ?|o ? ?|o|o ch|o bs|o dl|o| |]; cbn; auto using ready_app.
  - intros (H&(ep&G)&X). eauto 6 using granted_app.
  - destruct o; auto using sent_app.
    + intros (cur0&ms&H&X). eauto using sent_app.
    + intros (H&X). auto using sent_app.
  - intros (H&X). auto using sent_app.
Qed.

Definition closed (t : nat) (h : trace) : Prop :=
  h = [] \/ exists h' x, h = h' ++ [x] /\ call_end t (snd x) = true.

(** A call step, seen from the state before it: it continues, or it ends. *)
Definition continues (c : cfg) (tr : trace) (s : sys) (t : nat) (s' : sys) (es : list event) : Prop :=
  forall cur, Forall (fun x => fst x <= s_now s) cur -> hist c tr t (s_clients s t) cur ->
    hist c (tr ++ stamp (s_now s) es) t (s_clients s' t) (cur ++ stamp (s_now s) es).
Definition ends (t : nat) (s' : sys) (es : list event) : Prop :=
  s_clients s' t = CIdle /\ exists es' e, es = es' ++ [e] /\ call_end t e = true.

Lemma timed_new now cur : Forall (fun x : N * event => fst x <= now) cur -> forall e, timed (now + ms_api) (cur ++ [(now, e)]).
Proof.
  intros H e. unfold timed, ms_api. split.
  - apply Forall_app. split; [eapply Forall_impl, H; cbn; intros; lia|]. constructor; [cbn; lia|constructor].
  - exists cur, (now, e). auto.
Qed.

Lemma sent_new c tr tr' t o bs cur n :
  ready c tr t o bs cur -> sent c (tr ++ tr') t o (cur ++ [(n, EvSend (Cl t) bs)]).
Proof. intro H. exists cur, n, bs. auto using ready_app. Qed.
Lemma read_more c tr tr' t a (cur : trace) n m now :
  (exists cur0 ms, sent c tr t (ORead a) cur0 /\ cur = cur0 ++ deqs t ms /\ Forall (skip_read a) (map snd ms) /\ timed n cur) ->
  Forall (fun x => fst x <= now) cur -> skip_read a m ->
  exists cur0 ms, sent c (tr ++ tr') t (ORead a) cur0 /\ cur ++ [(now, EvDeq t m)] = cur0 ++ deqs t ms /\
    Forall (skip_read a) (map snd ms) /\ timed (now + ms_api) (cur ++ [(now, EvDeq t m)]).
Proof.
  intros (cur0&ms&H1&->&H3&_) Hle Hm. exists cur0, (ms ++ [(now, m)]). split; [auto using sent_app|].
  split; [unfold deqs; rewrite map_app, app_assoc; reflexivity|]. split; [|apply timed_new; exact Hle].
  rewrite map_app. apply Forall_app. split; [exact H3|]. repeat constructor. exact Hm.
Qed.
Lemma next_more t (cur : trace) m now :
  (exists cur0 ms, opened t ONextMsg cur0 /\ cur = cur0 ++ deqs t ms /\ Forall skip_next (map snd ms)) ->
  skip_next m ->
  exists cur0 ms, opened t ONextMsg cur0 /\ cur ++ [(now, EvDeq t m)] = cur0 ++ deqs t ms /\
    Forall skip_next (map snd ms).
Proof.
  intros (cur0&ms&H1&->&H3) Hm. exists cur0, (ms ++ [(now, m)]). split; [exact H1|].
  split; [unfold deqs; rewrite map_app, app_assoc; reflexivity|].
  rewrite map_app. apply Forall_app. split; [exact H3|]. repeat constructor; apply Hm.
Qed.

Lemma call_hist c start ls tr s l s' es t :
  exec c start ls tr s -> step c s l = Some (s', es) -> call_label l = Some t ->
  continues c tr s t s' es \/ ends t s' es.
Proof.
  intros H Hs Hl.
  pose proof (proj2 (granted_inv _ _ _ _ _ H)) as Hg. clear H.
  destruct l; try discriminate Hl; injection Hl as ->; inv_step Hs;
    try (right; split; [sys; apply upd_same|]; first
      [ exists []; eexists; split; [reflexivity|cbn; apply Nat.eqb_refl]
      | eexists [_]; eexists; split; [reflexivity|cbn; apply Nat.eqb_refl] ]; fail).
  all: try (right; split; [sys; assumption|]; eexists [_]; eexists; split; [reflexivity|cbn; apply Nat.eqb_refl]; fail).
  all: left; intros cur Hle Hh; unfold continues; sys; rewrite upd_same; cbn [stamp map];
    rewrite ?app_nil_r;
    match goal with E : s_clients _ _ = _ |- _ => rewrite ?E in Hh; try clear E end; cbn [hist] in *.
  all: try (match goal with |- opened _ _ _ => idtac end; subst; eexists; reflexivity).
  all: try (repeat split; try assumption; fail).
  - exists cur, []. repeat split; [exact Hh|symmetry; apply app_nil_r|constructor].
  - (* sequence number *)
    destruct Hh as (H1&H2&(n&->)). repeat split; auto. eexists _, _. reflexivity.
  - (* channel *)
    destruct Hh as (H1&H2&H3). left. split; [assumption|]. eexists _, _, _.
    repeat split; [eapply Hg; first [eassumption|reflexivity]|eexists; split; eassumption|exact H3].
  - destruct Hh as (H1&H2). eauto 6.
  - destruct Hh as (H1&_); discriminate H1.
  - destruct Hh as (H1&_); discriminate H1.
  - destruct Hh as (H1&(ep&H2)&H3). right. split; [reflexivity|]. eexists _, _, _, _.
    repeat split; [exact H2|eapply Hg; first [eassumption|reflexivity]|exact H3].
  - destruct Hh as (H1&(ep&H2)&H3). right. split; [reflexivity|]. eexists _, _, _, _.
    repeat split; [exact H2|eapply Hg; first [eassumption|reflexivity]|exact H3].
  - destruct Hh as (H1&_); discriminate H1.
  - destruct Hh as (H1&_); discriminate H1.
  - destruct Hh as (H1&_); discriminate H1.
  - destruct Hh as (H1&(ep&H2)&H3). right. split; [reflexivity|]. eexists _, _, _, _.
    repeat split; [exact H2|eapply Hg; first [eassumption|reflexivity]|exact H3].
  - destruct Hh as (H1&_); discriminate H1.
  - destruct Hh as (H1&_); discriminate H1.
  - exists (cur ++ [(s_now s, EvSend (Cl t) pkt)]), [].
    repeat split; [apply sent_new; exact Hh|symmetry; apply app_nil_r|constructor|apply timed_new; exact Hle..].
  - split; [apply sent_new; exact Hh|apply timed_new; exact Hle].
  - split; [auto|apply sent_new; exact Hh].
  - apply sent_new; exact Hh.
  - split; [auto|apply sent_new; exact Hh].
  - eapply read_more; [exact Hh|exact Hle|]. intro E. apply N.eqb_eq in Heqb0. rewrite E in Heqb0. discriminate.
  - eapply read_more; [exact Hh|exact Hle|]. intros _. eexists. split; [eassumption|]. apply N.eqb_neq. assumption.
  - eapply read_more; [exact Hh|exact Hle|]. intro E. apply N.eqb_neq in Heqb1. destruct (Heqb1 E).
  - eapply next_more; [exact Hh|]. apply N.eqb_eq in Heqb0. split; rewrite Heqb0; discriminate.
  - eapply next_more; [exact Hh|]. apply Bool.orb_false_iff in Heqb1. rewrite !N.eqb_neq in Heqb1. exact Heqb1.
Qed.

Lemma hist_inv c start ls tr s :
  exec c start ls tr s -> forall t, exists h cur,
    call_events t tr = h ++ cur /\ closed t h /\ hist c tr t (s_clients s t) cur.
Proof.
  intro H. pattern tr, s. revert tr s H. apply exec_inv.
  - intro t. exists [], []. repeat split. left. reflexivity.
  - intros tr s l s' es H IH Hs t. destruct (IH t) as (h&cur&E&Hc&Hh). rewrite call_events_app, call_events_stamp.
    assert (D : call_label l = Some t \/ call_label l <> Some t).
    { destruct (call_label l) as [u|]; [destruct (Nat.eq_dec u t); [left|right]; congruence|right; discriminate]. }
    destruct D as [D|D].
    + rewrite (step_call_events_all _ _ _ _ _ _ Hs D).
      destruct (call_hist _ _ _ _ _ _ _ _ _ H Hs D) as [G|(G&es'&e&->&He)].
      * exists h, (cur ++ stamp (s_now s) es). rewrite E, app_assoc. repeat split; auto. apply G; [|exact Hh].
        assert (F : Forall (fun x => fst x <= s_now s) (call_events t tr)).
        { pose proof (stamp_inv _ _ _ _ _ H) as F. rewrite Forall_forall in *. intros x Hx.
          apply F. unfold call_events in Hx. apply filter_In in Hx. apply Hx. }
        rewrite E in F. apply Forall_app in F. apply F.
      * exists (call_events t tr ++ stamp (s_now s) (es' ++ [e])), []. rewrite app_nil_r. repeat split.
        -- right. exists (call_events t tr ++ stamp (s_now s) es'), (s_now s, e).
           rewrite stamp_app, app_assoc. auto.
        -- rewrite G. reflexivity.
    + rewrite (step_call_events _ _ _ _ _ _ Hs D). cbn [stamp map]. rewrite app_nil_r.
      assert (s_clients s' t = s_clients s t) as ->.
      { destruct (bg_label l) eqn:Hb; [destruct (bg_frame _ _ _ _ _ Hs Hb) as (_&_&_&->&_); reflexivity|].
        destruct (call_label l) as [u|] eqn:Hl.
        - apply (call_frame _ _ _ _ _ _ Hs Hl). congruence.
        - destruct (env_frame _ _ _ _ _ Hs Hb Hl) as (_&_&_&_&_&->&_). reflexivity. }
      exists h, cur. auto using hist_app.
Qed.

(** ** How calls return *)
Inductive ret_shape (c : cfg) (s : sys) (t : nat) : op -> api_result -> list event -> Prop :=
| rs_seq o pkt : s_clients s t = CSeq o pkt -> s_conn s = None -> ret_shape c s t o (RErr EDisconnected) []
| rs_chan o pkt seq : s_clients s t = CChan o pkt seq -> s_conn s = None -> ret_shape c s t o (RErr EDisconnected) []
| rs_chan2 o : s_clients s t = CChan2 o -> s_conn s = None -> ret_shape c s t o (RErr EDisconnected) []
| rs_ep o ch : s_clients s t = CEp o ch -> s_conn s = None -> ret_shape c s t o (RErr EDisconnected) []
| rs_dbg bs : s_clients s t = CSend ODisconnect bs -> s_conn s = None ->
    ret_shape c s t ODisconnect (RErr EDisconnected) []
| rs_sendfail o bs : s_clients s t = CSend o bs -> tunnel_op o = true \/ o = OStatus ->
    ret_shape c s t o (RErr ESend) [EvSendFail (Cl t) bs]
| rs_sent o bs : s_clients s t = CSend o bs -> ((exists a, o = OSolicit a) \/ (exists a v b, o = OMWrite a v b)) ->
    ret_shape c s t o RUnit [EvSend (Cl t) bs]
| rs_closed o dl : s_clients s t = CWaitQ o dl -> s_rxq s = [] -> bg_gone s = true ->
    ret_shape c s t o (RErr EClosed) []
| rs_timeout o dl : s_clients s t = CWaitQ o dl -> dl <= s_now s ->
    ((exists a, o = ORead a) \/ (exists a v b, o = OWrite a v b)) -> ret_shape c s t o (RErr ETimeout) []
| rs_read a dl m q i : s_clients s t = CWaitQ (ORead a) dl -> s_rxq s = m :: q -> ce_code m = 0x29 ->
    ldata_ind_from_cemi m = Ok i -> ld_dest (li_data i) = addr_to_u16 a ->
    ret_shape c s t (ORead a) (RBytes (li_value i)) [EvDeq t m]
| rs_read_bad a dl m q : s_clients s t = CWaitQ (ORead a) dl -> s_rxq s = m :: q -> ce_code m = 0x29 ->
    (forall i, ldata_ind_from_cemi m <> Ok i) ->
    ret_shape c s t (ORead a) (RErr EBadCemi) [EvDeq t m]
| rs_write a v b dl m q : s_clients s t = CWaitQ (OWrite a v b) dl -> s_rxq s = m :: q -> ce_code m = 0x2e ->
    ret_shape c s t (OWrite a v b) RUnit [EvDeq t m]
| rs_write_bad a v b dl m q : s_clients s t = CWaitQ (OWrite a v b) dl -> s_rxq s = m :: q -> ce_code m <> 0x2e ->
    ret_shape c s t (OWrite a v b) (RErr EUnexpected) [EvDeq t m]
| rs_disc dl m q : s_clients s t = CWaitQ ODisconnect dl -> s_rxq s = m :: q ->
    ret_shape c s t ODisconnect RUnit [EvDeq t m]
| rs_next dl m q i : s_clients s t = CWaitQ ONextMsg dl -> s_rxq s = m :: q ->
    ce_code m = 0x29 \/ ce_code m = 0x2b -> ldata_ind_from_cemi m = Ok i ->
    ret_shape c s t ONextMsg (RInd i) [EvDeq t m]
| rs_next_bad dl m q : s_clients s t = CWaitQ ONextMsg dl -> s_rxq s = m :: q ->
    ce_code m = 0x29 \/ ce_code m = 0x2b -> (forall i, ldata_ind_from_cemi m <> Ok i) ->
    ret_shape c s t ONextMsg (RErr EBadCemi) [EvDeq t m]
| rs_status d q r : s_clients s t = CWaitSock OStatus -> s_inbox s = d :: q ->
    run_on connstate_response_from_packet (recv_buffer d) = Ok r -> ret_shape c s t OStatus (RStatus r) [EvClRecv t d]
| rs_status_bad d q : s_clients s t = CWaitSock OStatus -> s_inbox s = d :: q ->
    (forall r, run_on connstate_response_from_packet (recv_buffer d) <> Ok r) ->
    ret_shape c s t OStatus (RErr EParse) [EvClRecv t d]
| rs_mdisc d q r : s_clients s t = CWaitSock OMDisconnect -> s_inbox s = d :: q ->
    run_on disconnect_response_from_packet (recv_buffer d) = Ok r ->
    ret_shape c s t OMDisconnect (RU8 (ds_status r)) [EvClRecv t d]
| rs_mdisc_bad d q : s_clients s t = CWaitSock OMDisconnect -> s_inbox s = d :: q ->
    (forall r, run_on disconnect_response_from_packet (recv_buffer d) <> Ok r) ->
    ret_shape c s t OMDisconnect (RErr EParse) [EvClRecv t d]
| rs_sockerr : s_clients s t = CWaitSock OStatus -> ret_shape c s t OStatus (RErr ERecv) []
| rs_isconn : s_clients s t = CConnChk -> cd_locked s = false ->
    ret_shape c s t OIsConnected (RBool (match s_conn s with Some _ => true | None => false end)) []
| rs_add l : s_clients s t = CAddL l -> cd_locked s = false -> ret_shape c s t (OAddListener l) RUnit [].

Lemma one_last A (x y : A) (p q : list A) : [x] = p ++ y :: q -> p = [] /\ x = y /\ q = [].
Proof. destruct p as [|z [|]]; cbn; intro E; try discriminate E. injection E as -> <-. auto. Qed.
Lemma two_last A (x y z : A) (p q : list A) : [x; y] = p ++ z :: q -> (p = [] /\ x = z /\ q = [y]) \/ (p = [x] /\ y = z /\ q = []).
Proof.
  destruct p as [|w [|w' p]]; cbn; intro E; try discriminate E.
  - injection E as -> <-. auto.
  - injection E as -> -> <-. auto.
  - destruct p; discriminate E.
Qed.

Lemma ret_cases c s l s' e1 e2 t o r :
  step c s l = Some (s', e1 ++ EvRet t o r :: e2) -> e2 = [] /\ call_label l = Some t /\ ret_shape c s t o r e1.
Proof.
  intro Hs. remember (e1 ++ EvRet t o r :: e2) as es eqn:E.
  destruct l; inv_step Hs; cbn [app] in E;
    try (destruct e1; discriminate E);
    try (apply one_last in E; destruct E as (->&E&->); try discriminate E; injection E as -> <- <-; cbn [call_label]);
    try (apply two_last in E; destruct E as [(->&E&->)|(->&E&->)]; try discriminate E; injection E as -> <- <-; cbn [call_label]).
  all: try (destruct e1 as [|? [|? e1]]; cbn in E; try discriminate E;
            match type of E with context [stop_events ?b] => destruct b; try discriminate E; destruct e1; discriminate E end).
  all: (split; [reflexivity|]; split; [reflexivity|]).
  all: try (econstructor; eauto; fail).
  all: repeat match goal with
    | E : (_ =? _) = true |- _ => apply N.eqb_eq in E
    | E : (_ =? _) = false |- _ => apply N.eqb_neq in E
    | E : (_ <=? _) = true |- _ => apply N.leb_le in E
    | E : (_ || _)%bool = true |- _ => apply Bool.orb_true_iff in E; rewrite !N.eqb_eq in E
    end.
  all: try (eapply rs_read; eauto; fail).
  all: try (eapply rs_read_bad; eauto; intros; congruence).
  all: try (eapply rs_write; eauto; fail).
  all: try (eapply rs_write_bad; eauto; fail).
  all: try (eapply rs_next; eauto; fail).
  all: try (eapply rs_next_bad; eauto; intros; congruence).
  all: try (eapply rs_status_bad; eauto; intros; congruence).
  all: try (eapply rs_mdisc_bad; eauto; intros; congruence).
  all: try (eapply rs_timeout; eauto 6; fail).
  all: match goal with E : s_conn ?x = _, E1 : cd_locked ?x = false, E2 : s_clients ?x ?u = _ |- _ =>
         pose proof (rs_isconn c x u E2 E1) as G; rewrite E in G; exact G end.
Qed.

Lemma ret_hist c start ls tr s p n t o r q :
  exec c start ls tr s -> tr = p ++ (n, EvRet t o r) :: q ->
  exists h cur tr0 s0 e1,
    call_events t p = h ++ cur ++ stamp n e1 /\ closed t h /\ hist c tr0 t (s_clients s0 t) cur /\
    ret_shape c s0 t o r e1 /\ exec c start ls tr0 s0 /\ p = tr0 ++ stamp n e1 /\ n = s_now s0.
Proof.
  intros H E. destruct (exec_split _ _ _ _ _ _ _ _ _ H E) as (tr0&s0&l&s1&e1&e2&H0&Hs&->&->&_).
  destruct (ret_cases _ _ _ _ _ _ _ _ _ Hs) as (->&Hl&Hr).
  destruct (hist_inv _ _ _ _ _ H0 t) as (h&cur&E0&Hc&Hh).
  exists h, cur, tr0, s0, e1. repeat split; auto.
  rewrite call_events_app, call_events_stamp, E0.
  pose proof (step_call_events_all _ _ _ _ _ _ Hs Hl) as F. rewrite filter_app in F.
  pose proof (call_frame _ _ _ _ _ _ Hs Hl) as (_&_&_&_&_&_&_&G). rewrite forallb_app in G.
  apply andb_prop in G. destruct G as [G _]. rewrite (filter_all _ _ _ G), <- app_assoc. reflexivity.
Qed.
