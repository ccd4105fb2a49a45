(** The errors of the transport calls say what happened. *)
From Coq Require Import Lia ZifyBool ZifyNat ZifyN.
From Verif Require Import Base Addresses Apdu Tunneling Emi Core Search Transport Wire Spec TraceSpec TraceSpec2 SearchSpec
  BaseProofs CoreProofs EmiProofs CodecMore TransportBase TransportInv TransportCalls TransportThm TransportThm2 TransportThm3 TransportReads TransportRecover TransportReturn TransportBgThm TransportMore TransportMore2 TransportBgThm
  Messages Messages2 Messages3 MsgSpec MsgSpec2 MsgView MsgView2 MessageProofs MessageProofs2 CauseSpec TransportRuns.
Open Scope N_scope.

(** ** Texts of the decoders *)
Definition garbled {A} (x : mres A) : Prop := forall t, text_in x = Some t -> cause_of t = Garbled.
Lemma garbled_bind A B (m : mparser A) (f : A -> mparser B) b : garbled (m b) -> (forall a r, garbled (f a r)) -> garbled (mbind m f b).
Proof. intros H K t. unfold mbind. destruct (m b) as [[a r]|u|]; [apply K|intro E; exact (H t E)|discriminate]. Qed.
Lemma garbled_read A (p : parser A) (t : string) b : cause_of t = Garbled -> garbled (mread p t b).
Proof. intros H u. unfold mread. destruct (p b) as [[a r]| |]; try discriminate. intro E. injection E as <-. exact H. Qed.
Lemma garbled_ensure x (t : string) b : cause_of t = Garbled -> garbled (mensure x t b).
Proof. intros H u. unfold mensure. destruct x; try discriminate. intro E. injection E as <-. exact H. Qed.
Lemma garbled_ret A (a : A) b : garbled (mret a b).
Proof. intros t E. discriminate E. Qed.
Ltac garbled_tac := repeat first
  [ apply garbled_ret | apply garbled_read; reflexivity | apply garbled_ensure; reflexivity
  | apply garbled_bind; [|intros] ].
Lemma state_garbled b : garbled (m_connstate_response b).
Proof. unfold m_connstate_response, m_u8, m_u16. garbled_tac. Qed.
Lemma ind_garbled c b : garbled (m_ldata_ind c b).
Proof.
  intros t E. pose proof (ind_text c b) as H. unfold text_of in H. unfold text_in in E. rewrite E in H.
  destruct (first_missing ldata_fields (List.length b)) as [w|]; [|discriminate H]. injection H as ->. reflexivity.
Qed.
Lemma ind_fails m : (forall i, ldata_ind_from_cemi m <> Ok i) -> exists t, text_in (m_ldata_ind m (ce_service m)) = Some t /\ (List.length (ce_service m) < 9)%nat.
Proof.
  intro H. pose proof (same_ldata_ind m) as S. pose proof (ind_text m (ce_service m)) as T. unfold text_of in T. unfold text_in.
  destruct (m_ldata_ind m (ce_service m)) as [[i r]|t|] eqn:E.
  - cbn in S. exfalso. exact (H i (eq_sym S)).
  - exists t. split; [reflexivity|]. apply ldata_ind_err_iff. exact (eq_sym S).
  - exfalso. cbn in S. symmetry in S.  exact (ldata_ind_np m S).
Qed.

Lemma state_fails b : (forall r, run_on connstate_response_from_packet b <> Ok r) -> exists t, text_in (m_connstate_response b) = Some t.
Proof.
  intro H. destruct same_all as (_&_&_&_&S&_). specialize (S b). unfold text_in. unfold run_on in H.
  destruct (m_connstate_response b) as [[r rest]|t|]; cbn in S; rewrite <- S in H.
  - exfalso. exact (H r eq_refl).
  - eauto.
  - exfalso. exact (np_connstate_response b (eq_sym S)).
Qed.
Lemma disc_fails b : (forall r, run_on disconnect_response_from_packet b <> Ok r) -> exists t, text_in (m_disconnect_response b) = Some t.
Proof.
  intro H. destruct same_all as (_&_&_&_&_&_&S&_). specialize (S b). unfold text_in. unfold run_on in H.
  destruct (m_disconnect_response b) as [[r rest]|t|]; cbn in S; rewrite <- S in H.
  - exfalso. exact (H r eq_refl).
  - eauto.
  - exfalso. exact (np_disconnect_response b (eq_sym S)).
Qed.

(** ** The text of every error *)
(** Why the step [l] from [s], with the events [e1] before it, ends the call [o] with
    this message (as [tunnel_req] and the rest of the call make it). *)
Inductive why (s : sys) (t : nat) (o : op) (l : label) : list event -> string -> Prop :=
| w_conn x : s_conn s = None -> why s t o l [] ("Disconnected from knx device, " ++ x)
| w_send bs x : why s t o l [EvSendFail (Cl t) bs] ("Unable to send " ++ x)
| w_time dl x : s_clients s t = CWaitQ o dl -> dl <= s_now s -> (exists a, o = ORead a) \/ (exists a v b, o = OWrite a v b) ->
    x = "Request timed out"%string \/ x = "Write request timed out"%string -> why s t o l [] x
| w_closed x : s_rxq s = [] -> bg_gone s = true -> closed_text o = Some x -> why s t o l [] x
| w_code m q : s_rxq s = m :: q -> ce_code m <> 0x2e -> why s t o l [EvDeq t m] ("Unknown cEMI message code " ++ show_dec (ce_code m))
| w_sock x : l = LSockErr t -> why s t o l [] ("Connectionstate not responded " ++ x)
| w_ind m x : ce_code m = 0x29 \/ ce_code m = 0x2b -> (List.length (ce_service m) < 9)%nat ->
    text_in (m_ldata_ind m (ce_service m)) = Some x -> why s t o l [EvDeq t m] x
| w_state d x : o = OStatus -> (forall r, run_on connstate_response_from_packet (recv_buffer d) <> Ok r) ->
    text_in (m_connstate_response (recv_buffer d)) = Some x -> why s t o l [EvClRecv t d] x
| w_disc d x : o = OMDisconnect -> (forall r, run_on disconnect_response_from_packet (recv_buffer d) <> Ok r) ->
    why s t o l [EvClRecv t d] ("Unable to request disconnection for id " ++ x).

Ltac says w := exists w; split; [reflexivity|].
Lemma error_text_why os dbg id c start ls tr s l s' e1 e2 t o e :
  exec c start ls tr s -> step c s l = Some (s', e1 ++ EvRet t o (RErr e) :: e2) ->
  exists x, call_text os dbg id s l = passed_on dbg o x /\ why s t o l e1 x.
Proof.
  intros H Hs. destruct (ret_cases _ _ _ _ _ _ _ _ _ Hs) as (->&Hl&Hr).
  destruct (hist_inv _ _ _ _ _ H t) as (h&cur&_&_&Hh).
  inversion Hr; subst; match goal with G : s_clients s t = _ |- _ => rename G into Hp; rewrite Hp in Hh; cbn [hist] in Hh end;
    try match goal with G : s_conn s = None |- _ => rename G into Hn end;
    try match goal with G : s_rxq s = _ |- _ => rename G into Hq end;
    try match goal with G : s_inbox s = _ |- _ => rename G into Hi end.
  all: destruct l; try discriminate Hl; injection Hl as ->; cbn [step] in Hs; destruct (s_rx_alive s); try discriminate Hs;
    unfold cl_step, cl_sock_err, cl_timeout, cl_dbg, cl_cancel, invoke in Hs; rewrite Hp in Hs; cbn [pc_op] in Hs; try discriminate Hs;
    cbn [call_text]; rewrite ?Hp, ?Hn, ?Hq, ?Hi; try rewrite Hq in Hs; try rewrite Hi in Hs;
    unfold finish, crash, goto in Hs; cbn [app] in Hs.
  - says ("Disconnected from knx device, " ++ "NR")%string. apply w_conn, Hn.
  - says ("Disconnected from knx device, " ++ "ID")%string. apply w_conn, Hn.
  - destruct Hh as (D&_). exists ("Disconnected from knx device, " ++ "ID")%string.
    split; [destruct o; try discriminate D; reflexivity|]. apply w_conn, Hn.
  - destruct Hh as (D&_). exists ("Disconnected from knx device, " ++ "HPAI")%string.
    split; [destruct o; try discriminate D; reflexivity|]. apply w_conn, Hn.
  - destruct ok; discriminate Hs.
  - says ("Disconnected from knx device, " ++ "ID")%string. apply w_conn, Hn.
  - destruct ok; [destruct o; discriminate Hs|].
    assert (exists w, (if tunnel_op o then "request " ++ os else "connection state request " ++ os)%string = w) as (w&Ew) by eauto.
    exists ("Unable to send " ++ w)%string. split; [|apply w_send]. subst w. destruct o; try discriminate Hs; reflexivity.
  - destruct o; try discriminate Hs. destruct (s_conn s); discriminate Hs.
  - match goal with G : bg_gone s = true |- _ => rename G into Hg end. rewrite Hg.
    assert (C : exists x, closed_text o = Some x /\ passed_on dbg o x = Some x) by (destruct o; try contradiction Hh; eexists; split; reflexivity).
    destruct C as (x&C1&C2). exists x. rewrite C1, C2. split; [reflexivity|]. apply w_closed; assumption.
  - destruct o; try discriminate Hs; destruct (_ <=? _); discriminate Hs.
  - destruct (s_rxq s) as [|m q].
    + destruct (bg_gone s); discriminate Hs.
    + unfold on_message, finish, goto in Hs. match goal with G : (exists a, _) \/ _ |- _ => destruct G as [(?&->)|(?&?&?&->)] end.
      * destruct (_ =? _); [discriminate Hs|]. destruct (_ =? _); [|discriminate Hs].
        destruct (ldata_ind_from_cemi m); [destruct (_ =? _)| |]; discriminate Hs.
      * destruct (_ =? _); discriminate Hs.
  - match goal with G : (exists a, _) \/ _ |- _ => destruct G as [(?&->)|(?&?&?&->)] end.
    + says "Request timed out"%string. eapply w_time; eauto.
    + says "Write request timed out"%string. eapply w_time; eauto 6.
  - match goal with G : ce_code m = _ |- _ => rename G into C end.
    match goal with G : forall i, _ <> _ |- _ => destruct (ind_fails m G) as (x&X&L) end.
    exists x. unfold message_text. rewrite C. cbn [N.eqb]. split; [exact X|]. apply w_ind; auto.
  - destruct (_ <=? _); discriminate Hs.
  - match goal with G : ce_code m <> _ |- _ => rename G into C end. eexists. split; [|eapply w_code; [exact Hq|exact C]].
    unfold message_text, code_LDataCon. apply N.eqb_neq in C. rewrite C. reflexivity.
  - destruct (_ <=? _); discriminate Hs.
  - match goal with G : ce_code m = _ \/ _ |- _ => rename G into C end.
    match goal with G : forall i, _ <> _ |- _ => destruct (ind_fails m G) as (x&X&L) end.
    exists x. split; [|apply w_ind; auto]. unfold message_text. destruct C as [C|C]; rewrite C; exact X.
  - match goal with G : forall r, _ <> _ |- _ => destruct (state_fails _ G) as (x&X); exists x; rewrite X; split; [reflexivity|apply w_state; auto] end.
  - match goal with G : forall r, _ <> _ |- _ => destruct (disc_fails _ G) as (x&X); rewrite X; eexists; split; [reflexivity|apply w_disc; auto] end.
  - destruct (s_inbox s) as [|d q]; [discriminate Hs|]. unfold on_datagram, finish in Hs. discriminate Hs.
  - says ("Connectionstate not responded " ++ os)%string. apply w_sock; reflexivity.
Qed.

(** ** What the text says is what happened *)
Lemma queued_code c start ls tr s m :
  exec c start ls tr s -> Forall bytes (arrived tr) -> In m (queued tr) -> ce_code m < 256.
Proof.
  intros H Hb Hi. unfold queued in Hi. apply in_flat_map in Hi. destruct Hi as ((n&e)&Hi&He). cbn in He.
  destruct e; try contradiction. destruct He as [->|[]].
  assert (I : In (EvEnq m) (bg_events tr)).
  { apply in_bg_events; [reflexivity|]. apply in_evs. eauto. }
  apply in_split in I. destruct I as (a&b&E). destruct (delivered _ _ _ _ _ _ _ _ H Hb E) as (a'&d&t&->&L&O).
  assert (B : bytes (tr_cemi t)).
  { eapply request_cemi_bytes; [|exact L]. eapply bgrecv_bytes; [exact H|exact Hb|].
    rewrite E. apply in_or_app. left. apply in_or_app. right. left. reflexivity. }
  destruct O as (size&k&O&_). 
  assert (B' : bytes (tr_cemi t ++ repeat 0 k)) by (apply bytes_app; split; [exact B|apply bytes_repeat0]).
  rewrite O in B'. inversion B'; subst. assumption.
Qed.
Lemma begins_app p q : begins p (p ++ q) = true.
Proof. unfold begins. induction p as [|c p IH]; [reflexivity|]. cbn. rewrite Ascii.eqb_refl. exact IH. Qed.
Lemma code_cause n : n < 256 -> cause_of ("Unknown cEMI message code " ++ show_dec n) = Unexpected n.
Proof.
  intro H. transitivity (match number_value 10 (show_dec n) 0 with Some k => Unexpected k | None => Garbled end); [reflexivity|].
  unfold show_dec. rewrite (digits_value false 10 ltac:(lia) 6 n "" (small_dec n ltac:(lia))). reflexivity.
Qed.
Lemma why_cause c start ls tr s l t o e1 x s' r :
  exec c start ls tr s -> Forall bytes (arrived tr) -> step c s l = Some (s', e1 ++ [EvRet t o r]) -> why s t o l e1 x ->
  is_cause t o l (tr ++ stamp (s_now s) e1) (s_now s) (cause_of x).
Proof.
  intros H Hb Hs W.
  destruct (hist_inv _ _ _ _ _ H t) as (h&cur&Ec&_&Hh).
  assert (Hx : exec c start ls (tr ++ stamp (s_now s) (e1 ++ [EvRet t o r])) s') by (econstructor; eauto).
  destruct W as [w C|bs w|dl w Hp Hd Ho Hw|w Q G C|m q Q C|w E|m w C L T|d w Eo F T|d w Eo F]; cbn [stamp map] in *; rewrite ?app_nil_r.
  - cbn. rewrite (connected_inv _ _ _ _ _ H), C. reflexivity.
  - cbn. eauto.
  - assert (A : is_cause t o l tr (s_now s) NoAnswer); [|destruct Hw as [->| ->]; exact A].
    rewrite Hp in Hh. destruct Ho as [(a&->)|(a&v&b&->)]; cbn [hist] in Hh.
    + destruct Hh as (cur0&ms&Hse&->&Hsk&Ht). destruct (tunnel_sent_shape _ _ _ _ _ Hse eq_refl) as (n0&n1&seq&n2&d&->).
      exists ([(n1, EvSeq t seq); (n2, EvSend (Cl t) d)] ++ deqs t ms), [(n1, EvSeq t seq)], n2, d, ms.
      split; [exists h, n0; split; [exact Ec|quiet]|]. split; [reflexivity|].
      rewrite (timed_deqs _ _ _ _ _ _ _ _ _ Ht) in *. assumption.
    + destruct Hh as (Hh&Ht). destruct (tunnel_sent_shape _ _ _ _ _ Hh eq_refl) as (n0&n1&seq&n2&d&->).
      exists ([(n1, EvSeq t seq); (n2, EvSend (Cl t) d)]), [(n1, EvSeq t seq)], n2, d, [].
      split; [exists h, n0; split; [exact Ec|]; apply (quiet_app t [_] [_]); apply quiet_one; try reflexivity; discriminate|]. split; [reflexivity|].
      destruct Ht as (Ht&_). inversion Ht; subst. inversion H3; subst. inversion H5; subst. cbn in *. lia.
  - assert (A : cause_of w = TaskGone) by (destruct o; try discriminate C; injection C as <-; reflexivity).
    rewrite A. split; [eapply bg_gone_events; eauto|]. destruct (queue_inv _ _ _ _ _ H) as (E&_). rewrite E, Q, app_nil_r. reflexivity.
  - rewrite code_cause; [exists tr, (s_now s), m; auto|]. eapply queued_code; [exact H|exact Hb|].
    destruct (queue_inv _ _ _ _ _ H) as (E&_). rewrite E, Q. apply in_or_app. right. left. reflexivity.
  - exact E.
  - rewrite (ind_garbled _ _ _ T). left. exists tr, (s_now s), m. split; [reflexivity|]. split; [exact C|exact L].
  - rewrite (state_garbled _ _ T). right. exists tr, (s_now s), d. split; [reflexivity|]. subst o. intros st K. apply state_reads in K; [exact (F st K)|].
    eapply (clrecv_bytes _ _ _ _ _ t (s_now s) d Hx); [|apply in_or_app; right; left; reflexivity].
    rewrite arrived_app. cbn. rewrite app_nil_r. exact Hb.
  - right. exists tr, (s_now s), d. split; [reflexivity|]. subst o. intros st K. apply disconnect_reads in K; [exact (F st K)|].
    eapply (clrecv_bytes _ _ _ _ _ t (s_now s) d Hx); [|apply in_or_app; right; left; reflexivity].
    rewrite arrived_app. cbn. rewrite app_nil_r. exact Hb.
Qed.

Lemma call_says os dbg id c start ls tr s l s' es t o e :
  exec c start ls tr s -> Forall bytes (arrived tr) -> step c s l = Some (s', es ++ [EvRet t o (RErr e)]) -> (forall a, o <> OSolicit a) ->
  exists x, call_text os dbg id s l = Some x /\ is_cause t o l (tr ++ stamp (s_now s) es) (s_now s) (cause_of x).
Proof.
  intros H Hb Hs Ho. destruct (error_text_why os dbg id _ _ _ _ _ _ _ _ _ _ _ _ H Hs) as (x&T&W).
  exists x. split; [|eapply why_cause; eauto]. rewrite T. destruct o; try reflexivity. exfalso. eapply Ho; reflexivity.
Qed.
Lemma solicit_says os dbg id c start ls tr s l s' es t a e :
  exec c start ls tr s -> Forall bytes (arrived tr) -> step c s l = Some (s', es ++ [EvRet t (OSolicit a) (RErr e)]) ->
  exists x, call_text os dbg id s l = Some ("Unable to send connection state request " ++ dbg x)%string /\
    is_cause t (OSolicit a) l (tr ++ stamp (s_now s) es) (s_now s) (cause_of x).
Proof.
  intros H Hb Hs. destruct (error_text_why os dbg id _ _ _ _ _ _ _ _ _ _ _ _ H Hs) as (x&T&W).
  exists x. split; [exact T|eapply why_cause; eauto].
Qed.

(** The text is given exactly for the steps that end a call with an error. *)
Lemma text_only os dbg id c start ls tr s l s' es x :
  exec c start ls tr s -> step c s l = Some (s', es) -> call_text os dbg id s l = Some x ->
  exists e1 t o e, es = e1 ++ [EvRet t o (RErr e)].
Proof.
  intros H Hs T.
  destruct l; try discriminate T; cbn [step] in Hs; destruct (s_rx_alive s); try discriminate Hs; cbn [call_text] in T.
  - destruct (hist_inv _ _ _ _ _ H t) as (h&cur&_&_&Hh). unfold cl_step in Hs.
    destruct (s_clients s t) as [|o|o pkt|o pkt seq|o|o ch|o bs|o dl|o| |] eqn:Hp; try discriminate T.
    + destruct (cd_locked s); [discriminate Hs|]. destruct (s_conn s); [discriminate T|]. injection Hs as _ <-. exists [], t, o, EDisconnected. reflexivity.
    + destruct (cd_locked s); [discriminate Hs|]. destruct (s_conn s); [discriminate T|]. injection Hs as _ <-. exists [], t, o, EDisconnected. reflexivity.
    + destruct (cd_locked s); [discriminate Hs|]. destruct (s_conn s); [discriminate T|]. injection Hs as _ <-. exists [], t, o, EDisconnected. reflexivity.
    + destruct (cd_locked s); [discriminate Hs|]. destruct (s_conn s); [discriminate T|]. injection Hs as _ <-. exists [], t, o, EDisconnected. reflexivity.
    + destruct ok; [discriminate T|]. destruct o; try discriminate T; injection Hs as _ <-; eexists [_], t, _, ESend; reflexivity.
    + destruct (s_rxq s) as [|m q].
      * destruct (bg_gone s); [|discriminate T]. injection Hs as _ <-. exists [], t, o, EClosed. reflexivity.
      * unfold on_message in Hs. unfold message_text in T. destruct o; try discriminate T.
        -- destruct (_ =? _); [discriminate T|]. destruct (_ =? _); [|discriminate T].
           pose proof (same_ldata_ind m) as S. unfold value_of in S. unfold text_in in T.
           destruct (m_ldata_ind m (ce_service m)) as [[i r]|y|]; try discriminate T. rewrite <- S in Hs.
           injection Hs as _ <-. eexists [_], t, _, EBadCemi; reflexivity.
        -- destruct (_ =? _); [discriminate T|]. injection Hs as _ <-. eexists [_], t, _, EUnexpected; reflexivity.
        -- destruct (_ =? _); [discriminate T|]. destruct (_ || _)%bool; [|discriminate T].
           pose proof (same_ldata_ind m) as S. unfold value_of in S. unfold text_in in T.
           destruct (m_ldata_ind m (ce_service m)) as [[i r]|y|]; try discriminate T. rewrite <- S in Hs.
           injection Hs as _ <-. eexists [_], t, _, EBadCemi; reflexivity.
    + destruct (s_inbox s) as [|d q]; [discriminate T|]. unfold on_datagram in Hs. destruct same_all as (_&_&_&_&S1&_&S2&_).
      destruct o; try discriminate T; unfold run_on in Hs.
      * specialize (S1 (recv_buffer d)). destruct (m_connstate_response (recv_buffer d)) as [[i r]|y|]; try discriminate T. cbn [erase] in S1. rewrite <- S1 in Hs.
        injection Hs as _ <-. eexists [_], t, _, EParse; reflexivity.
      * specialize (S2 (recv_buffer d)). destruct (m_disconnect_response (recv_buffer d)) as [[i r]|y|]; try discriminate T. cbn [erase] in S2. rewrite <- S2 in Hs.
        injection Hs as _ <-. eexists [_], t, _, EParse; reflexivity.
  - unfold cl_sock_err in Hs. destruct (s_clients s t); try discriminate T. destruct o; try discriminate T. injection Hs as _ <-. eexists [], t, _, ERecv; reflexivity.
  - unfold cl_timeout in Hs. destruct (s_clients s t); try discriminate T.
    destruct o; try discriminate T; (destruct (_ <=? _); [|discriminate Hs]); injection Hs as _ <-; eexists [], t, _, ETimeout; reflexivity.
  - unfold cl_dbg in Hs. destruct (s_conn s); [discriminate T|]. destruct (s_clients s t); try discriminate Hs. destruct o; try discriminate Hs.
    injection Hs as _ <-. eexists [], t, _, EDisconnected; reflexivity.
Qed.
Lemma text_iff os dbg id c start ls tr s l s' es :
  exec c start ls tr s -> step c s l = Some (s', es) ->
  ((exists x, call_text os dbg id s l = Some x) <-> exists e1 t o e, es = e1 ++ [EvRet t o (RErr e)]).
Proof.
  intros H Hs. split.
  - intros (x&T). eapply text_only; eauto.
  - intros (e1&t&o&e&->). destruct (error_text_why os dbg id _ _ _ _ _ _ _ _ _ _ _ _ H Hs) as (x&->&_). destruct o; eexists; reflexivity.
Qed.

(** ** Details *)
Lemma detail_field os dbg id c start ls tr s l s' t m o e :
  exec c start ls tr s -> step c s l = Some (s', [EvDeq t m; EvRet t o (RErr e)]) -> is_ind m \/ is_busmon m -> e <> EUnexpected ->
  exists w, first_missing ldata_fields (List.length (ce_service m)) = Some w /\ call_text os dbg id s l = Some (missing w).
Proof.
  intros H Hs Hm He. destruct (ret_cases _ _ _ _ [_] [] _ _ _ Hs) as (_&Hl&R).
  assert (K : forall i, ldata_ind_from_cemi m <> Ok i) by (inversion R; subst; try congruence; assumption).
  destruct (ind_fails m K) as (x&X&_). pose proof (ind_text m (ce_service m)) as I. unfold text_of in I. unfold text_in in X.
  rewrite X in I. destruct (first_missing _ _) as [w|]; [|discriminate I]. injection I as ->. exists w. split; [reflexivity|].
  inversion R; subst; try congruence; match goal with G : s_clients s t = _ |- _ => rename G into Hp end;
    match goal with G : s_rxq s = _ |- _ => rename G into Hq end;
    destruct l; try discriminate Hl; injection Hl as ->; cbn [step] in Hs; destruct (s_rx_alive s); try discriminate Hs;
    unfold cl_step, cl_sock_err, cl_timeout, cl_dbg, cl_cancel, invoke in Hs; rewrite Hp in Hs; cbn [pc_op] in Hs; try discriminate Hs;
    cbn [call_text]; rewrite ?Hp, ?Hq; unfold message_text.
  - match goal with G : ce_code m = _ |- _ => rewrite G end. exact X.
  - destruct (_ <=? _); discriminate Hs.
  - match goal with G : ce_code m = _ \/ _ |- _ => destruct G as [G|G]; rewrite G end; exact X.
Qed.
Lemma detail_status os dbg id c start ls tr s l s' t d e :
  exec c start ls tr s -> step c s l = Some (s', [EvClRecv t d; EvRet t OStatus (RErr e)]) ->
  exists x, call_text os dbg id s l = Some x /\ error_text GStateResponse (recv_buffer d) = Some x.
Proof.
  intros H Hs. destruct (error_text_why os dbg id _ _ _ _ _ _ _ [_] [] _ _ _ H Hs) as (x&T&W). exists x. split; [exact T|].
  inversion W; subst; [|discriminate]. assumption.
Qed.
Lemma detail_disconnect os dbg id c start ls tr s l s' t d e :
  exec c start ls tr s -> step c s l = Some (s', [EvClRecv t d; EvRet t OMDisconnect (RErr e)]) ->
  exists x, call_text os dbg id s l = Some ("Unable to request disconnection for id " ++ id ++ ", " ++ dbg x)%string /\ error_text GDisconnectResponse (recv_buffer d) = Some x.
Proof.
  intros H Hs. destruct (ret_cases _ _ _ _ [_] [] _ _ _ Hs) as (_&Hl&R). inversion R; subst.
  match goal with G : forall r, _ <> _ |- _ => destruct (disc_fails _ G) as (x&X) end. exists x. split; [|exact X].
  match goal with G : s_clients s t = _ |- _ => rename G into Hp end. match goal with G : s_inbox s = _ |- _ => rename G into Hi end.
  destruct l; try discriminate Hl; injection Hl as ->; cbn [step] in Hs; destruct (s_rx_alive s); try discriminate Hs;
    unfold cl_step, cl_sock_err, cl_timeout, cl_dbg, cl_cancel, invoke in Hs; rewrite Hp in Hs; cbn [pc_op] in Hs; try discriminate Hs;
    cbn [call_text]; rewrite ?Hp, ?Hi. rewrite X. reflexivity.
Qed.

(** ** Search *)
Definition sgarbled {A} (x : mres A) : Prop := forall t, text_in x = Some t -> search_cause_of t = BadResponse.
Lemma sgarbled_bind A B (m : mparser A) (f : A -> mparser B) b : (forall b, sgarbled (m b)) -> (forall a r, sgarbled (f a r)) -> sgarbled (mbind m f b).
Proof. intros H K t. unfold mbind. destruct (m b) as [[a r]|u|] eqn:E; [apply K|intro X; specialize (H b t); rewrite E in H; exact (H X)|discriminate]. Qed.
Lemma sgarbled_read A (p : parser A) (t : string) b : search_cause_of t = BadResponse -> sgarbled (mread p t b).
Proof. intros H u. unfold mread. destruct (p b) as [[a r]| |]; try discriminate. intro E. injection E as <-. exact H. Qed.
Lemma sgarbled_lift A (x : res A) (t : string) b : search_cause_of t = BadResponse -> sgarbled (mlift x t b).
Proof. intros H u. unfold mlift. destruct x; try discriminate. intro E. injection E as <-. exact H. Qed.
Lemma sgarbled_ensure x (t : string) b : search_cause_of t = BadResponse -> sgarbled (mensure x t b).
Proof. intros H u. unfold mensure. destruct x; try discriminate. intro E. injection E as <-. exact H. Qed.
Lemma sgarbled_ret A (a : A) b : sgarbled (mret a b).
Proof. intros t E. discriminate E. Qed.
Lemma sgarbled_err A (t : string) : search_cause_of t = BadResponse -> sgarbled (@MErr A t).
Proof. intros H u E. injection E as <-. exact H. Qed.
Ltac sgarbled_tac := repeat first
  [ apply sgarbled_ret | apply sgarbled_read; reflexivity | apply sgarbled_ensure; reflexivity | apply sgarbled_lift; reflexivity
  | apply sgarbled_err; reflexivity | apply sgarbled_bind; intros ].
Lemma list_sgarbled n : forall b, sgarbled (m_family_list n b).
Proof. induction n as [|n IH]; intro b; cbn [m_family_list]; unfold c_u8; sgarbled_tac. apply IH. Qed.
Lemma quads_sgarbled n : forall b, sgarbled (m_quads n b).
Proof. induction n as [|n IH]; intro b; cbn [m_quads]; unfold c_exact; sgarbled_tac. apply IH. Qed.
Lemma dib_sgarbled p b : sgarbled (m_dib p b).
Proof.
  unfold m_dib, c_u8. sgarbled_tac.
  match goal with |- sgarbled (match ?t with _ => _ end _) => destruct t end;
    unfold m_device_info, m_families, m_ip_config, m_ip_current, m_addresses, m_manufacturer, c_u8, c_u16, c_exact; sgarbled_tac;
    first [apply list_sgarbled | apply quads_sgarbled].
Qed.
Lemma response_sgarbled debug p b : sgarbled (m_search_response debug p b).
Proof.
  unfold m_search_response, m_header, m_hpai, m_u8, m_u16. sgarbled_tac; try apply dib_sgarbled.
  all: repeat first [apply dib_sgarbled | apply list_sgarbled | apply quads_sgarbled | progress sgarbled_tac | match goal with |- sgarbled (match ?t with _ => _ end _) => destruct t end].
Qed.
Lemma search_loop_same os debug p : forall evs buf acc, option_map erase (m_search_loop os debug p buf acc evs) = search_loop p buf acc evs.
Proof.
  induction evs as [|[d| |] evs IH]; intros buf acc; cbn [m_search_loop search_loop]; try reflexivity. cbv zeta.
  pose proof (same_search_response debug p (overwrite buf d)) as S. unfold run_on.
  destruct (m_search_response debug p (overwrite buf d)) as [[r rest]|t|]; cbn [erase] in S; rewrite <- S; [apply IH|reflexivity|reflexivity].
Qed.
Lemma search_call_same os debug p e : option_map erase (m_search_call os debug p e) = fst (search_call p e).
Proof.
  unfold m_search_call, search_call. destruct (negb (se_bind e)); [reflexivity|]. destruct (se_local e); try reflexivity.
  destruct (se_send e); [|reflexivity]. apply search_loop_same.
Qed.
Lemma search_loop_cause os debug p : forall evs buf acc t, m_search_loop os debug p buf acc evs = Some (MErr t) ->
  (exists a b, evs = a ++ SRecvErr :: b /\ search_loop p buf acc a = None /\ search_cause_of t = NotReceived) \/
  (exists a d b, evs = a ++ SRecv d :: b /\ search_loop p buf acc a = None /\ search_loop p buf acc (a ++ [SRecv d]) = Some Err /\ search_cause_of t = BadResponse).
Proof.
  induction evs as [|[d| |] evs IH]; intros buf acc t; cbn [m_search_loop]; try discriminate.
  - cbv zeta. pose proof (same_search_response debug p (overwrite buf d)) as S.
    pose proof (response_sgarbled debug p (overwrite buf d)) as G.
    destruct (m_search_response debug p (overwrite buf d)) as [[r rest]|u|]; cbn [erase] in S.
    + intro E. assert (R : run_on (search_response_from_packet p) (overwrite buf d) = Ok r) by (unfold run_on; rewrite <- S; reflexivity).
      destruct (IH _ _ _ E) as [(a&b&->&N&C)|(a&d'&b&->&N&F&C)].
      * left. exists (SRecv d :: a), b. split; [reflexivity|]. split; [|exact C]. cbn [search_loop app]. cbv zeta. rewrite R. exact N.
      * right. exists (SRecv d :: a), d', b. split; [reflexivity|]. cbn [search_loop app]. cbv zeta. rewrite R. auto.
    + intro E. injection E as <-. right. exists [], d, evs. split; [reflexivity|]. split; [reflexivity|]. split; [|exact (G u eq_refl)].
      cbn [search_loop app]. cbv zeta. unfold run_on. rewrite <- S. reflexivity.
    + discriminate.
  - intro E. injection E as <-. left. exists [], evs. repeat split.
Qed.
Lemma search_says os debug p e t : m_search_call os debug p e = Some (MErr t) -> is_search_cause p e (search_cause_of t).
Proof.
  unfold m_search_call. destruct (se_bind e) eqn:Eb; cbn [negb].
  2:{ intro E. injection E as <-. exact Eb. }
  destruct (se_local e) as [ip port| |] eqn:El.
  - destruct (se_send e) eqn:Es; [|discriminate]. intro E. assert (F : sends_from e ip port) by (repeat split; assumption).
    destruct (search_loop_cause _ _ _ _ _ _ _ E) as [(a&b&A&N&->)|(a&d&b&A&N&K&->)].
    + exists ip, port. split; [exact F|]. exists a, b. auto.
    + exists ip, port. split; [exact F|]. exists a, d, b. auto.
  - intro E. injection E as <-. split; assumption.
  - intro E. injection E as <-. split; assumption.
Qed.

(** ** Runs *)
(** The text, and what it means, of the error with which [l] ends a call after [sched]. *)
Definition said (c : cfg) (sched : list label) (l : label) : option (string * cause) :=
  match run c (init_sys 0 no_listeners) sched with
  | Some (s, _) =>
      match step c s l, call_text "ENETUNREACH" (fun t => t) "7" s l with
      | Some _, Some x => Some (x, cause_of x)
      | _, _ => None
      end
  | None => None
  end.
Lemma solicit_wrong os dbg id : exists c start ls tr s l s' es t a e x,
  exec c start ls tr s /\ Forall bytes (arrived tr) /\ step c s l = Some (s', es ++ [EvRet t (OSolicit a) (RErr e)]) /\
  call_text os dbg id s l = Some x /\ cause_of x = NotSent /\
  ~ is_cause t (OSolicit a) l (tr ++ stamp (s_now s) es) (s_now s) (cause_of x) /\
  is_cause t (OSolicit a) l (tr ++ stamp (s_now s) es) (s_now s) NotConnected.
Proof.
  destruct (run monitor (init_sys 0 no_listeners) [LInvoke 1 (OSolicit lamp); LCl 1 true]) as [[s tr]|] eqn:R; [|vm_compute in R; discriminate R].
  pose proof (run_exec _ _ _ _ _ _ R) as H.
  exists monitor, 0, no_listeners, tr, s, (LCl 1 true). vm_compute in R. injection R as <- <-.
  eexists. exists [], 1%nat, lamp, EDisconnected. eexists. split; [exact H|]. split; [constructor|]. split; [reflexivity|].
  split; [reflexivity|]. split; [reflexivity|]. split; [|reflexivity].
  intros (p'&n&d&E). destruct p' as [|? [|? p']]; cbn in E; discriminate E.
Qed.
