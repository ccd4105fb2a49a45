(** The connection: channels, endpoints and sequence numbers. *)
From Verif Require Import Base Addresses Apdu Tunneling Emi Core Transport Wire Spec TraceSpec TransportBase TransportInv
  BaseProofs CoreProofs ResponseProofs CodecMore.
From Coq Require Import Lia ZifyBool ZifyNat ZifyN.
Open Scope N_scope.

(** ** The last connection of a trace and what happened since *)
Definition conn_upd (acc : option (conn_data * trace)) (x : N * event) : option (conn_data * trace) :=
  match snd x with
  | EvConnected cd => Some (cd, [])
  | _ => match acc with Some (cd, b) => Some (cd, b ++ [x]) | None => None end
  end.
Definition current (tr : trace) : option (conn_data * trace) := fold_left conn_upd tr None.
Lemma current_app a b : current (a ++ b) = fold_left conn_upd b (current a).
Proof. apply fold_left_app. Qed.
Lemma fold_no_connected b acc :
  no_connected b ->
  fold_left conn_upd b acc = match acc with Some (cd, p) => Some (cd, p ++ b) | None => None end.
Proof.
  unfold no_connected. revert acc. induction b as [|[n e] b IH]; intros acc H.
  - cbn. destruct acc as [[cd p]|]; rewrite ?app_nil_r; reflexivity.
  - cbn [fold_left forallb snd] in *. apply andb_prop in H. destruct H as [H1 H2]. rewrite (IH _ H2).
    unfold conn_upd. cbn [snd]. destruct e; try discriminate H1;
      destruct acc as [[cd p]|]; rewrite <- ?app_assoc; reflexivity.
Qed.
Lemma current_none tr : current tr = None -> no_connected tr.
Proof.
  unfold current, no_connected. intro H.
  assert (G : forall acc, fold_left conn_upd tr acc = None -> acc = None /\ forallb (fun x => negb (is_connected_event (snd x))) tr = true).
  { clear H. induction tr as [|[n e] tr IH]; intros acc H; [auto|]. cbn [fold_left forallb snd] in *.
    destruct (IH _ H) as [E1 E2]. rewrite E2. unfold conn_upd in E1. cbn [snd] in E1.
    destruct e; try discriminate E1; destruct acc as [[cd p]|]; try discriminate E1; auto. }
  exact (proj2 (G _ H)).
Qed.
Lemma current_split a n cd b : no_connected b -> current (a ++ (n, EvConnected cd) :: b) = Some (cd, b).
Proof. intro H. rewrite current_app. cbn [fold_left]. rewrite (fold_no_connected _ _ H). reflexivity. Qed.
Lemma current_some tr cd b :
  current tr = Some (cd, b) -> no_connected b /\ exists a n, tr = a ++ (n, EvConnected cd) :: b.
Proof.
  revert cd b. induction tr as [|[n e] tr IH] using rev_ind; intros cd b H; [discriminate|].
  rewrite current_app in H. cbn [fold_left] in H. unfold conn_upd in H. cbn [snd] in H.
  destruct e;
    try (destruct (current tr) as [[cd0 b0]|] eqn:E; [|discriminate H]; injection H as -> <-;
         destruct (IH _ _ eq_refl) as (Hn&a&m&->); split;
         [unfold no_connected in *; rewrite forallb_app, Hn; reflexivity
         |exists a, m; rewrite <- app_assoc; reflexivity]; fail).
  injection H as <- <-. split; [reflexivity|]. exists tr, n. reflexivity.
Qed.
Lemma no_connected_iff tr : no_connected tr <-> forall n cd, ~ In (n, EvConnected cd) tr.
Proof.
  unfold no_connected. rewrite forallb_forall. split.
  - intros H n cd Hin. specialize (H _ Hin). discriminate.
  - intros H [n e] Hin. destruct e; try reflexivity. exfalso. eapply H, Hin.
Qed.

Lemma bg_conn c s l s' es :
  step c s l = Some (s', es) -> bg_label l = true ->
  issued (stamp (s_now s) es) = [] /\
  ((exists r, s_bg s = BStore r /\ es = [EvConnected (conn_of (c_mode c) r)] /\ s_conn s' = Some (conn_of (c_mode c) r)) \/
   (no_connected (stamp (s_now s) es) /\ (s_conn s' = s_conn s \/ s_conn s' = None))).
Proof.
  intros Hs Hl. destruct l; try discriminate Hl; inv_step Hs; sys; cbn; (split; [|eauto 6]);
    try reflexivity; try (match goal with |- context [stop_events ?b] => destruct b end; reflexivity).
  - right. split; [|auto]. unfold no_connected. cbn. destruct (dispatch l); reflexivity.
  - right. split; [|auto]. unfold no_connected. cbn. destruct (after_ack (c_prof c) k); reflexivity.
Qed.
Lemma call_no_connected c s l s' es t :
  step c s l = Some (s', es) -> call_label l = Some t -> no_connected (stamp (s_now s) es).
Proof.
  intros Hs Hl. destruct (call_frame _ _ _ _ _ _ Hs Hl) as (_&_&_&_&_&_&_&E).
  unfold no_connected, stamp. rewrite forallb_forall in *. intros x Hx. apply in_map_iff in Hx.
  destruct Hx as (e&<-&He). specialize (E _ He). destruct e; cbn in *; congruence.
Qed.

Lemma consecutive_S f k : consecutive f (S k) = consecutive f k ++ [(f + N.of_nat k) mod 256].
Proof. unfold consecutive. rewrite seq_S, map_app. reflexivity. Qed.

(** ** Sequence numbers *)
Lemma seq_inv c start ls tr s :
  exec c start ls tr s ->
  match current tr with
  | None => s_conn s = None /\ issued tr = []
  | Some (c0, b) =>
      issued b = consecutive (first_seq (c_mode c)) (length (issued b)) /\
      forall cd, s_conn s = Some cd ->
        cd_chan cd = cd_chan c0 /\ cd_ep cd = cd_ep c0 /\
        cd_seq cd = (first_seq (c_mode c) + N.of_nat (length (issued b))) mod 256
  end.
Proof.
  intro H. pattern tr, s. revert tr s H. apply exec_inv; [split; reflexivity|].
  intros tr s l s' es H IH Hs. rewrite current_app.
  destruct (bg_label l) eqn:Hb.
  - destruct (bg_conn _ _ _ _ _ Hs Hb) as [Hi [(r&Hr&->&Hc)|[Hn Hc]]].
    + cbn [stamp map fold_left]. unfold conn_upd. cbn [snd]. split; [reflexivity|].
      intros cd E. rewrite Hc in E. injection E as <-. repeat split. cbn. destruct (c_mode c); reflexivity.
    + rewrite (fold_no_connected _ _ Hn). destruct (current tr) as [[c0 b]|].
      * rewrite issued_app, Hi, app_nil_r. destruct IH as [I1 I2]. split; [exact I1|].
        intros cd E. destruct Hc as [Hc|Hc]; [apply I2; congruence|congruence].
      * rewrite issued_app, Hi, app_nil_r. destruct IH as [I1 I2]. split; [|exact I2].
        destruct Hc as [->|Hc]; assumption.
  - destruct (call_label l) as [t|] eqn:Hc.
    + rewrite (fold_no_connected _ _ (call_no_connected _ _ _ _ _ _ Hs Hc)).
      destruct (call_conn _ _ _ _ _ _ Hs Hc) as [(E&Hi)|(cd&E1&E2&->)].
      * destruct (current tr) as [[c0 b]|]; rewrite issued_app, Hi, app_nil_r, E; exact IH.
      * destruct (current tr) as [[c0 b]|]; [|destruct IH; congruence].
        destruct IH as [I1 I2]. destruct (I2 _ E1) as (J1&J2&J3).
        rewrite issued_app. cbn [stamp map issued flat_map snd app]. rewrite app_length. cbn [length].
        rewrite Nat.add_1_r. split.
        -- rewrite consecutive_S, <- I1, <- J3. reflexivity.
        -- intros cd' E. rewrite E2 in E. injection E as <-. cbn. repeat split; [assumption..|].
           rewrite J3. rewrite N.add_mod_idemp_l by lia. f_equal. lia.
    + destruct (env_frame _ _ _ _ _ Hs Hb Hc) as (->&_&_&_&_&_&_&_&[(d&->&_)|(->&_)]).
      * cbn [stamp map fold_left]. unfold conn_upd. cbn [snd].
        destruct (current tr) as [[c0 b]|]; rewrite issued_app; cbn [issued flat_map snd app];
          rewrite app_nil_r; exact IH.
      * cbn [stamp map fold_left]. rewrite app_nil_r. exact IH.
Qed.

(** ** Granted channels *)
Definition granted (tr : trace) (ch : N) (ep : hpai) : Prop :=
  exists d r, In (EvConnRecv d) (evs tr) /\ accept_connection d = Some r /\ cr_chan r = ch /\ cr_endpoint r = ep.
Lemma granted_app tr tr' ch ep : granted tr ch ep -> granted (tr ++ tr') ch ep.
Proof. intros (d&r&H&X). exists d, r. split; [|exact X]. rewrite evs_app. apply in_or_app. auto. Qed.
Lemma granted_inv c start ls tr s :
  exec c start ls tr s ->
  (forall r, s_bg s = BMonEnable r \/ s_bg s = BStore r -> granted tr (cr_chan r) (cr_endpoint r)) /\
  (forall cd, s_conn s = Some cd -> granted tr (cd_chan cd) (cd_ep cd)).
Proof.
  intro H. pattern tr, s. revert tr s H. apply exec_inv.
  - split; [intros r [E|E]; discriminate|discriminate].
  - intros tr s l s' es H [IH1 IH2] Hs. destruct (bg_label l) eqn:Hb.
    + destruct l; try discriminate Hb; inv_step Hs; sys;
        (split; [intros r0 [E|E]; try discriminate E | intros cd E; try discriminate E]);
        rewrite ?app_nil_r; auto using granted_app;
        try (apply granted_app; eauto; congruence);
        try (exfalso; unfold dispatch, after_ack in E; break E; discriminate E).
      all: try (injection E as <-; cbn; apply granted_app; apply IH1; auto; fail).
      all: try (injection E as <-; eexists _, _; repeat split;
                [rewrite evs_app, evs_stamp; apply in_or_app; right; left; reflexivity|eassumption]).
      all: try apply granted_app; apply IH2; congruence.
    + destruct (call_label l) as [t|] eqn:Hc.
      * destruct (call_frame _ _ _ _ _ _ Hs Hc) as (_&_&_&->&_). split; [auto using granted_app|].
        destruct (call_conn _ _ _ _ _ _ Hs Hc) as [(->&_)|(cd&E1&E2&_)]; [auto using granted_app|].
        intros cd' E. rewrite E2 in E. injection E as <-. cbn. auto using granted_app.
      * destruct (env_frame _ _ _ _ _ Hs Hb Hc) as (->&_&->&_). auto using granted_app.
Qed.

(** Accepted responses, as octets. *)
Lemma accept_grants d r :
  bytes d -> accept_connection d = Some r -> grants d (cr_chan r) (cr_endpoint r).
Proof.
  intros Hb H. unfold accept_connection in H.
  destruct (run_on connection_response_from_packet (recv_buffer d)) as [r0| |] eqn:E; try discriminate.
  destruct (N.eqb_spec (cr_status r0) 0) as [E0|]; [|discriminate]. injection H as <-.
  unfold run_on in E. destruct (connection_response_from_packet (recv_buffer d)) as [[r1 rest]| |] eqn:E1;
    try discriminate. injection E as ->.
  apply connection_response_decode_iff in E1; [|apply recv_buffer_bytes; exact Hb].
  destruct E1 as (size&n&H1&H2&H3&H4&_). exists size, n, rest. rewrite <- E0. auto.
Qed.
Lemma grants_accept d ch ep :
  bytes d -> grants d ch ep -> exists r, accept_connection d = Some r /\ cr_chan r = ch /\ cr_endpoint r = ep.
Proof.
  intros Hb (size&n&rest&H1&H2&H3&H4).
  set (r := {| cr_chan := ch; cr_status := 0; cr_endpoint := ep;
    cr_crd := {| ia_area := n / 4096; ia_line := n / 256 mod 16; ia_address := n mod 256 |} |}).
  exists r. split; [|split; reflexivity]. unfold accept_connection, run_on.
  assert (E : connection_response_from_packet (recv_buffer d) = Ok (r, rest)).
  { apply connection_response_decode_iff; [apply recv_buffer_bytes; exact Hb|].
    exists size, n. repeat split; try assumption; try apply H1; try apply H4. cbn. intuition discriminate. }
  rewrite E. reflexivity.
Qed.
