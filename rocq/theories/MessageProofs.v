(** The error texts. *)
From Verif Require Import Base Addresses Core Tunneling Messages Wire MsgSpec MsgView.
From Coq Require Import ZifyBool ZifyNat ZifyN.
Open Scope N_scope.

(** ** Without their texts these are the decoders of Core.v and Tunneling.v *)
Lemma same_bind {A B} (m : mparser A) (p : parser A) (f : A -> mparser B) g :
  same m p -> (forall a, same (f a) (g a)) -> same (mbind m f) (pbind p g).
Proof. intros H K r. unfold mbind, pbind. rewrite <- (H r). destruct (m r) as [[a r']| |]; cbn; [apply K|reflexivity|reflexivity]. Qed.
Lemma same_read {A} (p : parser A) t : same (mread p t) p.
Proof. intro r. unfold mread. destruct (p r); reflexivity. Qed.
Lemma same_ensure c t : same (mensure c t) (ensure c).
Proof. intro r. unfold mensure, ensure. destruct c; reflexivity. Qed.
Lemma same_lift {A} (x : res A) t : same (mlift x t) (lift x).
Proof. intro r. unfold mlift, lift. destruct x; reflexivity. Qed.
Lemma same_ret {A} (a : A) : same (mret a) (ret a).
Proof. intro r. reflexivity. Qed.
Lemma same_status s : same (m_status s) (ensure (negb (status_rejected s))).
Proof.
  intro r. unfold m_status, status_rejected, ensure.
  destruct (s =? 0x22), (s =? 0x23), (s =? 0x24), (s =? 0x29); reflexivity.
Qed.
Ltac same_tac :=
  repeat first [apply same_bind; [|intros ?] | apply same_read | apply same_ensure | apply same_lift | apply same_ret | apply same_status].
Lemma same_hpai : same m_hpai hpai_from_packet. Proof. unfold m_hpai, hpai_from_packet. same_tac. Qed.
Lemma same_crd : same m_crd crd_from_packet. Proof. unfold m_crd, crd_from_packet. same_tac. Qed.
Lemma same_verify : same m_verify_header verify_header. Proof. unfold m_verify_header, verify_header. same_tac. Qed.
Ltac same_tac2 := repeat first [apply same_hpai | apply same_crd | apply same_verify | same_tac].
Lemma same_all :
  same m_hpai hpai_from_packet /\ same m_crd crd_from_packet /\
  same m_connection_response connection_response_from_packet /\
  same m_connstate_request connstate_request_from_packet /\
  same m_connstate_response connstate_response_from_packet /\
  same m_disconnect_request disconnect_request_from_packet /\
  same m_disconnect_response disconnect_response_from_packet /\
  same m_header header_from_packet /\
  same m_tunneling_request tunneling_request_from_packet /\
  same m_tunneling_ack tunneling_ack_from_packet /\
  same m_feature_resp feature_resp_from_packet.
Proof.
  split; [apply same_hpai|]. split; [apply same_crd|].
  repeat split; unfold same; intro r; match goal with |- erase (?m _) = ?p _ => unfold m, p; revert r end; fold (@same); same_tac2.
Qed.

(** ** Reading field by field *)
Record row := { r_field : field; r_wrong : N -> string; r_cut : string }.
Definition take (f : field) : parser N := if two f then read_u16 else read_u8.
Fixpoint scan (t : list row) (b : list N) : option string :=
  match t with
  | [] => None
  | r :: t' =>
      match take (r_field r) b with
      | Ok (v, b') => if fits (r_field r) v then scan t' b' else Some (r_wrong r v)
      | _ => Some (r_cut r)
      end
  end.
Definition errs {A} (m : mparser A) (t : list row) : Prop :=
  forall b, match scan t b with
            | Some x => m b = MErr x
            | None => forall x, m b <> MErr x
            end.
(** The same, with the rest after the fields. *)
Fixpoint left_over (t : list row) (b : list N) : list N :=
  match t with
  | [] => b
  | r :: t' => match take (r_field r) b with Ok (_, b') => left_over t' b' | _ => [] end
  end.
Definition reads {A} (m : mparser A) (t : list row) : Prop :=
  forall b, match scan t b with
            | Some x => m b = MErr x
            | None => exists a, m b = MOk (a, left_over t b)
            end.
Lemma reads_errs {A} (m : mparser A) t : reads m t -> errs m t.
Proof. intros H b. specialize (H b). destruct (scan t b); [exact H|]. destruct H as (a&->). discriminate. Qed.
Lemma reads_ret {A} (a : A) : reads (mret a) [].
Proof. intro b. exists a. reflexivity. Qed.
Lemma errs_ret {A} (a : A) : errs (mret a) [].
Proof. intros b x. discriminate. Qed.
Lemma take_no_panic f b : take f b <> Panic.
Proof. unfold take. destruct (two f), b as [|? [|? ?]]; discriminate. Qed.
Lemma reads_check {A} (fd : field) c (what : string) (f : N -> mparser A) t :
  (forall v, fits fd v = true -> reads (f v) t) ->
  reads (mbind (mread (take fd) what) (fun v => mbind (mensure (fits fd v) (c v)) (fun _ => f v)))
        ({| r_field := fd; r_wrong := c; r_cut := what |} :: t).
Proof.
  intros H b. cbn [scan left_over r_field r_wrong r_cut]. unfold mbind, mread, mensure. pose proof (take_no_panic fd b) as NP.
  destruct (take fd b) as [[v b']| |]; [|reflexivity|contradiction].
  destruct (fits fd v) eqn:O; [|reflexivity]. exact (H v O b').
Qed.
Lemma reads_free {A} (fd : field) c (what : string) (f : N -> mparser A) t :
  (forall v, fits fd v = true) -> (forall v, reads (f v) t) ->
  reads (mbind (mread (take fd) what) f) ({| r_field := fd; r_wrong := c; r_cut := what |} :: t).
Proof.
  intros F H b. cbn [scan left_over r_field r_wrong r_cut]. unfold mbind, mread. pose proof (take_no_panic fd b) as NP.
  destruct (take fd b) as [[v b']| |]; [|reflexivity|contradiction]. rewrite F. exact (H v b').
Qed.
Lemma errs_check {A} (fd : field) c (what : string) (f : N -> mparser A) t :
  (forall v, fits fd v = true -> errs (f v) t) ->
  errs (mbind (mread (take fd) what) (fun v => mbind (mensure (fits fd v) (c v)) (fun _ => f v)))
        ({| r_field := fd; r_wrong := c; r_cut := what |} :: t).
Proof.
  intros H b. cbn [scan r_field r_wrong r_cut]. unfold mbind, mread, mensure. pose proof (take_no_panic fd b) as NP.
  destruct (take fd b) as [[v b']| |]; [|reflexivity|contradiction].
  destruct (fits fd v) eqn:O; [|reflexivity]. exact (H v O b').
Qed.
Lemma errs_free {A} (fd : field) c (what : string) (f : N -> mparser A) t :
  (forall v, fits fd v = true) -> (forall v, errs (f v) t) ->
  errs (mbind (mread (take fd) what) f) ({| r_field := fd; r_wrong := c; r_cut := what |} :: t).
Proof.
  intros F H b. cbn [scan r_field r_wrong r_cut]. unfold mbind, mread. pose proof (take_no_panic fd b) as NP.
  destruct (take fd b) as [[v b']| |]; [|reflexivity|contradiction]. rewrite F. exact (H v b').
Qed.
Lemma scan_app t1 t2 : forall b, scan (t1 ++ t2) b = match scan t1 b with Some x => Some x | None => scan t2 (left_over t1 b) end.
Proof.
  induction t1 as [|r t1 IH]; intro b; [reflexivity|]. cbn [app scan left_over].
  destruct (take (r_field r) b) as [[v b']| |]; try reflexivity. destruct (fits (r_field r) v); [apply IH|reflexivity].
Qed.
Lemma errs_app {A B} (m : mparser A) (f : A -> mparser B) t1 t2 :
  reads m t1 -> (forall a, errs (f a) t2) -> errs (mbind m f) (t1 ++ t2).
Proof.
  intros H K b. rewrite scan_app. specialize (H b). unfold mbind. destruct (scan t1 b); [rewrite H; reflexivity|].
  destruct H as (a&->). exact (K a (left_over t1 b)).
Qed.

(** ** The rows of each decoder *)
Definition row_of (f : field) (wrong : N -> string) (cut : string) : row :=
  {| r_field := f; r_wrong := wrong; r_cut := cut |}.
Definition free (w : bool) (what : string) : row := row_of (any w) (fun _ => ""%string) (missing what).
Definition hpai_rows : list row :=
  [row_of (exactly false 8) (fun v => "HPAI size must be 8 instead of " ++ show_dec v)%string (missing "HPAI size");
   free false "HPAI host protocol code"; free false "HPAI IP part 1"; free false "HPAI IP part 2";
   free false "HPAI IP part 3"; free false "HPAI IP part 4"; free true "HPAI IP Port"].
Definition crd_rows : list row :=
  [row_of (exactly false 4) (fun v => "Connection Response Data Block should have length 4 instead of " ++ show_dec v)%string (missing "CRD packet size");
   row_of (exactly false 4) (fun v => "Connection Response Data Block should have connection type 4 (TUNNELING) instead of " ++ show_dec v)%string (missing "CRD tunnel connection");
   free true "CRD KNX individual address"].
Definition head_rows (version : string) : list row :=
  [row_of (exactly false 6) (fun v => "Header size should be 6 instead of " ++ show_dec v)%string (missing "header size");
   row_of (exactly false 0x10) (fun _ => "KNXIP version should be 0x10 instead of " ++ version)%string (missing "KNXIP version")].
Definition tunnel_rows : list row :=
  [row_of (exactly false 6) (fun v => "Header size should be 6 instead of " ++ show_dec v)%string "Unable to read header size";
   row_of (exactly false 0x10) (fun v => "Version should be 0x10 instead of " ++ show_hex v)%string "Unable to read header version"].
Definition rows (g : datagram) : list row :=
  match g with
  | GConnectResponse =>
      head_rows "06" ++
      [row_of (exactly true 0x0206) (fun v => "Connect response should be 0x0206 instead of " ++ show_02X v)%string (missing "Connect Response");
       row_of (at_least true 8) (fun v => "Packet size should greather than 8, received size " ++ show_dec v)%string (missing "packet size");
       free false "Communication Channel Id";
       row_of (none_of false [0x22; 0x23; 0x24; 0x29]) refusal (missing "status")] ++ hpai_rows ++ crd_rows
  | GStateRequest =>
      head_rows " 6" ++
      [row_of (exactly true 0x0207) (fun v => "Connect request should be 0x0207 instead of " ++ show_2X v)%string (missing "Connectstate request code");
       free true "packet size"; free false "communication channel id"; free false "padding data"] ++ hpai_rows
  | GStateResponse =>
      head_rows " 6" ++
      [row_of (exactly true 0x0208) (fun v => "Connect response should be 0x0208 instead of " ++ show_2X v)%string (missing "Connectstate Response");
       row_of (exactly true 8) (fun v => "Packet size should be 8, received size " ++ show_dec v)%string (missing "packet size");
       free false "Communication Channel Id"; free false "status"]
  | GDisconnectRequest =>
      [row_of (at_least false 8) (fun v => "Header size should be at least 8 instead of " ++ show_dec v)%string (missing "header size");
       free false "communication channel id"; free false "reserved data"] ++ hpai_rows
  | GDisconnectResponse =>
      head_rows " 6" ++
      [row_of (exactly true 0x020a) (fun v => "Disconnect response should be 0x020A instead of " ++ show_2X v)%string (missing "Disconnect Response");
       row_of (exactly true 8) (fun v => "Packet size should be 8, received size " ++ show_dec v)%string (missing "packet size");
       free false "Communication Channel Id"; free false "status"]
  | GHeader =>
      [row_of (exactly false 6) (fun v => "Header length should be 6 instead of " ++ show_dec v)%string (missing "header length");
       row_of (exactly false 0x10) (fun _ => "KNXIP protocol version should be 0x10 instead of 10")%string (missing "KNXIP version");
       row_of (any true) (fun _ => ""%string) "Unable to read service type identifier";
       row_of (any true) (fun _ => ""%string) "Unable to read total length"]
  | GTunnelling =>
      tunnel_rows ++
      [row_of (exactly true 0x0420) (fun v => "Code should be 0x0420 instead of " ++ show_hex v)%string (missing "code");
       free true "packet size";
       row_of (exactly false 4) (fun v => "Size should be 0x04 instead of " ++ show_dec v)%string (missing "message code");
       free false "communication channel id"; free false "sequence number"; free false "padding"]
  | GAck =>
      tunnel_rows ++
      [row_of (exactly true 0x0421) (fun v => "Response code should be 0x0421 instead of " ++ show_hex v)%string (missing "response code");
       row_of (exactly true 10) (fun v => "Packet size should be 0x0a instead of " ++ show_hex v)%string (missing "packet size");
       row_of (exactly false 4) (fun v => "Structure size should be 0x04 instead of " ++ show_hex v)%string (missing "struct size");
       free false "communication channel id"; free false "communication channel id"; free false "status"]
  | GFeature =>
      tunnel_rows ++
      [row_of (exactly true 0x0423) (fun v => "Response code should be 0x0423 instead of " ++ show_hex v)%string (missing "response code");
       row_of (exactly true 13) (fun v => "Packet size should be 0x0d instead of " ++ show_hex v)%string (missing "packet size");
       row_of (exactly false 4) (fun v => "Structure size should be 0x04 instead of " ++ show_hex v)%string (missing "struct size");
       free false "communication channel id"; free false "communication channel id"; free false "reserved field";
       row_of (one_of false [2; 6; 7; 8]) (fun v => "Unknown KNXIP feature " ++ show_dec v)%string (missing "status");
       free false "status"; free false "value"]
  end.
Lemma rows_layout g : map r_field (rows g) = layout g.
Proof. destruct g; reflexivity. Qed.

Ltac step_reads :=
  match goal with
  | |- reads _ (row_of ?f ?c ?w :: ?t) =>
      first [refine (reads_check f c w _ t _); intros ? ? | refine (reads_free f c w _ t _ _); [intro; reflexivity|intro]]
  | |- reads _ (free ?f ?w :: ?t) => refine (reads_free (any f) _ (missing w) _ t _ _); [intro; reflexivity|intro]
  | |- reads _ [] => exact (reads_ret _)
  end.
Ltac step_errs :=
  match goal with
  | |- errs _ (row_of ?f ?c ?w :: ?t) =>
      first [refine (errs_check f c w _ t _); intros ? ? | refine (errs_free f c w _ t _ _); [intro; reflexivity|intro]]
  | |- errs _ (free ?f ?w :: ?t) => refine (errs_free (any f) _ (missing w) _ t _ _); [intro; reflexivity|intro]
  | |- errs _ [] => exact (errs_ret _)
  end.
Lemma hpai_reads : reads m_hpai hpai_rows. Proof. unfold m_hpai, hpai_rows. repeat step_reads. Qed.
Lemma crd_reads : reads m_crd crd_rows. Proof. unfold m_crd, crd_rows. repeat step_reads. Qed.
Ltac fix_value := repeat match goal with H : fits (exactly _ _) ?v = true |- _ => apply N.eqb_eq in H; subst v end.
Lemma mbind_assoc {A B C} (m : mparser A) (f : A -> mparser B) (g : B -> mparser C) b :
  mbind (mbind m f) g b = mbind m (fun a => mbind (f a) g) b.
Proof. unfold mbind. destruct (m b) as [[a r]| |]; reflexivity. Qed.
Lemma errs_ext {A} (m m' : mparser A) t : (forall b, m b = m' b) -> errs m' t -> errs m t.
Proof. intros E H b. rewrite E. exact (H b). Qed.
Lemma verify_reads : reads m_verify_header tunnel_rows.
Proof.
  intro b. assert (E : forall b, m_verify_header b =
    (size <- mread read_u8 "Unable to read header size" ;;
     mensure (size =? 6) ("Header size should be 6 instead of " ++ show_dec size) ;;;
     version <- mread read_u8 "Unable to read header version" ;;
     mensure (version =? 0x10) ("Version should be 0x10 instead of " ++ show_hex version) ;;; mret tt)%mparser b).
  { clear. intro b. unfold m_verify_header, mbind. destruct (mread read_u8 _ b) as [[s r]| |]; [|reflexivity|reflexivity].
    destruct (mensure (s =? 6) _ r) as [[u r']| |]; [|reflexivity|reflexivity].
    destruct (mread read_u8 _ r') as [[v r2]| |]; [|reflexivity|reflexivity].
    unfold mensure. destruct (v =? 0x10); reflexivity. }
  rewrite E. clear E. revert b. change (reads ((size <- mread read_u8 "Unable to read header size" ;;
     mensure (size =? 6) ("Header size should be 6 instead of " ++ show_dec size) ;;;
     version <- mread read_u8 "Unable to read header version" ;;
     mensure (version =? 0x10) ("Version should be 0x10 instead of " ++ show_hex version) ;;; mret tt)%mparser) tunnel_rows).
  unfold tunnel_rows. repeat step_reads.
Qed.
Lemma errs_status {A} (f : N -> mparser A) t :
  (forall v, errs (f v) t) ->
  errs (mbind (m_u8 "status") (fun v => mbind (m_status v) (fun _ => f v)))
       (row_of (none_of false [0x22; 0x23; 0x24; 0x29]) refusal (missing "status") :: t).
Proof.
  intros H. eapply errs_ext; [|refine (errs_check (none_of false [0x22; 0x23; 0x24; 0x29]) refusal (missing "status") f t _); intros; apply H].
  intro b. unfold mbind, m_u8. change (take (none_of false _)) with read_u8.
  destruct (mread read_u8 _ b) as [[v r]| |]; [|reflexivity|reflexivity].
  unfold m_status, mensure. cbn [fits none_of existsb].
  destruct (N.eqb_spec v 0x22) as [->|N1]; [reflexivity|]. destruct (N.eqb_spec v 0x23) as [->|N2]; [reflexivity|].
  destruct (N.eqb_spec v 0x24) as [->|N3]; [reflexivity|]. destruct (N.eqb_spec v 0x29) as [->|N4]; reflexivity.
Qed.
Lemma errs_feature {A} (f : knx_ip_feature -> mparser A) t :
  (forall v, errs (f v) t) ->
  errs (mbind (m_u8 "status") (fun c => mbind (mlift (feature_try_from c) ("Unknown KNXIP feature " ++ show_dec c)) f))
       (row_of (one_of false [2; 6; 7; 8]) (fun v => "Unknown KNXIP feature " ++ show_dec v)%string (missing "status") :: t).
Proof.
  intros H b. unfold mbind, m_u8, mread. cbn [scan row_of r_field r_wrong r_cut]. unfold take. cbn [two one_of fits existsb].
  destruct b as [|v b]; [reflexivity|]. cbn [read_u8]. unfold mlift, feature_try_from. cbn [feature_code].
  destruct (N.eqb_spec v 2) as [->|N1]; [exact (H _ b)|]. destruct (N.eqb_spec v 6) as [->|N2]; [exact (H _ b)|].
  destruct (N.eqb_spec v 7) as [->|N3]; [exact (H _ b)|]. destruct (N.eqb_spec v 8) as [->|N4]; [exact (H _ b)|]. reflexivity.
Qed.

Lemma errs_text {A} (m : mparser A) t b : errs m t -> match m b with MErr t => Some t | _ => None end = scan t b.
Proof. intro H. specialize (H b). destruct (scan t b); [rewrite H; reflexivity|]. destruct (m b); try reflexivity. exfalso. eapply H. reflexivity. Qed.
Lemma text_scan g b : error_text g b = scan (rows g) b.
Proof.
  unfold error_text. destruct g; apply errs_text; unfold rows, head_rows.
  - unfold m_connection_response. cbn [app]. do 4 (step_errs; fix_value). step_errs.
    apply errs_status. intro. apply errs_app; [exact hpai_reads|intro]. rewrite <- (app_nil_r crd_rows).
    apply errs_app; [exact crd_reads|intro]. step_errs.
  - unfold m_connstate_request. cbn [app]. do 6 (step_errs; fix_value). rewrite <- (app_nil_r hpai_rows).
    apply errs_app; [exact hpai_reads|intro]. step_errs.
  - unfold m_connstate_response. cbn [app]. repeat (step_errs; fix_value).
  - unfold m_disconnect_request. cbn [app]. do 3 (step_errs; fix_value). rewrite <- (app_nil_r hpai_rows).
    apply errs_app; [exact hpai_reads|intro]. step_errs.
  - unfold m_disconnect_response. cbn [app]. repeat (step_errs; fix_value).
  - unfold m_header. repeat (step_errs; fix_value).
  - unfold m_tunneling_request. apply errs_app; [exact verify_reads|intro]. do 6 step_errs.
    intros r x. unfold mbind, mlift, mread, cemi_len, read_zeroed. destruct (10 <=? _); discriminate.
  - unfold m_tunneling_ack. apply errs_app; [exact verify_reads|intro]. repeat step_errs.
  - unfold m_feature_resp. apply errs_app; [exact verify_reads|intro]. do 6 step_errs. apply errs_feature. intro. repeat step_errs.
Qed.

(** ** What the text says *)
Lemma take_octets f v rest : take f (octets_of f v ++ rest) = Ok (v, rest).
Proof. unfold take, octets_of. destruct (two f); cbn; [|reflexivity]. rewrite (N.mul_comm (v / 256)), <- N.div_mod by discriminate. reflexivity. Qed.
Lemma wrong_scan t : forall b i v, wrong_at (map r_field t) b i v ->
  exists r, nth_error t i = Some r /\ scan t b = Some (r_wrong r v).
Proof.
  induction t as [|r t IH]; intros b i v H; [destruct H|]. cbn [map wrong_at] in H. destruct i as [|i].
  - destruct H as (F&rest&->). exists r. split; [reflexivity|]. cbn [scan]. rewrite take_octets, F. reflexivity.
  - destruct H as (w&rest&F&->&H). destruct (IH _ _ _ H) as (r'&E&S). exists r'. split; [exact E|].
    cbn [scan]. rewrite take_octets, F. exact S.
Qed.
Lemma cut_scan t : forall b i, cut_at (map r_field t) b i ->
  exists r, nth_error t i = Some r /\ scan t b = Some (r_cut r).
Proof.
  induction t as [|r t IH]; intros b i H; [destruct H|]. cbn [map cut_at] in H. destruct i as [|i].
  - exists r. split; [reflexivity|]. cbn [scan]. unfold take. destruct (two (r_field r)), b as [|? [|? ?]]; cbn in *; try lia; reflexivity.
  - destruct H as (w&rest&F&->&H). destruct (IH _ _ H) as (r'&E&S). exists r'. split; [exact E|].
    cbn [scan]. rewrite take_octets, F. exact S.
Qed.
Lemma take_inv f b v b' : bytes b -> take f b = Ok (v, b') -> b = octets_of f v ++ b' /\ bytes b' /\ v < 65536.
Proof.
  unfold take, octets_of. intros B H. destruct (two f).
  - destruct b as [|x [|y b]]; cbn in H; try discriminate. injection H as <- <-.
    inversion B as [|? ? Bx B']; subst. inversion B' as [|? ? By B2]; subst. unfold byte in *.
    split; [|split; [exact B2|lia]]. cbn [app]. f_equal; [|f_equal]; lia.
  - destruct b as [|x b]; cbn in H; try discriminate. injection H as <- <-. inversion B; subst. unfold byte in *.
    split; [reflexivity|]. split; [assumption|lia].
Qed.
Lemma take_err f b : bytes b -> (forall v b', take f b <> Ok (v, b')) -> (List.length b < if two f then 2 else 1)%nat.
Proof.
  unfold take. intros _ H. destruct (two f).
  - destruct b as [|x [|y b]]; cbn in *; try lia. exfalso. eapply H. reflexivity.
  - destruct b as [|x b]; cbn in *; try lia. exfalso. eapply H. reflexivity.
Qed.
Lemma scan_why t : forall b x, bytes b -> scan t b = Some x ->
  (exists i v, wrong_at (map r_field t) b i v /\ v < 65536) \/ (exists i, cut_at (map r_field t) b i).
Proof.
  induction t as [|r t IH]; intros b x B H; [discriminate|]. cbn [scan] in H.
  destruct (take (r_field r) b) as [[v b']| |] eqn:T.
  - destruct (take_inv _ _ _ _ B T) as (->&B'&V). destruct (fits (r_field r) v) eqn:F.
    + destruct (IH _ _ B' H) as [(i&u&W&U)|(i&C)].
      * left. exists (S i), u. split; [|exact U]. exists v, b'. repeat split; assumption.
      * right. exists (S i). exists v, b'. repeat split; assumption.
    + left. exists O, v. split; [|exact V]. split; [exact F|]. exists b'. reflexivity.
  - right. exists O. apply take_err; [exact B|]. rewrite T. discriminate.
  - right. exists O. apply take_err; [exact B|]. rewrite T. discriminate.
Qed.
Lemma rejected_iff g b : bytes b ->
  ((exists t, error_text g b = Some t) <->
   (exists i v, wrong_at (layout g) b i v) \/ (exists i, cut_at (layout g) b i)).
Proof.
  intro B. rewrite text_scan, <- rows_layout. split.
  - intros (t&H). destruct (scan_why _ _ _ B H) as [(i&v&W&_)|C]; [left; exists i, v; exact W|right; exact C].
  - intros [(i&v&W)|(i&C)].
    + destruct (wrong_scan _ _ _ _ W) as (r&_&E). eexists. exact E.
    + destruct (cut_scan _ _ _ C) as (r&_&E). eexists. exact E.
Qed.
Lemma wrong_small l : forall b i v, bytes b -> wrong_at l b i v -> v < 65536 /\ exists f, nth_error l i = Some f /\ fits f v = false.
Proof.
  induction l as [|f l IH]; intros b i v B H; [destruct H|]. destruct i as [|i]; cbn [wrong_at] in H.
  - destruct H as (F&rest&->). split; [|exists f; split; [reflexivity|exact F]].
    unfold bytes in B. rewrite Forall_app in B. destruct B as (B&_). unfold octets_of in B.
    destruct (two f); inversion B; subst; unfold byte in *; lia.
  - destruct H as (w&rest&F&->&H). unfold bytes in B. rewrite Forall_app in B. exact (IH _ _ _ (proj2 B) H).
Qed.

Lemma digit_value_digit u d : d < 16 -> digit_value (digit u d) = Some d.
Proof.
  intro H. assert (C : In d [0;1;2;3;4;5;6;7;8;9;10;11;12;13;14;15]) by (cbn [In]; lia).
  cbn [In] in C. destruct u; repeat (destruct C as [<-|C]; [reflexivity|]); destruct C.
Qed.
Lemma digits_value u base : 2 <= base <= 16 -> forall f n acc, n < base ^ N.of_nat (S f) ->
  number_value base (digits (S f) u base n acc) 0 = number_value base acc n.
Proof.
  intros Hb. 
  assert (C : forall n acc k, number_value base (String (digit u (n mod base)) acc) k = number_value base acc (base * k + n mod base)).
  { intros n acc k. cbn [number_value]. pose proof (N.mod_lt n base ltac:(lia)). rewrite digit_value_digit by lia.
    destruct (N.ltb_spec (n mod base) base); [reflexivity|lia]. }
  assert (G : forall n, base * (n / base) + n mod base = n) by (intro; symmetry; apply N.div_mod; lia).
  induction f as [|f IH]; intros n acc Hn.
  - cbn [digits]. change (N.of_nat 1) with 1 in Hn. rewrite N.pow_1_r in Hn.
    rewrite (N.div_small n base Hn). cbn [N.eqb]. rewrite C, N.mul_0_r, N.add_0_l, N.mod_small by exact Hn. reflexivity.
  - remember (S f) as f'. cbn [digits]. destruct (N.eqb_spec (n / base) 0) as [E|E].
    + rewrite C. specialize (G n). rewrite E, N.mul_0_r, N.add_0_l in *. rewrite G. reflexivity.
    + subst f'. rewrite IH.
      * rewrite C, G. reflexivity.
      * apply N.div_lt_upper_bound; [lia|]. rewrite <- N.pow_succ_r'. replace (N.succ (N.of_nat (S f))) with (N.of_nat (S (S f))) by lia. exact Hn.
Qed.
Lemma digits_nonempty f u base : forall n acc, digits (S f) u base n acc <> EmptyString.
Proof.
  induction f as [|f IH]; intros n acc.
  - cbn [digits]. destruct (_ =? 0); discriminate.
  - remember (S f) as g. cbn [digits]. destruct (_ =? 0); [discriminate|]. subst g. apply IH.
Qed.
Definition chop (s : string) : string := substring 0 (String.length s - 1) s.
Lemma string_app_assoc (a b c : string) : ((a ++ b) ++ c = a ++ b ++ c)%string.
Proof. induction a as [|x a IH]; cbn; [reflexivity|]. rewrite IH. reflexivity. Qed.
Lemma states_number p w v : (p = chop p ++ " ")%string -> w <> EmptyString ->
  number_value 10 w 0 = Some v \/ number_value 16 w 0 = Some v -> states (p ++ w) v.
Proof. intros E N H. exists (chop p), w. split; [|split; assumption]. rewrite E at 1. apply string_app_assoc. Qed.
Lemma small_dec v : v < 65536 -> v < 10 ^ N.of_nat 7. Proof. change (10 ^ N.of_nat 7) with 10000000. lia. Qed.
Lemma small_hex v : v < 65536 -> v < 16 ^ N.of_nat 7. Proof. change (16 ^ N.of_nat 7) with 268435456. lia. Qed.
Lemma states_dec p v : (p = chop p ++ " ")%string -> v < 65536 -> states (p ++ show_dec v) v.
Proof.
  intros E H. apply states_number; [exact E|apply digits_nonempty|]. left. unfold show_dec.
  rewrite (digits_value false 10 ltac:(lia) 6 v "" (small_dec v H)). reflexivity.
Qed.
Lemma upper_value u v : v < 65536 -> number_value 16 (digits 7 u 16 v "") 0 = Some v.
Proof. intro H. rewrite (digits_value u 16 ltac:(lia) 6 v "" (small_hex v H)). reflexivity. Qed.
Lemma states_hex p v : (p = chop p ++ " ")%string -> v < 65536 -> states (p ++ show_hex v) v.
Proof. intros E H. apply states_number; [exact E|apply digits_nonempty|]. right. apply upper_value; exact H. Qed.
Lemma states_02X p v : (p = chop p ++ " ")%string -> v < 65536 -> states (p ++ show_02X v) v.
Proof.
  intros E H. pose proof (upper_value true v H) as U. fold (show_upper v) in U.
  pose proof (digits_nonempty 6 true 16 v "") as D. fold (show_upper v) in D.
  apply states_number; [exact E| |]; unfold show_02X, pad; destruct (show_upper v) as [|c [|c' s]]; try discriminate; try (right; exact U).
  exfalso. apply D. reflexivity.
Qed.
Lemma states_2X p v : (p = chop p ++ " ")%string -> v < 65536 -> states (p ++ show_2X v) v.
Proof.
  intros E H. pose proof (upper_value true v H) as U. fold (show_upper v) in U.
  pose proof (digits_nonempty 6 true 16 v "") as D. fold (show_upper v) in D. unfold show_2X, pad.
  destruct (show_upper v) as [|c [|c' s]]; [exfalso; apply D; reflexivity| |].
  - exists p, (String c ""). split; [reflexivity|]. split; [discriminate|]. right. exact U.
  - apply states_number; [exact E|discriminate|]. right. exact U.
Qed.

Lemma some_inj {A} (x y : A) : Some x = Some y -> x = y. Proof. intro H; injection H; trivial. Qed.
Lemma value_stated g b i v : bytes b -> wrong_at (layout g) b i v ->
  ~ version_field g i -> ~ status_field g i -> exists t, error_text g b = Some t /\ states t v.
Proof.
  intros B W NV NS. destruct (wrong_small _ _ _ _ B W) as (V&f&Ef&F). rewrite text_scan. rewrite <- rows_layout in W.
  destruct (wrong_scan _ _ _ _ W) as (r&Er&S). exists (r_wrong r v). split; [exact S|]. clear S W B.
  unfold version_field, status_field in *.
  destruct g; cbn [rows hpai_rows crd_rows head_rows tunnel_rows app layout start endpoint] in Er, Ef;
    repeat (destruct i as [|i]; cbn [nth_error] in Er, Ef; try discriminate Er);
    try (exfalso; apply NV; split; [reflexivity|exact I]); try (exfalso; apply NS; split; reflexivity);
    try discriminate Er; apply some_inj in Er; apply some_inj in Ef; subst r f; try discriminate F; cbn [r_wrong row_of free];
    first [apply states_dec; [reflexivity|exact V] | apply states_hex; [reflexivity|exact V]
          | apply states_02X; [reflexivity|exact V] | apply states_2X; [reflexivity|exact V]].
Qed.
Lemma version_text g b v : version_field g 1 -> wrong_at (layout g) b 1 v ->
  error_text g b = Some (match g with
                         | GConnectResponse => "KNXIP version should be 0x10 instead of 06"
                         | GHeader => "KNXIP protocol version should be 0x10 instead of 10"
                         | _ => "KNXIP version should be 0x10 instead of  6"
                         end)%string.
Proof.
  intros X W. rewrite text_scan. rewrite <- rows_layout in W. destruct (wrong_scan _ _ _ _ W) as (r&Er&S). rewrite S. clear S W.
  destruct X as (_&X). destruct g; try destruct X; cbn in Er; injection Er as <-; reflexivity.
Qed.
Lemma status_text b s : wrong_at (layout GConnectResponse) b 5 s -> error_text GConnectResponse b = Some (refusal s).
Proof.
  intros W. rewrite text_scan. rewrite <- rows_layout in W. destruct (wrong_scan _ _ _ _ W) as (r&Er&S). rewrite S. clear S W.
  cbn in Er. injection Er as <-. reflexivity.
Qed.

(** Cut datagrams. *)
Definition same_name (g : datagram) (i j : nat) : bool :=
  match nth_error (rows g) i, nth_error (rows g) j with
  | Some a, Some b => String.eqb (r_cut a) (r_cut b)
  | _, _ => false
  end.
Lemma cut_text g b i : cut_at (layout g) b i ->
  exists r, nth_error (rows g) i = Some r /\ error_text g b = Some (r_cut r).
Proof. rewrite text_scan, <- rows_layout. apply cut_scan. Qed.
Definition confused_dec (g : datagram) (i j : nat) : bool :=
  match g with
  | GAck => (Nat.eqb i 5 && Nat.eqb j 6) || (Nat.eqb i 6 && Nat.eqb j 5)
  | GFeature => (Nat.eqb i 5 && Nat.eqb j 6) || (Nat.eqb i 6 && Nat.eqb j 5) || (Nat.eqb i 8 && Nat.eqb j 9) || (Nat.eqb i 9 && Nat.eqb j 8)
  | _ => false
  end.
Lemma names_checked : forallb (fun g => forallb (fun i => forallb (fun j =>
    Bool.eqb (same_name g i j) ((Nat.eqb i j || confused_dec g i j))) (seq 0 (List.length (rows g)))) (seq 0 (List.length (rows g))))
  [GConnectResponse; GStateRequest; GStateResponse; GDisconnectRequest; GDisconnectResponse; GHeader; GTunnelling; GAck; GFeature] = true.
Proof. vm_compute. reflexivity. Qed.
Lemma cut_confused g b b' i j : cut_at (layout g) b i -> cut_at (layout g) b' j ->
  (error_text g b = error_text g b' <-> i = j \/ confused g i j).
Proof.
  intros H K. destruct (cut_text _ _ _ H) as (r&E&->). destruct (cut_text _ _ _ K) as (r'&E'&->).
  pose proof names_checked as N. rewrite forallb_forall in N. specialize (N g ltac:(destruct g; cbn [In]; tauto)).
  rewrite forallb_forall in N. specialize (N i ltac:(apply in_seq; pose proof (proj1 (nth_error_Some (rows g) i) ltac:(congruence)); lia)).
  rewrite forallb_forall in N. specialize (N j ltac:(apply in_seq; pose proof (proj1 (nth_error_Some (rows g) j) ltac:(congruence)); lia)).
  unfold same_name in N. rewrite E, E' in N. apply Bool.eqb_prop in N.
  assert (CD : confused_dec g i j = true <-> confused g i j) by (unfold confused_dec, confused; destruct g; lia).
  split.
  - intro T. injection T as T. rewrite (proj2 (String.eqb_eq _ _) T) in N. symmetry in N. apply orb_prop in N.
    destruct N as [N|N]; [left; apply Nat.eqb_eq; exact N|right; apply CD; exact N].
  - intro T. f_equal. apply String.eqb_eq. rewrite N. apply orb_true_iff. destruct T as [->|T]; [left; apply Nat.eqb_refl|right; apply CD; exact T].
Qed.
Lemma cut_says g b i : cut_at (layout g) b i -> exists what, error_text g b = Some ("Unable to read " ++ what)%string.
Proof.
  intro H. destruct (cut_text _ _ _ H) as (r&E&->).
  destruct g; cbn [rows hpai_rows crd_rows head_rows tunnel_rows app] in E;
    repeat (destruct i as [|i]; cbn [nth_error] in E; try discriminate E); injection E as <-; cbn [r_cut row_of free];
    eexists; reflexivity.
Qed.
Lemma last_word_6 before w : (before ++ " " ++ w)%string = "KNXIP version should be 0x10 instead of 06"%string -> w <> EmptyString ->
  forall v, number_value 10 w 0 = Some v \/ number_value 16 w 0 = Some v -> v = 6.
Proof.
  intros E N v H.
  repeat (destruct before as [|? before]; cbn in E;
    [first [discriminate E | injection E as E; subst w; vm_compute in H; destruct H as [H|H]; try discriminate H; injection H as H; symmetry; exact H]
    |first [discriminate E | injection E as _ E]]).
Qed.
Lemma full_refuted :
  ~ (forall g b i v, bytes b -> wrong_at (layout g) b i v -> ~ status_field g i ->
       exists t, error_text g b = Some t /\ states t v).
Proof.
  intro H. destruct (H GConnectResponse [6; 0x20] 1%nat 0x20) as (t&E&before&w&T&N&V).
  - repeat constructor.
  - cbn. exists 6, [0x20]. split; [reflexivity|]. split; [reflexivity|]. split; [reflexivity|]. exists []. reflexivity.
  - intros (_&X). discriminate X.
  - cbv in E. injection E as <-. symmetry in T. apply (last_word_6 _ _ T N) in V. discriminate V.
Qed.
Lemma ack_confused : exists b b',
  cut_at (layout GAck) b 5 /\ cut_at (layout GAck) b' 6 /\ error_text GAck b = error_text GAck b'.
Proof.
  exists [6; 0x10; 4; 0x21; 0; 10; 4], [6; 0x10; 4; 0x21; 0; 10; 4; 1]. split; [|split; [|reflexivity]]; cbn.
  - exists 6, [0x10; 4; 0x21; 0; 10; 4]. do 2 (split; [reflexivity|]).
    exists 0x10, [4; 0x21; 0; 10; 4]. do 2 (split; [reflexivity|]).
    exists 0x0421, [0; 10; 4]. do 2 (split; [reflexivity|]).
    exists 10, [4]. do 2 (split; [reflexivity|]). exists 4, []. do 2 (split; [reflexivity|]). cbn. lia.
  - exists 6, [0x10; 4; 0x21; 0; 10; 4; 1]. do 2 (split; [reflexivity|]).
    exists 0x10, [4; 0x21; 0; 10; 4; 1]. do 2 (split; [reflexivity|]).
    exists 0x0421, [0; 10; 4; 1]. do 2 (split; [reflexivity|]).
    exists 10, [4; 1]. do 2 (split; [reflexivity|]). exists 4, [1]. do 2 (split; [reflexivity|]).
    exists 1, []. do 2 (split; [reflexivity|]). cbn. lia.
Qed.
