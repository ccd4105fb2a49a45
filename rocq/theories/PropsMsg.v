(** C156, C157: what the errors of the decoders say. *)
From Verif Require Import Base Addresses Core Tunneling Messages Wire MsgSpec MsgView MessageProofs.
Open Scope N_scope.

(** ** C156: the error about a wrong field states the value found *)

(** The decoders with texts are the decoders all other theorems are about. *)
Theorem C156_same_decoders :
  same m_hpai hpai_from_packet /\ same m_crd crd_from_packet /\
  same m_connection_response connection_response_from_packet /\
  same m_connstate_request connstate_request_from_packet /\
  same m_connstate_response connstate_response_from_packet /\
  same m_disconnect_request disconnect_request_from_packet /\
  same m_disconnect_response disconnect_response_from_packet /\
  same m_header header_from_packet /\
  same m_tunneling_request tunneling_request_from_packet /\
  same m_tunneling_ack tunneling_ack_from_packet /\
  same m_feature_resp feature_resp_from_packet.
Proof. exact same_all. Qed.

(** An error is about the first field that is wrong or missing, and there is one. *)
Theorem C156_rejected : forall g b, bytes b ->
  ((exists t, error_text g b = Some t) <->
   (exists i v, wrong_at (layout g) b i v) \/ (exists i, cut_at (layout g) b i)).
Proof. exact rejected_iff. Qed.

(** FULL STATEMENT (false):
      forall g b i v, bytes b -> wrong_at (layout g) b i v -> ~ status_field g i ->
        exists t, error_text g b = Some t /\ states t v.
    Missing: the version in the five decoders of core.rs that check it. *)
Theorem C156_values_partial : forall g b i v, bytes b -> wrong_at (layout g) b i v ->
  ~ version_field g i -> ~ status_field g i ->
  exists t, error_text g b = Some t /\ states t v.
Proof. exact value_stated. Qed.

(** The error about a wrong version is the same for every wrong version: it
    prints the header size (06, " 6") or the version wanted (10). *)
Theorem C156_version_refuted : forall g b v, version_field g 1 -> wrong_at (layout g) b 1 v ->
  error_text g b = Some (match g with
                         | GConnectResponse => "KNXIP version should be 0x10 instead of 06"
                         | GHeader => "KNXIP protocol version should be 0x10 instead of 10"
                         | _ => "KNXIP version should be 0x10 instead of  6"
                         end)%string.
Proof. exact version_text. Qed.
Theorem C156_full_refuted :
  ~ (forall g b i v, bytes b -> wrong_at (layout g) b i v -> ~ status_field g i ->
       exists t, error_text g b = Some t /\ states t v).
Proof.
  exact full_refuted.
Qed.

(** A refused connection: the error gives the reason. *)
Theorem C156_status : forall b s, wrong_at (layout GConnectResponse) b 5 s ->
  error_text GConnectResponse b = Some (refusal s).
Proof. exact status_text. Qed.

Example C156_example_value :
  wrong_at (layout GAck) [6; 0x10; 4; 0x21; 0; 0x1f; 4; 1; 0; 0] 3 0x1f /\
  error_text GAck [6; 0x10; 4; 0x21; 0; 0x1f; 4; 1; 0; 0] = Some "Packet size should be 0x0a instead of 1f"%string.
Proof.
  split; [|reflexivity]. cbn.
  exists 6, [0x10; 4; 0x21; 0; 0x1f; 4; 1; 0; 0]. split; [reflexivity|]. split; [reflexivity|].
  exists 0x10, [4; 0x21; 0; 0x1f; 4; 1; 0; 0]. split; [reflexivity|]. split; [reflexivity|].
  exists 0x0421, [0; 0x1f; 4; 1; 0; 0]. split; [reflexivity|]. split; [reflexivity|].
  split; [reflexivity|]. exists [4; 1; 0; 0]. reflexivity.
Qed.
Example C156_example_version :
  error_text GConnectResponse [6; 0x20; 2; 6; 0; 20] = Some "KNXIP version should be 0x10 instead of 06"%string /\
  error_text GHeader [6; 0x20; 2; 6; 0; 20] = Some "KNXIP protocol version should be 0x10 instead of 10"%string.
Proof. split; reflexivity. Qed.
Example C156_example_status :
  error_text GConnectResponse [6; 0x10; 2; 6; 0; 8; 0; 0x24] = Some "No more connections available on target KNX/IP device"%string.
Proof. reflexivity. Qed.

(** ** C157: the error about a datagram that is too short names the missing field *)
(** FULL STATEMENT (false): the texts for two different missing fields differ:
      forall g b b' i j, cut_at (layout g) b i -> cut_at (layout g) b' j ->
        error_text g b = error_text g b' -> i = j.
    Missing: the fields of [confused]. *)
Theorem C157_short_partial : forall g b b' i j, cut_at (layout g) b i -> cut_at (layout g) b' j ->
  (error_text g b = error_text g b' <-> i = j \/ confused g i j).
Proof. exact cut_confused. Qed.
Theorem C157_unable : forall g b i, cut_at (layout g) b i ->
  exists what, error_text g b = Some ("Unable to read " ++ what)%string.
Proof. exact cut_says. Qed.
(** Without its sequence number an acknowledgement is said to lack its channel. *)
Theorem C157_ack_refuted : exists b b',
  cut_at (layout GAck) b 5 /\ cut_at (layout GAck) b' 6 /\ error_text GAck b = error_text GAck b'.
Proof. exact ack_confused. Qed.
Example C157_example :
  error_text GAck [6; 0x10; 4; 0x21; 0; 10; 4; 1; 0] =
    Some "Unable to read status Error { kind: UnexpectedEof, message: ""failed to fill whole buffer"" }"%string.
Proof. reflexivity. Qed.
