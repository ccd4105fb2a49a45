(** The texts of the errors returned by the decoders of the control and
    tunnelling datagrams (src/packets/core.rs, src/packets/tunneling.rs).

    The same code as in Core.v and Tunneling.v, this time with the messages;
    MessageProofs.v shows that leaving them out gives those decoders back. *)
From Coq Require Export String Ascii.
From Verif Require Import Base Addresses Core Tunneling.
Open Scope N_scope.

(** ** Formatting of integers *)
Definition digit (upper : bool) (d : N) : ascii :=
  match String.get (N.to_nat d) (if upper then "0123456789ABCDEF" else "0123456789abcdef") with
  | Some c => c
  | None => "?"%char
  end.
Fixpoint digits (fuel : nat) (upper : bool) (base n : N) (acc : string) : string :=
  match fuel with
  | O => acc
  | S f =>
      let acc := String (digit upper (n mod base)) acc in
      if n / base =? 0 then acc else digits f upper base (n / base) acc
  end.
(** [{}] and [{:?}] of a u8 or u16; [{:0x?}] (a width is missing, so the 0 has
    no effect); [{:X}].  Seven digits are enough for both bases. *)
Definition show_dec (n : N) : string := digits 7 false 10 n "".
Definition show_hex (n : N) : string := digits 7 false 16 n "".
Definition show_upper (n : N) : string := digits 7 true 16 n "".
(** [{:2X}], [{:02X}]: at least two characters. *)
Definition pad (c : ascii) (s : string) : string :=
  match s with String _ EmptyString => String c s | _ => s end.
Definition show_2X (n : N) : string := pad " " (show_upper n).
Definition show_02X (n : N) : string := pad "0" (show_upper n).
(** [{:?}] of the error of [read_exact] at the end of a [Cursor]. *)
Definition eof : string :=
  "Error { kind: UnexpectedEof, message: ""failed to fill whole buffer"" }".

(** ** Readers with messages *)
Inductive mres (A : Type) := MOk (a : A) | MErr (text : string) | MPanic.
Arguments MOk {A} a.
Arguments MErr {A} text.
Arguments MPanic {A}.
Definition mparser (A : Type) : Type := list N -> mres (A * list N).
Definition mret {A} (a : A) : mparser A := fun r => MOk (a, r).
Definition mbind {A B} (p : mparser A) (f : A -> mparser B) : mparser B :=
  fun r => match p r with
           | MOk (a, r') => f a r'
           | MErr t => MErr t
           | MPanic => MPanic
           end.
Declare Scope mparser_scope.
Delimit Scope mparser_scope with mparser.
Notation "x <- p ;; q" := (mbind p (fun x => q))
  (at level 61, p at next level, right associativity) : mparser_scope.
Notation "p ;;; q" := (mbind p (fun _ => q))
  (at level 61, right associativity) : mparser_scope.
Open Scope mparser_scope.

(** [match read { Ok(v) => v, Err(e) => whatever!("Unable to read <what> {:?}", e) }]. *)
Definition missing (what : string) : string := "Unable to read " ++ what ++ " " ++ eof.
Definition mread {A} (p : parser A) (text : string) : mparser A :=
  fun r => match p r with Ok x => MOk x | Err => MErr text | Panic => MPanic end.
Definition m_u8 (what : string) : mparser N := mread read_u8 (missing what).
Definition m_u16 (what : string) : mparser N := mread read_u16 (missing what).
(** [ensure_whatever!(c, text)]. *)
Definition mensure (c : bool) (text : string) : mparser unit :=
  fun r => if c then MOk (tt, r) else MErr text.
(** A computation that can only panic. *)
Definition mlift {A} (x : res A) (text : string) : mparser A :=
  fun r => match x with Ok a => MOk (a, r) | Err => MErr text | Panic => MPanic end.

(** core.rs:740-780. *)
Definition m_hpai : mparser hpai :=
  size <- m_u8 "HPAI size" ;; mensure (size =? 8) ("HPAI size must be 8 instead of " ++ show_dec size) ;;;
  code <- m_u8 "HPAI host protocol code" ;;
  ip1 <- m_u8 "HPAI IP part 1" ;;
  ip2 <- m_u8 "HPAI IP part 2" ;;
  ip3 <- m_u8 "HPAI IP part 3" ;;
  ip4 <- m_u8 "HPAI IP part 4" ;;
  port <- m_u16 "HPAI IP Port" ;;
  mret {| hp_code := code; hp_ip := [ip1; ip2; ip3; ip4]; hp_port := port |}.

(** core.rs:122-146. *)
Definition m_crd : mparser individual :=
  size <- m_u8 "CRD packet size" ;;
  mensure (size =? 4) ("Connection Response Data Block should have length 4 instead of " ++ show_dec size) ;;;
  conn <- m_u8 "CRD tunnel connection" ;;
  mensure (conn =? 4)
    ("Connection Response Data Block should have connection type 4 (TUNNELING) instead of " ++ show_dec conn) ;;;
  addr <- m_u16 "CRD KNX individual address" ;;
  mret (individual_from_u16 addr).

(** core.rs:270-282: the texts for the statuses rejected while parsing. *)
Definition m_status (status : N) : mparser unit :=
  if status =? 0x22 then fun _ => MErr "Target KNX/IP device does not support requested connection type"
  else if status =? 0x23 then fun _ => MErr "Target KNX/IP device does not support one or more requested connection options"
  else if status =? 0x24 then fun _ => MErr "No more connections available on target KNX/IP device"
  else if status =? 0x29 then fun _ => MErr "Target KNX/IP device does not support requested tunneling layer"
  else mret tt.

(** core.rs:223-293.  Line 234 formats [header_size], not [version]. *)
Definition m_connection_response : mparser connection_response :=
  hs <- m_u8 "header size" ;; mensure (hs =? 6) ("Header size should be 6 instead of " ++ show_dec hs) ;;;
  v <- m_u8 "KNXIP version" ;; mensure (v =? 0x10) ("KNXIP version should be 0x10 instead of " ++ show_02X hs) ;;;
  code <- m_u16 "Connect Response" ;;
  mensure (code =? 0x0206) ("Connect response should be 0x0206 instead of " ++ show_02X code) ;;;
  size <- m_u16 "packet size" ;;
  mensure (8 <=? size) ("Packet size should greather than 8, received size " ++ show_dec size) ;;;
  chan <- m_u8 "Communication Channel Id" ;;
  status <- m_u8 "status" ;;
  m_status status ;;;
  ep <- m_hpai ;;
  crd <- m_crd ;;
  mret {| cr_chan := chan; cr_status := status; cr_endpoint := ep; cr_crd := crd |}.

(** core.rs:327-371.  Line 338 formats [header_size], not [version]. *)
Definition m_connstate_request : mparser connstate_request :=
  hs <- m_u8 "header size" ;; mensure (hs =? 6) ("Header size should be 6 instead of " ++ show_dec hs) ;;;
  v <- m_u8 "KNXIP version" ;; mensure (v =? 0x10) ("KNXIP version should be 0x10 instead of " ++ show_2X hs) ;;;
  code <- m_u16 "Connectstate request code" ;;
  mensure (code =? 0x0207) ("Connect request should be 0x0207 instead of " ++ show_2X code) ;;;
  _size <- m_u16 "packet size" ;;
  chan <- m_u8 "communication channel id" ;;
  _pad <- m_u8 "padding data" ;;
  ep <- m_hpai ;;
  mret {| sq_chan := chan; sq_endpoint := ep |}.

(** core.rs:400-447.  Line 411 formats [header_size], not [version]. *)
Definition m_connstate_response : mparser connstate_response :=
  hs <- m_u8 "header size" ;; mensure (hs =? 6) ("Header size should be 6 instead of " ++ show_dec hs) ;;;
  v <- m_u8 "KNXIP version" ;; mensure (v =? 0x10) ("KNXIP version should be 0x10 instead of " ++ show_2X hs) ;;;
  code <- m_u16 "Connectstate Response" ;;
  mensure (code =? 0x0208) ("Connect response should be 0x0208 instead of " ++ show_2X code) ;;;
  size <- m_u16 "packet size" ;;
  mensure (size =? 8) ("Packet size should be 8, received size " ++ show_dec size) ;;;
  chan <- m_u8 "Communication Channel Id" ;;
  status <- m_u8 "status" ;;
  mret {| ss_chan := chan; ss_status := status |}.

(** core.rs:478-503. *)
Definition m_disconnect_request : mparser disconnect_request :=
  hs <- m_u8 "header size" ;; mensure (8 <=? hs) ("Header size should be at least 8 instead of " ++ show_dec hs) ;;;
  chan <- m_u8 "communication channel id" ;;
  _reserved <- m_u8 "reserved data" ;;
  ep <- m_hpai ;;
  mret {| dq_chan := chan; dq_endpoint := ep |}.

(** core.rs:536-583.  Line 547 formats [header_size], not [version]. *)
Definition m_disconnect_response : mparser disconnect_response :=
  hs <- m_u8 "header size" ;; mensure (hs =? 6) ("Header size should be 6 instead of " ++ show_dec hs) ;;;
  v <- m_u8 "KNXIP version" ;; mensure (v =? 0x10) ("KNXIP version should be 0x10 instead of " ++ show_2X hs) ;;;
  code <- m_u16 "Disconnect Response" ;;
  mensure (code =? 0x020a) ("Disconnect response should be 0x020A instead of " ++ show_2X code) ;;;
  size <- m_u16 "packet size" ;;
  mensure (size =? 8) ("Packet size should be 8, received size " ++ show_dec size) ;;;
  chan <- m_u8 "Communication Channel Id" ;;
  status <- m_u8 "status" ;;
  mret {| ds_chan := chan; ds_status := status |}.

(** core.rs:51-86, the header of search datagrams.  Line 71 formats the version
    it wants, not the one it got.  The two [whatever_context] messages do not
    include the cause. *)
Definition m_header : mparser ip_header :=
  hl <- m_u8 "header length" ;; mensure (hl =? 6) ("Header length should be 6 instead of " ++ show_dec hl) ;;;
  v <- m_u8 "KNXIP version" ;; mensure (v =? 0x10) ("KNXIP protocol version should be 0x10 instead of " ++ show_2X 0x10) ;;;
  service <- mread read_u16 "Unable to read service type identifier" ;;
  total <- mread read_u16 "Unable to read total length" ;;
  mret {| h_service := service; h_total := total |}.

(** tunneling.rs:278-290. *)
Definition m_verify_header : mparser unit :=
  size <- mread read_u8 "Unable to read header size" ;;
  mensure (size =? 6) ("Header size should be 6 instead of " ++ show_dec size) ;;;
  version <- mread read_u8 "Unable to read header version" ;;
  mensure (version =? 0x10) ("Version should be 0x10 instead of " ++ show_hex version).

(** tunneling.rs:39-86. *)
Definition m_tunneling_request : mparser tunneling_request :=
  m_verify_header ;;;
  code <- m_u16 "code" ;; mensure (code =? 0x0420) ("Code should be 0x0420 instead of " ++ show_hex code) ;;;
  size <- m_u16 "packet size" ;;
  ssize <- m_u8 "message code" ;; mensure (ssize =? 4) ("Size should be 0x04 instead of " ++ show_dec ssize) ;;;
  chan <- m_u8 "communication channel id" ;;
  seq <- m_u8 "sequence number" ;;
  _pad <- m_u8 "padding" ;;
  n <- mlift (cemi_len size) "" ;;
  cemi <- mread (read_zeroed n) "" ;;
  mret {| tr_chan := chan; tr_seq := seq; tr_cemi := cemi |}.

(** tunneling.rs:117-155. *)
Definition m_tunneling_ack : mparser tunneling_ack :=
  m_verify_header ;;;
  code <- m_u16 "response code" ;; mensure (code =? 0x0421) ("Response code should be 0x0421 instead of " ++ show_hex code) ;;;
  size <- m_u16 "packet size" ;; mensure (size =? 0x0a) ("Packet size should be 0x0a instead of " ++ show_hex size) ;;;
  ssize <- m_u8 "struct size" ;; mensure (ssize =? 4) ("Structure size should be 0x04 instead of " ++ show_hex ssize) ;;;
  chan <- m_u8 "communication channel id" ;;
  seq <- m_u8 "communication channel id" ;;
  status <- m_u8 "status" ;;
  mret {| ta_chan := chan; ta_seq := seq; ta_status := status |}.

(** tunneling.rs:220-275, 292-304. *)
Definition m_feature_resp : mparser feature_resp :=
  m_verify_header ;;;
  code <- m_u16 "response code" ;; mensure (code =? 0x0423) ("Response code should be 0x0423 instead of " ++ show_hex code) ;;;
  size <- m_u16 "packet size" ;; mensure (size =? 0x0d) ("Packet size should be 0x0d instead of " ++ show_hex size) ;;;
  ssize <- m_u8 "struct size" ;; mensure (ssize =? 4) ("Structure size should be 0x04 instead of " ++ show_hex ssize) ;;;
  chan <- m_u8 "communication channel id" ;;
  seq <- m_u8 "communication channel id" ;;
  _reserved <- m_u8 "reserved field" ;;
  fcode <- m_u8 "status" ;;
  feature <- mlift (feature_try_from fcode) ("Unknown KNXIP feature " ++ show_dec fcode) ;;
  status <- m_u8 "status" ;;
  value <- m_u8 "value" ;;
  mret {| fr_feature := feature; fr_value := value; fr_status := status;
          fr_chan := chan; fr_seq := seq |}.
