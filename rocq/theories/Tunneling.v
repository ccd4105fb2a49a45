(** Model of src/packets/tunneling.rs. *)
From Verif Require Import Base.
Open Scope parser_scope.

(** tunneling.rs:9-13. *)
Record tunneling_request := { tr_chan : N; tr_seq : N; tr_cemi : list N }.

(** tunneling.rs:278-290. *)
Definition verify_header : parser unit :=
  size <- read_u8 ;; ensure (size =? 6) ;;;
  version <- read_u8 ;; ensure (version =? 0x10).

(** tunneling.rs:28-37.  [10 + self.cemi.len() as u16] is a u16 addition. *)
Definition tunneling_request_packet (p : profile) (t : tunneling_request) : res (list N) :=
  match add_chk p u16_max1 10 (as_u16 (lenN (tr_cemi t))) with
  | Ok size => Ok ([0x06; 0x10; 0x04; 0x20] ++ be16 size
                   ++ [4; tr_chan t; tr_seq t; 0] ++ tr_cemi t)
  | Err => Err
  | Panic => Panic
  end.

(** tunneling.rs:76: [vec![0; size as usize - 10]].  When [size < 10] the
    subtraction panics in Debug; in Release it wraps to more than isize::MAX
    bytes and the allocation panics with "capacity overflow". *)
Definition cemi_len (size : N) : res nat :=
  if 10 <=? size then Ok (N.to_nat (size - 10)) else Panic.

(** tunneling.rs:39-86. *)
Definition tunneling_request_from_packet : parser tunneling_request :=
  verify_header ;;;
  code <- read_u16 ;; ensure (code =? 0x0420) ;;;
  size <- read_u16 ;;
  ssize <- read_u8 ;; ensure (ssize =? 4) ;;;
  chan <- read_u8 ;;
  seq <- read_u8 ;;
  _pad <- read_u8 ;;
  n <- lift (cemi_len size) ;;
  cemi <- read_zeroed n ;;
  ret {| tr_chan := chan; tr_seq := seq; tr_cemi := cemi |}.

(** tunneling.rs:93-97. *)
Record tunneling_ack := { ta_chan : N; ta_seq : N; ta_status : N }.

(** tunneling.rs:108-115. *)
Definition tunneling_ack_packet (a : tunneling_ack) : list N :=
  [0x06; 0x10; 0x04; 0x21; 0; 0x0a; 4; ta_chan a; ta_seq a; ta_status a].

(** tunneling.rs:117-155. *)
Definition tunneling_ack_from_packet : parser tunneling_ack :=
  verify_header ;;;
  code <- read_u16 ;; ensure (code =? 0x0421) ;;;
  size <- read_u16 ;; ensure (size =? 0x0a) ;;;
  ssize <- read_u8 ;; ensure (ssize =? 4) ;;;
  chan <- read_u8 ;;
  seq <- read_u8 ;;
  status <- read_u8 ;;
  ret {| ta_chan := chan; ta_seq := seq; ta_status := status |}.

(** tunneling.rs:160-165. *)
Inductive knx_ip_feature := MaskVersion | FIndividualAddress | MaxApduLength | InfoServiceEnable.

(** [feature as u8]. *)
Definition feature_code (f : knx_ip_feature) : N :=
  match f with
  | MaskVersion => 0x02
  | FIndividualAddress => 0x06
  | MaxApduLength => 0x07
  | InfoServiceEnable => 0x08
  end.

(** tunneling.rs:292-304. *)
Definition feature_try_from (v : N) : res knx_ip_feature :=
  if v =? feature_code MaskVersion then Ok MaskVersion
  else if v =? feature_code FIndividualAddress then Ok FIndividualAddress
  else if v =? feature_code MaxApduLength then Ok MaxApduLength
  else if v =? feature_code InfoServiceEnable then Ok InfoServiceEnable
  else Err.

(** tunneling.rs:168-173. *)
Record feature_set := { fs_feature : knx_ip_feature; fs_value : N; fs_chan : N; fs_seq : N }.

(** tunneling.rs:185-195. *)
Definition feature_set_packet (f : feature_set) : list N :=
  [0x06; 0x10; 0x04; 0x24; 0; 0x0d; 4; fs_chan f; fs_seq f; 0;
   feature_code (fs_feature f); 0; fs_value f].

(** tunneling.rs:199-205. *)
Record feature_resp :=
  { fr_feature : knx_ip_feature; fr_value : N; fr_status : N; fr_chan : N; fr_seq : N }.

(** tunneling.rs:208-218. *)
Definition feature_resp_packet (f : feature_resp) : list N :=
  [0x06; 0x10; 0x04; 0x24; 0; 0x0d; 4; fr_chan f; fr_seq f; 0;
   feature_code (fr_feature f); 0; fr_value f].

(** tunneling.rs:220-275. *)
Definition feature_resp_from_packet : parser feature_resp :=
  verify_header ;;;
  code <- read_u16 ;; ensure (code =? 0x0423) ;;;
  size <- read_u16 ;; ensure (size =? 0x0d) ;;;
  ssize <- read_u8 ;; ensure (ssize =? 4) ;;;
  chan <- read_u8 ;;
  seq <- read_u8 ;;
  _reserved <- read_u8 ;;
  fcode <- read_u8 ;;
  feature <- lift (feature_try_from fcode) ;;
  status <- read_u8 ;;
  value <- read_u8 ;;
  ret {| fr_feature := feature; fr_value := value; fr_status := status;
         fr_chan := chan; fr_seq := seq |}.
