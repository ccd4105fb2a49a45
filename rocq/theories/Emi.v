(** Model of src/packets/emi.rs. *)
From Verif Require Import Base Addresses Apdu.
Open Scope parser_scope.

(** emi.rs:248-275: the message codes the transport looks at. *)
Definition code_LBusmonInd : N := 0x2b.
Definition code_LDataReq : N := 0x11.
Definition code_LDataCon : N := 0x2e.
Definition code_LDataInd : N := 0x29.

(** emi.rs:278-290. *)
Inductive info_type :=
| PLMediumInfo | RFMediumInfo | BusmonitorStatusInfo | TimestampRelative
| TimeDelayUntilSending | ExtendedRelativeTime | BiBatInfo | RFMultiInfo
| PreambleAndPostamble | RFFastAckInfo | ManufacturerSpecificData.

(** [CEMIAdditionalInfoType as u8]. *)
Definition info_code (t : info_type) : N :=
  match t with
  | PLMediumInfo => 0x01 | RFMediumInfo => 0x02 | BusmonitorStatusInfo => 0x03
  | TimestampRelative => 0x04 | TimeDelayUntilSending => 0x05
  | ExtendedRelativeTime => 0x06 | BiBatInfo => 0x07 | RFMultiInfo => 0x08
  | PreambleAndPostamble => 0x09 | RFFastAckInfo => 0x0a
  | ManufacturerSpecificData => 0xfe
  end.

(** emi.rs:298-317. *)
Definition info_try_from (v : N) : res info_type :=
  if v =? info_code PLMediumInfo then Ok PLMediumInfo
  else if v =? info_code RFMediumInfo then Ok RFMediumInfo
  else if v =? info_code BusmonitorStatusInfo then Ok BusmonitorStatusInfo
  else if v =? info_code TimestampRelative then Ok TimestampRelative
  else if v =? info_code TimeDelayUntilSending then Ok TimeDelayUntilSending
  else if v =? info_code ExtendedRelativeTime then Ok ExtendedRelativeTime
  else if v =? info_code BiBatInfo then Ok BiBatInfo
  else if v =? info_code RFMultiInfo then Ok RFMultiInfo
  else if v =? info_code PreambleAndPostamble then Ok PreambleAndPostamble
  else if v =? info_code RFFastAckInfo then Ok RFFastAckInfo
  else if v =? info_code ManufacturerSpecificData then Ok ManufacturerSpecificData
  else Err.

(** emi.rs:293-296. *)
Record additional_info := { ai_type : info_type; ai_value : list N }.
(** emi.rs:187-191. *)
Record cemi := { ce_code : N; ce_infos : list additional_info; ce_service : list N }.

(** emi.rs:207-231: the [while position < additional_infos_size] loop.  Every
    iteration reads at least two bytes, so the number of unread bytes is enough
    fuel; running out is the impossible outcome [Panic] (see
    [cemi_loop_fuel] in EmiProofs.v).  [position] is a u8: line 230 adds
    [additional_info_size + 2] and then [position += ..], both u8 additions. *)
Fixpoint cemi_loop (p : profile) (fuel : nat) (size position : N)
         (acc : list additional_info) : parser (list additional_info) :=
  if position <? size then
    match fuel with
    | O => fun _ => Panic
    | S f =>
        tcode <- read_u8 ;;
        t <- lift (info_try_from tcode) ;;
        isize <- read_u8 ;;
        v <- read_zeroed (N.to_nat isize) ;;
        step <- lift (add_chk p u8_max1 isize 2) ;;
        position' <- lift (add_chk p u8_max1 position step) ;;
        cemi_loop p f size position' (acc ++ [{| ai_type := t; ai_value := v |}])
    end
  else ret acc.

(** emi.rs:195-243. *)
Definition cemi_from_packet (p : profile) : parser cemi :=
  msg_code <- read_u8 ;;
  infos_size <- read_u8 ;;
  infos <- (fun r => cemi_loop p (S (length r)) infos_size 0 [] r) ;;
  service <- read_to_end ;;
  ret {| ce_code := msg_code; ce_infos := infos; ce_service := service |}.

(** emi.rs:57-64. *)
Record ldata := {
  ld_src : N; ld_dest : N; ld_frame_type : bool; ld_repetition : bool;
  ld_system_broadcast : bool; ld_ack_request : bool }.
(** emi.rs:69-73. *)
Record ldata_ind := { li_cemi : cemi; li_data : ldata; li_value : list N }.
(** emi.rs:9-13. *)
Record ldata_con := { lc_cemi : cemi; lc_data : ldata; lc_confirm : bool }.

(** emi.rs:35-38 / 105-108: the flags taken from control field 1. *)
Definition ldata_of (control1 src dest : N) : ldata :=
  {| ld_src := src; ld_dest := dest;
     ld_frame_type := 0 <? N.land control1 0x80;
     ld_repetition := 0 <? N.land control1 (N.shiftl 1 5);
     ld_system_broadcast := 0 <? N.land control1 (N.shiftl 1 4);
     ld_ack_request := 0 <? N.land control1 (N.shiftl 1 1) |}.

(** emi.rs:16-53. *)
Definition ldata_con_from_cemi (c : cemi) : res ldata_con :=
  run_on
    (control1 <- read_u8 ;;
     _control2 <- read_u8 ;;
     src <- read_u16 ;;
     dest <- read_u16 ;;
     ret {| lc_cemi := c; lc_data := ldata_of control1 src dest;
            lc_confirm := N.land control1 1 =? 0 |})
    (ce_service c).

(** emi.rs:77-138.  The computed [apci] (line 110) is only logged. *)
Definition ldata_ind_from_cemi (c : cemi) : res ldata_ind :=
  run_on
    (control1 <- read_u8 ;;
     _control2 <- read_u8 ;;
     src <- read_u16 ;;
     dest <- read_u16 ;;
     len <- read_u8 ;;
     let length := if 0 <? len then len - 1 else 0 in
     octets_6_7 <- read_u16 ;;
     value <- (if 0 <? length then read_zeroed (N.to_nat length)
               else ret [as_u8 (N.land octets_6_7 0x3f)]) ;;
     ret {| li_cemi := c; li_data := ldata_of control1 src dest; li_value := value |})
    (ce_service c).

(** emi.rs:144-148. *)
Record ldata_req := { lr_priority : N; lr_dest : knx_address; lr_tpdu : tpdu }.
(** emi.rs:151-157. *)
Definition ldata_req_new (dest : knx_address) (t : tpdu) : ldata_req :=
  {| lr_priority := 3; lr_dest := dest; lr_tpdu := t |}.
(** emi.rs:159-161. *)
Definition set_priority (m : ldata_req) (priority : N) : ldata_req :=
  {| lr_priority := priority; lr_dest := lr_dest m; lr_tpdu := lr_tpdu m |}.

(** emi.rs:163-181.  Line 177: [tpdu_packet.len() as u8 - 1] is a u8
    subtraction after truncation to u8. *)
Definition ldata_req_packet (p : profile) (m : ldata_req) : res (list N) :=
  let control := N.lor (N.lor (N.lor (N.lor 0 (N.shiftl 1 7)) (N.shiftl 1 5)) (N.shiftl 1 4))
                       (N.shiftl (N.land (lr_priority m) 3) 2) in
  let control2 := 0xe0 in
  let tp := tpdu_packet (lr_tpdu m) in
  match sub_chk p u8_max1 (as_u8 (lenN tp)) 1 with
  | Ok len => Ok ([code_LDataReq; 0; control; control2; 0; 0]
                  ++ be16 (addr_to_u16 (lr_dest m)) ++ [len] ++ tp)
  | Err => Err
  | Panic => Panic
  end.
