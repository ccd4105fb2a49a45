(** Model of src/packets/apdu.rs and src/packets/tpdu.rs. *)
From Verif Require Import Base.

(** apdu.rs:65-68. *)
Record apci := { apci_code : N; apci_ext : option N }.
(** apdu.rs:13-16. *)
Inductive apdu_data := Small (b : N) | Big (bs : list N).
(** apdu.rs:7-10. *)
Record apdu := { apdu_apci : apci; apdu_payload : apdu_data }.

(** apdu.rs:71-80. *)
Definition a_group_value_read : apci := {| apci_code := 0; apci_ext := Some 0 |}.
Definition a_group_value_write : apci := {| apci_code := 2; apci_ext := None |}.

(** apdu.rs:82-91 (the shift by 6 stays within the u8). *)
Definition apci_packet (a : apci) : list N :=
  let hw := N.shiftr (N.land (apci_code a) 12) 2 in
  let lw := as_u8 (N.shiftl (N.land (apci_code a) 3) 6) in
  let lw := match apci_ext a with Some e => N.lor lw (N.land e 0x3f) | None => lw end in
  [hw; lw].

(** apdu.rs:23-28. *)
Definition group_value_read : apdu :=
  {| apdu_apci := a_group_value_read; apdu_payload := Small 0 |}.

(** apdu.rs:30-36: [data[0]] panics on an empty vector. *)
Definition group_value_write (data : list N) (small : bool) : res apdu :=
  if small then
    match data with
    | b :: _ => Ok {| apdu_apci := a_group_value_write; apdu_payload := Small b |}
    | [] => Panic
    end
  else Ok {| apdu_apci := a_group_value_write; apdu_payload := Big data |}.

(** apdu.rs:50-58. *)
Definition apdu_packet (a : apdu) : list N :=
  match apci_packet (apdu_apci a) with
  | [hw; lw] =>
      match apdu_payload a with
      | Small b => [hw; N.lor lw (N.land b 0x3f)]
      | Big bs => [hw; lw] ++ bs
      end
  | other => other (* unreachable: apci_packet has two bytes *)
  end.

(** tpdu.rs:18-27. *)
Inductive tpdu_kind := KData | KControl.
Inductive tpdu_address_type := TIndividual | TGroup.
(** tpdu.rs:9-15. *)
Record tpdu := {
  tp_addr : tpdu_address_type; tp_kind : tpdu_kind; tp_numbered : bool;
  tp_seq : N; tp_apdu : apdu }.

(** tpdu.rs:30-92. *)
Definition t_data_broadcast (a : apdu) : tpdu :=
  {| tp_addr := TGroup; tp_kind := KData; tp_numbered := false; tp_seq := 0; tp_apdu := a |}.
Definition t_data_group (a : apdu) : tpdu :=
  {| tp_addr := TGroup; tp_kind := KData; tp_numbered := false; tp_seq := 0; tp_apdu := a |}.
Definition t_data_tag_group (a : apdu) : tpdu :=
  {| tp_addr := TGroup; tp_kind := KData; tp_numbered := false; tp_seq := 1; tp_apdu := a |}.
Definition t_data_individual (a : apdu) : tpdu :=
  {| tp_addr := TIndividual; tp_kind := KData; tp_numbered := false; tp_seq := 0; tp_apdu := a |}.
Definition t_data_connected (a : apdu) (seq : N) : tpdu :=
  {| tp_addr := TIndividual; tp_kind := KData; tp_numbered := true; tp_seq := seq; tp_apdu := a |}.
Definition t_connect (a : apdu) : tpdu :=
  {| tp_addr := TIndividual; tp_kind := KControl; tp_numbered := false; tp_seq := 0; tp_apdu := a |}.
Definition t_disconnect (a : apdu) : tpdu :=
  {| tp_addr := TIndividual; tp_kind := KControl; tp_numbered := false; tp_seq := 1; tp_apdu := a |}.

(** tpdu.rs:94-96: the transport control field is not emitted. *)
Definition tpdu_packet (t : tpdu) : list N := apdu_packet (tp_apdu t).
