(** The project's own unit tests, run in the model: the model gives the results
    the tests assert. *)
From Verif Require Import Base Addresses Apdu Emi Core DpTypes.
From Coq Require Import String Ascii List ZArith NArith.
From Coq Require Import Floats.SpecFloat.
Import ListNotations.
Open Scope N_scope.

Definition text (s : string) : list N := map N_of_ascii (list_ascii_of_string s).

(** addresses.rs:250-269. *)
Example parse_individual_address :
  addr_try_from (text "1.2.3") = Ok (Individual {| ia_area := 1; ia_line := 2; ia_address := 3 |}) /\
  addr_try_from (text "1.2.3.4") = Err /\ addr_try_from (text "1.2") = Err /\ addr_try_from (text "1.2.256") = Err.
Proof. vm_compute. repeat split. Qed.
(** addresses.rs:272-302. *)
Example parse_group_address :
  addr_try_from (text "1") = Ok (Group1Level {| g1_main := 1 |}) /\
  addr_try_from (text "1/2") = Ok (Group2Level {| g2_main := 1; g2_sub := 2 |}) /\
  addr_try_from (text "1/2/3") = Ok (Group3Level {| g3_main := 1; g3_middle := 2; g3_sub := 3 |}) /\
  addr_try_from (text "1/2/3/4") = Err.
Proof. vm_compute. repeat split. Qed.
(** addresses.rs:305-320. *)
Example parse_group_address_from_u8 :
  Forall (fun a => group3_from_u16 (group3_to_u16 a) = a)
    [{| g3_main := 1; g3_middle := 1; g3_sub := 1 |}; {| g3_main := 16; g3_middle := 4; g3_sub := 128 |}].
Proof. vm_compute. repeat constructor. Qed.
(** apdu.rs:99-103. *)
Example test_group_read : firstn 2 (apci_packet a_group_value_read) = [0; 0].
Proof. reflexivity. Qed.
(** emi.rs:328-338. *)
Example bit_update : forall p, exists c i,
  run_on (cemi_from_packet p) [0x29; 0x00; 0xbc; 0xe0; 0x11; 0x0b; 0x0a; 0x01; 0x01; 0x00; 0x81] = Ok c /\
  ce_code c = 0x29 /\ ce_infos c = [] /\ ldata_ind_from_cemi c = Ok i /\ length (li_value i) = 1%nat.
Proof. intros []; eexists _, _; vm_compute; repeat split. Qed.
(** core.rs:1298-1311. *)
Example parse_search_request : exists h,
  run_on search_request_from_packet [0x06; 0x10; 0x02; 0x01; 0x00; 0x0E; 0x08; 0x01; 192; 168; 200; 12; 0x0E; 0x57] = Ok h /\
  hp_ip h = [192; 168; 200; 12] /\ hp_port h = 3671.
Proof. eexists. vm_compute. repeat split. Qed.
(** core.rs:1315-1365. *)
Example parse_search_response : forall p, exists r,
  run_on (search_response_from_packet p)
    ([0x06; 0x10; 0x02; 0x02; 0x00; 0x4E; 0x08; 0x01; 192; 168; 200; 12;
      0xC3; 0xB4; 0x36; 0x01; 0x02; 0x01; 0x11; 0x00; 0x00; 0x11; 0x00; 0x01; 0x11; 0x11; 0x11; 0x11;
      224; 0; 23; 12; 0x45; 0x49; 0x42; 0x6E; 0x65; 0x74] ++ text "MYHOME" ++ [10] ++ repeat 0 23 ++
     [0x0A; 0x02; 0x02; 0x01; 0x03; 0x01; 0x04; 0x01; 0x05; 0x01]) = Ok r /\
  di_medium (sr_device r) = TP1 /\ di_status (sr_device r) = 1 /\
  individual_try_from (text "1.1.0") = Ok (di_addr (sr_device r)) /\
  di_project (sr_device r) = 0x11 /\ di_serial (sr_device r) = [0x00; 0x01; 0x11; 0x11; 0x11; 0x11] /\
  di_multicast (sr_device r) = [224; 0; 23; 12] /\ di_mac (sr_device r) = [0x45; 0x49; 0x42; 0x6E; 0x65; 0x74] /\
  (exists n, iso_encode (text "MYHOME" ++ [10]) = Some n /\ di_name (sr_device r) = n ++ repeat 0 23) /\
  length (sf_list (sr_families r)) = 4%nat /\ hd_error (sf_list (sr_families r)) = Some (2, 1).
Proof. intros []; eexists; vm_compute; repeat split; eexists; repeat split. Qed.
(** dp_types.rs:490-498: 0.0, -10.8, -0.01, 188.95999. *)
Definition back (p : profile) (x : spec_float) : Prop :=
  exists bs, float_to_bytes p 117 x = Done bs /\ bytes_to_float p bs = Ok x.
Example conversion : forall p,
  Forall (back p) [S754_zero false; f_lit (-108) 10; f_lit (-1) 100; S754_finite false 12383682 (-16)].
Proof. intros []; repeat (apply Forall_cons; [eexists; split; [vm_compute; reflexivity|vm_compute; reflexivity]|]); apply Forall_nil. Qed.
