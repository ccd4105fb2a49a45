(** Specification of a search: the replies devices send (03.08.02 Core, 7.6.2). *)
From Verif Require Import Base Addresses Core Search Wire Spec.
Open Scope N_scope.

(** What a device says about itself. *)
Record reply := {
  rp_control : hpai;                     (* control endpoint *)
  rp_medium : knx_medium;
  rp_status : N;                         (* device status octet *)
  rp_addr : N;                           (* individual address, 16 bits *)
  rp_project : N;
  rp_serial : list N;
  rp_multicast : list N;
  rp_mac : list N;
  rp_name : list N;
  rp_families : list (N * N);            (* family, version *)
}.
Definition wf_reply (r : reply) : Prop :=
  wf_hpai (rp_control r) /\ rp_addr r < 65536 /\ rp_project r < 65536 /\
  length (rp_serial r) = 6%nat /\ length (rp_multicast r) = 4%nat /\
  length (rp_mac r) = 6%nat /\ length (rp_name r) = 30%nat.
Definition reply_bytes (r : reply) : list N :=
  frame 0x0202 (hpai_bytes (hp_code (rp_control r)) (hp_ip (rp_control r)) (hp_port (rp_control r))
    ++ block 0x01 (device_body (medium_number (rp_medium r)) (rp_status r) (rp_addr r) (rp_project r)
                     (rp_serial r) (rp_multicast r) (rp_mac r) (rp_name r))
    ++ block 0x02 (family_body (rp_families r))).
(** The value the caller should see. *)
Definition reply_value (r : reply) : search_response :=
  {| sr_control := rp_control r;
     sr_device := {| di_len := 54; di_medium := rp_medium r; di_status := rp_status r mod 2;
                     di_addr := {| ia_area := rp_addr r / 4096; ia_line := rp_addr r / 256 mod 16; ia_address := rp_addr r mod 256 |};
                     di_project := rp_project r; di_serial := rp_serial r; di_multicast := rp_multicast r;
                     di_mac := rp_mac r; di_name := rp_name r |};
     sr_families := {| sf_len := 2 + 2 * N.of_nat (length (rp_families r)); sf_list := rp_families r |} |}.
(** The datagram [d] is [r], possibly followed by more octets, and fits the
    buffer of 100 octets. *)
Definition complete (d : list N) (r : reply) : Prop :=
  wf_reply r /\ (length d <= 100)%nat /\ exists rest, d = reply_bytes r ++ rest.
(** The events of a search that receives these datagrams. *)
Definition received (ds : list (list N)) : list search_event := map SRecv ds.
(** The same reply with another control endpoint. *)
Definition with_control (r : reply) (c : hpai) : reply :=
  {| rp_control := c; rp_medium := rp_medium r; rp_status := rp_status r; rp_addr := rp_addr r; rp_project := rp_project r;
     rp_serial := rp_serial r; rp_multicast := rp_multicast r; rp_mac := rp_mac r; rp_name := rp_name r; rp_families := rp_families r |}.

(** ** The whole call *)
(** The system setup routing address and the KNXnet/IP port (03.08.02, 8.6.3). *)
Definition discovery : list N * N := ([224; 0; 23; 12], 3671).
(** The search request naming this address (03.08.02, 7.6.1). *)
Definition request_from (ip : list N) (port : N) : list N := frame 0x0201 (hpai_bytes 1 ip port).
Definition wf_local (l : local_address) : Prop :=
  match l with LocalV4 ip port => length ip = 4%nat /\ bytes ip /\ port < 65536 | _ => True end.
(** The environment lets the request be sent from this address. *)
Definition sends_from (e : search_env) (ip : list N) (port : N) : Prop :=
  se_bind e = true /\ se_local e = LocalV4 ip port /\ se_send e = true.
