(** Specification for C128 and C129: the octets read as a description
    information block and as a search response. *)
From Verif Require Import Base Addresses Core Wire Spec.
Open Scope N_scope.

(** Number of entries read from a block whose length octet is [sl], [head]
    octets of it not being entries: half the difference.  When [sl] is smaller, the
    difference wraps around in a release build; a debug build reads no such block. *)
Definition entries (p : profile) (sl head : N) (n : nat) : Prop :=
  (head <= sl /\ N.of_nat n = (sl - head) / 2) \/
  (sl < head /\ p = Release /\ N.of_nat n = (256 + sl - head) / 2).
(** [bs] is read as [d].  The length octet is kept but, apart from counting the
    entries, not compared with anything. *)
Definition dib_octets (p : profile) (d : dib) (bs : list N) : Prop :=
  match d with
  | DibDevice d => exists st addr, addr < 65536 /\ di_project d < 65536 /\
      bs = [di_len d; 0x01] ++ device_body (medium_num (di_medium d)) st addr (di_project d) (di_serial d)
             (di_multicast d) (di_mac d) (di_name d) /\
      di_status d = st mod 2 /\
      di_addr d = {| ia_area := addr / 4096; ia_line := addr / 256 mod 16; ia_address := addr mod 256 |} /\
      length (di_serial d) = 6%nat /\ length (di_multicast d) = 4%nat /\ length (di_mac d) = 6%nat /\ length (di_name d) = 30%nat
  | DibFamilies f => bs = [sf_len f; 0x02] ++ family_body (sf_list f) /\ entries p (sf_len f) 2 (length (sf_list f))
  | DibIpConfig c => bs = [ic_len c; 0x03] ++ ic_ip c ++ ic_mask c ++ ic_gateway c ++ [ic_caps c; ic_method c] /\
      length (ic_ip c) = 4%nat /\ length (ic_mask c) = 4%nat /\ length (ic_gateway c) = 4%nat
  | DibIpCurrent c => bs = [iu_len c; 0x04] ++ iu_ip c ++ iu_mask c ++ iu_gateway c ++ iu_dhcp c ++ [iu_method c; iu_reserved c] /\
      length (iu_ip c) = 4%nat /\ length (iu_mask c) = 4%nat /\ length (iu_gateway c) = 4%nat /\ length (iu_dhcp c) = 4%nat
  | DibAddresses a => bs = [ka_len a; 0x05] ++ ka_addr a ++ concat (ka_more a) /\ length (ka_addr a) = 4%nat /\
      Forall (fun x => length x = 4%nat) (ka_more a) /\ entries p (ka_len a) 4 (length (ka_more a))
  | DibManufacturer m => md_id m < 65536 /\ bs = [md_len m; 0xfe] ++ word (md_id m) ++ md_data m /\
      N.of_nat (length (md_data m)) = md_len m
  end.
(** A search response: a header whose total length is arbitrary, the control
    endpoint, a device block and, right after it, a families block. *)
Definition search_octets (p : profile) (r : search_response) (bs : list N) : Prop :=
  exists size x y, size < 65536 /\ wf_hpai (sr_control r) /\
    dib_octets p (DibDevice (sr_device r)) x /\ dib_octets p (DibFamilies (sr_families r)) y /\
    bs = [0x06; 0x10] ++ word 0x0202 ++ word size ++
         hpai_bytes (hp_code (sr_control r)) (hp_ip (sr_control r)) (hp_port (sr_control r)) ++ x ++ y.
(** Octets at which reading a block stops a debug build: a families block with a
    length octet below 2, an address block with one below 4. *)
Definition crash_block (bs : list N) : Prop :=
  exists sl rest, (bs = [sl; 0x02] ++ rest /\ sl < 2) \/ (bs = [sl; 0x05] ++ rest /\ sl < 4 /\ (4 <= length rest)%nat).
(** A search response with such a block at the place of the device block or after it. *)
Definition crash_octets (bs : list N) : Prop :=
  exists size c b, size < 65536 /\ wf_hpai c /\
    bs = [0x06; 0x10] ++ word 0x0202 ++ word size ++ hpai_bytes (hp_code c) (hp_ip c) (hp_port c) ++ b /\
    (crash_block b \/ exists d x y, dib_octets Debug (DibDevice d) x /\ b = x ++ y /\ crash_block y).
