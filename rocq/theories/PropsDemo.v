(** Properties C117, C120-C122: names and sizes of devices found, and the demo
    programs.  Model in Demo.v, specification in SearchSpec.v and DemoSpec.v,
    proofs in SearchMore.v, DemoProofs.v and DemoMain.v. *)
From Verif Require Import Base Addresses Core Search Transport Demo Wire Spec TraceSpec TraceSpec2 SearchSpec DemoSpec
  SearchProofs SearchMore DemoProofs DemoMain TransportRuns.
Open Scope N_scope.

Definition hall : list N := [104; 97; 108; 108].
Definition padded : reply :=
  {| rp_control := {| hp_code := 1; hp_ip := [192; 168; 1; 7]; hp_port := 3671 |}; rp_medium := TP1; rp_status := 1; rp_addr := 0x1101;
     rp_project := 0; rp_serial := [0; 0xc5; 1; 2; 3; 4]; rp_multicast := [224; 0; 23; 12]; rp_mac := [0; 36; 109; 1; 2; 3];
     rp_name := hall ++ repeat 0 26; rp_families := [(2, 1); (3, 2); (4, 1)] |}.
Definition versatile : reply :=
  {| rp_control := {| hp_code := 1; hp_ip := [10; 0; 0; 9]; hp_port := 3671 |}; rp_medium := IP; rp_status := 0; rp_addr := 0x2204;
     rp_project := 7; rp_serial := [9; 9; 9; 9; 9; 9]; rp_multicast := [224; 0; 23; 12]; rp_mac := [1; 1; 1; 1; 1; 1];
     rp_name := repeat 66 30; rp_families := repeat (3, 1) 16 |}.
Lemma found : wf_reply padded /\ wf_reply versatile /\ complete (reply_bytes padded) padded.
Proof.
  assert (A : wf_reply padded) by (vm_compute; repeat split; repeat constructor).
  assert (B : wf_reply versatile) by (vm_compute; repeat split; repeat constructor).
  repeat split; try apply A; try apply B.
  - vm_compute. repeat constructor.
  - exists []. symmetry. apply app_nil_r.
Qed.

(** ** C117: false.  The name a device pads with zeros (as the standard says)
    comes back with the zeros. *)
Theorem C117_padding_refuted : forall p d r name k,
  complete d r -> rp_name r = name ++ repeat 0 (S k) ->
  exists v, search p [SRecv d; SElapsed] = Some (Ok [v]) /\ friendly_name (sr_device v) = Ok (name ++ repeat 0 (S k)) /\
    friendly_name (sr_device v) <> Ok name.
Proof. exact name_padded. Qed.
(** All thirty octets are returned, in the order of the replies. *)
Theorem C117_name_partial : forall p ds rs e, Forall2 complete ds rs ->
  exists vs, search p (received ds ++ SElapsed :: e) = Some (Ok vs) /\
    map (fun v => friendly_name (sr_device v)) vs = map (fun r => Ok (rp_name r)) rs.
Proof. exact name_read. Qed.
Example C117_example : complete (reply_bytes padded) padded /\ rp_name padded = hall ++ repeat 0 (S 25).
Proof. split; [apply found|reflexivity]. Qed.

(** ** C120: false.  The write is confirmed, the disconnect request is answered,
    the program ends with an error. *)
Theorem C120_ends_well_refuted :
  exists tr s ops, exec client 0 no_listeners tr s /\ well_typed tr /\ main_calls = Ok ops /\ calls tr = map (pair 0%nat) ops /\
    exists p n1 q n2 a n3 d n4,
      tr = p ++ (n1, EvRet 0 (OWrite dimmer [3] true) RUnit) :: q ++ (n2, EvSend (Cl 0) (disconnect_datagram 7 gateway)) ::
           a ++ [(n3, EvBgRecv d); (n3, EvBgEnd); (n4, EvRet 0 ODisconnect (RErr EClosed))] /\
      looks_like (recv_buffer d) (RDiscResp {| ds_chan := 7; ds_status := 0 |}).
Proof. exact main_fails. Qed.
(** Always so: unless the bus carries something else, disconnecting after a
    confirmed write is an error. *)
Theorem C120_disconnect_fails : forall c start ls tr s t a v b p n1 q n2 r,
  exec c start ls tr s -> tr = p ++ (n1, EvRet t (OWrite a v b) RUnit) :: q ++ [(n2, EvRet t ODisconnect r)] ->
  (length (queued tr) <= 1)%nat -> r = RErr EClosed \/ r = RErr EDisconnected.
Proof. exact confirmed_then_disconnect. Qed.
(** The calls are the intended ones: dim 1/1/2 down. *)
Theorem C120_calls_partial :
  main_calls = Ok [OWrite (Group3Level {| g3_main := 1; g3_middle := 1; g3_sub := 2 |}) [3] true; ODisconnect].
Proof. exact main_calls_are. Qed.
Example C120_example : exists p n1 q n2,
  main_trace = p ++ (n1, EvRet 0 (OWrite dimmer [3] true) RUnit) :: q ++ [(n2, EvRet 0 ODisconnect (RErr EClosed))] /\
  length (queued main_trace) = 1%nat.
Proof. eexists (firstn 12 main_trace), _, (firstn 5 (skipn 13 main_trace)), _. split; vm_compute; reflexivity. Qed.

(** ** C121: false.  A reply with more than 15 service families does not fit the
    buffer of 100 octets (udp.rs:290); the search fails and all devices are lost. *)
Theorem C121_many_families_refuted : forall p ds rs r rest e,
  Forall2 complete ds rs -> wf_reply r -> (15 < length (rp_families r) <= 126)%nat ->
  search p (received ds ++ SRecv (reply_bytes r ++ rest) :: e) = Some Err.
Proof. exact search_too_long. Qed.
(** The decoder alone reads such a reply. *)
Theorem C121_decodes : forall p r rest, wf_reply r -> (length (rp_families r) <= 126)%nat ->
  search_response_from_packet p (reply_bytes r ++ rest) = Ok (reply_value r, rest).
Proof. exact reply_read. Qed.
(** A reply cut off anywhere is an error of the decoder. *)
Theorem C121_cut : forall p r n, wf_reply r -> (length (rp_families r) <= 126)%nat -> (n < length (reply_bytes r))%nat ->
  search_response_from_packet p (firstn n (reply_bytes r)) = Err.
Proof. exact reply_cut. Qed.
Theorem C121_few_families_partial : forall p ds rs r e,
  Forall2 complete ds rs -> wf_reply r -> (length (rp_families r) <= 15)%nat ->
  search p (received (ds ++ [reply_bytes r]) ++ SElapsed :: e) = Some (Ok (map reply_value (rs ++ [r]))).
Proof. exact search_fits. Qed.
Example C121_example : wf_reply versatile /\ length (rp_families versatile) = 16%nat /\ wf_reply padded /\ length (rp_families padded) = 3%nat /\
  search Debug (received [reply_bytes padded; reply_bytes versatile] ++ [SElapsed]) = Some Err.
Proof. split; [apply found|]. split; [reflexivity|]. split; [apply found|]. split; vm_compute; reflexivity. Qed.

(** ** C122: [discover p e] = (result, datagrams sent, lines printed). *)
Theorem C122_lists : forall p e ip port ds rs rest,
  wf_local (se_local e) -> sends_from e ip port -> se_events e = received ds ++ SElapsed :: rest ->
  Forall2 complete ds rs -> Forall (fun r => bytes (reply_bytes r)) rs ->
  exists blocks, Forall2 device_lines blocks rs /\
    discover p e = (Some (Ok tt), [(fst discovery, snd discovery, request_from ip port)], concat blocks).
Proof. exact discover_lists. Qed.
(** From the lines everything shown can be told. *)
Theorem C122_distinguishes : forall bs cs rs qs,
  Forall2 device_lines bs rs -> Forall2 device_lines cs qs -> concat bs = concat cs -> Forall2 same_shown rs qs.
Proof. exact listing_distinguishes. Qed.
(** If the search does not succeed, nothing is printed. *)
Theorem C122_fails : forall p e, match fst (search_call p e) with
  | Some (Ok _) => True
  | Some Err => discover p e = (Some Err, snd (search_call p e), [])
  | Some Panic => discover p e = (Some Panic, snd (search_call p e), [])
  | None => discover p e = (None, snd (search_call p e), [])
  end.
Proof. exact discover_fails. Qed.
Example C122_example :
  let e := {| se_bind := true; se_local := LocalV4 [192; 168; 1; 5] 41000; se_send := true;
              se_events := [SRecv (reply_bytes padded); SElapsed] |} in
  wf_local (se_local e) /\ sends_from e [192; 168; 1; 5] 41000 /\ bytes (reply_bytes padded) /\ complete (reply_bytes padded) padded /\
  nth_error (snd (discover Debug e)) 0 = Some [0x2299; 32; 49; 57; 50; 46; 49; 54; 56; 46; 49; 46; 55; 58; 51; 54; 55; 49].
Proof.
  cbn zeta. split; [repeat split; repeat constructor|]. split; [repeat split|].
  split; [vm_compute; repeat constructor|]. split; [apply found|vm_compute; reflexivity].
Qed.
