(** Properties C84-C87, C105-C107, C154: search.  [search p evs]: the outcome when the socket and
    the timer produce [evs]; [None]: still waiting. *)
From Verif Require Import Base Addresses Core Search Wire Spec DibSpec SearchSpec SearchProofs PartialMore SearchCrash.
Open Scope N_scope.

Definition device_a : reply :=
  {| rp_control := {| hp_code := 1; hp_ip := [192; 168; 1; 7]; hp_port := 3671 |}; rp_medium := TP1; rp_status := 1; rp_addr := 0x1101;
     rp_project := 0; rp_serial := [0; 0xc5; 1; 2; 3; 4]; rp_multicast := [224; 0; 23; 12]; rp_mac := [0; 36; 109; 1; 2; 3];
     rp_name := repeat 65 30; rp_families := [(2, 1); (3, 2); (4, 1)] |}.
Definition device_b : reply :=
  {| rp_control := {| hp_code := 1; hp_ip := [10; 0; 0; 9]; hp_port := 3671 |}; rp_medium := IP; rp_status := 0; rp_addr := 0x2204;
     rp_project := 7; rp_serial := [9; 9; 9; 9; 9; 9]; rp_multicast := [224; 0; 23; 12]; rp_mac := [1; 1; 1; 1; 1; 1];
     rp_name := repeat 66 30; rp_families := [(2, 1); (3, 1); (5, 1)] |}.
Lemma devices : wf_reply device_a /\ wf_reply device_b /\ complete (reply_bytes device_a) device_a /\ complete (reply_bytes device_b ++ [1; 2]) device_b.
Proof.
  assert (A : wf_reply device_a) by (vm_compute; repeat split; repeat constructor).
  assert (B : wf_reply device_b) by (vm_compute; repeat split; repeat constructor).
  repeat split; try apply A; try apply B.
  - vm_compute. repeat constructor.
  - exists []. symmetry. apply app_nil_r.
  - vm_compute. repeat constructor.
  - exists [1; 2]. reflexivity.
Qed.

(** ** C84 *)
Theorem C84_search_complete : forall p ds rs e,
  Forall2 complete ds rs -> search p (received ds ++ SElapsed :: e) = Some (Ok (map reply_value rs)).
Proof. exact search_complete. Qed.
(** Any datagrams the decoder accepts on their own (the accepted forms are in C10). *)
Theorem C84_search_decodes : forall p ds rs e,
  Forall2 (fun d r => (length d <= 100)%nat /\ exists rest, search_response_from_packet p d = Ok (r, rest)) ds rs ->
  search p (received ds ++ SElapsed :: e) = Some (Ok rs).
Proof. exact search_returns. Qed.
Theorem C84_one_result_each : forall p e rs,
  search p e = Some (Ok rs) -> exists ds e', e = received ds ++ SElapsed :: e' /\ length rs = length ds.
Proof. exact search_result_inv. Qed.
Example C84_example :
  Forall2 complete [reply_bytes device_a; reply_bytes device_b ++ [1; 2]; reply_bytes device_a] [device_a; device_b; device_a] /\
  search Debug (received [reply_bytes device_a; reply_bytes device_b ++ [1; 2]] ++ [SElapsed]) =
    Some (Ok [reply_value device_a; reply_value device_b]).
Proof.
  destruct devices as (_&_&A&B). split; [repeat (constructor; try assumption)|]. vm_compute. reflexivity.
Qed.

(** ** C85: false.  A datagram with a foreign first octet pair ends the search with an error,
    whatever was received before. *)
Theorem C85_ignores_others_refuted : forall p ds rs d e,
  Forall2 complete ds rs -> (2 <= length d)%nat -> firstn 2 d <> [6; 16] ->
  search p (received ds ++ SRecv d :: e) = Some Err.
Proof. exact search_spoiled. Qed.
(** What is kept: a search that returns received nothing but beginnings of search
    responses; no other datagram is ever taken for one. *)
Theorem C85_no_others_partial : forall p ds e rs, Forall bytes ds ->
  search p (received ds ++ SElapsed :: e) = Some (Ok rs) ->
  Forall (fun d => firstn 4 d = firstn (length d) [0x06; 0x10; 0x02; 0x02]) ds.
Proof. exact search_headers. Qed.
Example C85_example : search Release (received [reply_bytes device_a; [1; 2; 3]; reply_bytes device_b] ++ [SElapsed]) = Some Err.
Proof. vm_compute. reflexivity. Qed.

(** ** C86: false.  A datagram cut off after the control endpoint, an error on its own, is
    completed with the device of the previous one. *)
Theorem C86_no_mixing_refuted : forall p r1 r2 e,
  wf_reply r1 -> wf_reply r2 -> length (rp_families r1) = length (rp_families r2) -> (length (rp_families r1) <= 15)%nat ->
  search p (received [reply_bytes r1; firstn 14 (reply_bytes r2)] ++ SElapsed :: e) =
    Some (Ok [reply_value r1; reply_value (with_control r1 (rp_control r2))]) /\
  search p (received [firstn 14 (reply_bytes r2)] ++ SElapsed :: e) = Some Err.
Proof. exact search_mixes. Qed.
(** An empty datagram repeats the previous result. *)
Theorem C86_empty_repeats : forall p ds rs d r e,
  Forall2 complete ds rs -> complete d r ->
  search p (received (ds ++ [d; []]) ++ SElapsed :: e) = Some (Ok (map reply_value (rs ++ [r; r]))).
Proof. exact search_repeats. Qed.
Example C86_example :
  search Release (received [reply_bytes device_a; firstn 14 (reply_bytes device_b)] ++ [SElapsed]) =
    Some (Ok [reply_value device_a; reply_value (with_control device_a (rp_control device_b))]) /\
  reply_value (with_control device_a (rp_control device_b)) <> reply_value device_b.
Proof. split; [vm_compute; reflexivity|]. intro H. discriminate H. Qed.

(** ** C87: false.  Every reply restarts the timer: the same device answering
    again and again delays the end without bound. *)
Theorem C87_ends_refuted : forall p timeout now r k,
  complete (reply_bytes r) r ->
  exists arrivals evs fin, timeline timeout now arrivals evs fin /\
    search p evs = Some (Ok (repeat (reply_value r) k)) /\ now + N.of_nat k * timeout <= fin.
Proof. exact search_long. Qed.
(** The search ends [timeout] after the last datagram it took. *)
Theorem C87_end : forall timeout now arrivals evs fin,
  timeline timeout now arrivals evs fin ->
  exists a b, arrivals = a ++ b /\ evs = received (map snd a) ++ [SElapsed] /\
    fin = last (map fst a) now + timeout /\ (forall t d, hd_error b = Some (t, d) -> fin <= t).
Proof. exact timeline_shape. Qed.
Example C87_example : complete (reply_bytes device_a) device_a /\
  timeline 3000 0 [(2000, [1]); (9000, [2])] [SRecv [1]; SElapsed] 5000.
Proof.
  split; [apply devices|]. constructor; [split; discriminate|]. change 5000 with (2000 + 3000). constructor.
  intros t d H. injection H as <- <-. discriminate.
Qed.

(** ** C105: the whole call, [search_call p e] = (result, datagrams sent with
    address and port). *)
Theorem C105_asks_once : forall p e ip port,
  wf_local (se_local e) -> sends_from e ip port ->
  search_call p e = (search p (se_events e), [(fst discovery, snd discovery, request_from ip port)]).
Proof. exact search_call_sends. Qed.
Theorem C105_nothing_else : forall p e r out x,
  wf_local (se_local e) -> search_call p e = (r, out) -> In x out ->
  exists ip port, sends_from e ip port /\ out = [x] /\ x = (fst discovery, snd discovery, request_from ip port).
Proof. exact search_call_sent. Qed.
Example C105_example :
  let e := {| se_bind := true; se_local := LocalV4 [192; 168; 1; 5] 41000; se_send := true;
              se_events := [SRecv (reply_bytes device_a); SElapsed] |} in
  wf_local (se_local e) /\ sends_from e [192; 168; 1; 5] 41000 /\
  search_call Debug e = (Some (Ok [reply_value device_a]),
    [([224; 0; 23; 12], 3671, [6; 16; 2; 1; 0; 14; 8; 1; 192; 168; 1; 5; 160; 40])]).
Proof. cbn zeta. split; [repeat split; repeat constructor|]. split; [repeat split|]. vm_compute. reflexivity. Qed.

(** ** C106: false.  A request that cannot be sent makes the call panic. *)
Theorem C106_send_error_refuted : forall p evs ip port,
  search_call p {| se_bind := true; se_local := LocalV4 ip port; se_send := false; se_events := evs |} = (Some Panic, []).
Proof. reflexivity. Qed.
(** Every other failure before the loop is an error; nothing is sent. *)
Theorem C106_setup_error_partial : forall p e r out,
  search_call p e = (r, out) -> (forall ip port, ~ sends_from e ip port) ->
  out = [] /\ (r = Some Err \/ (r = Some Panic /\ se_bind e = true /\ se_send e = false /\ exists ip port, se_local e = LocalV4 ip port)).
Proof. exact search_call_quiet. Qed.
Example C106_example :
  search_call Release {| se_bind := false; se_local := LocalErr; se_send := true; se_events := [] |} = (Some Err, []) /\
  search_call Release {| se_bind := true; se_local := LocalV6; se_send := true; se_events := [] |} = (Some Err, []).
Proof. split; reflexivity. Qed.

(** ** C107: false.  The socket is bound to 0.0.0.0 (udp.rs:275), that is the
    address it reports, and the request asks for replies to 0.0.0.0. *)
Theorem C107_names_client_refuted : forall p port evs,
  port < 65536 ->
  snd (search_call p {| se_bind := true; se_local := LocalV4 [0; 0; 0; 0] port; se_send := true; se_events := evs |}) =
    [(fst discovery, snd discovery, request_from [0; 0; 0; 0] port)].
Proof. intros p port evs H. rewrite (search_call_sends p _ [0; 0; 0; 0] port); [reflexivity|repeat split; [repeat constructor|exact H]|repeat split]. Qed.
Example C107_example : 41000 < 65536 /\ request_from [0; 0; 0; 0] 41000 = [6; 16; 2; 1; 0; 14; 8; 1; 0; 0; 0; 0; 160; 40].
Proof. split; [reflexivity|vm_compute; reflexivity]. Qed.

(** ** C154: false.  In a debug build (overflow checks on) a datagram with a block
    length of 0 at the place of a block stops the search with a panic. *)
Theorem C154_crash_refuted : forall ds rs x tail e,
  Forall2 complete ds rs -> Forall bytes ds -> bytes (x ++ tail) -> (length x <= 100)%nat -> crash_octets x ->
  search Debug (received ds ++ SRecv (x ++ tail) :: e) = Some Panic.
Proof. exact search_crashes. Qed.
(** Nothing else does: what the datagram leaves in the buffer (its own octets, then
    those of earlier datagrams) has such a block, and the build is a debug build. *)
Theorem C154_only_so_partial : forall p evs,
  (forall d, In (SRecv d) evs -> bytes d) -> search p evs = Some Panic ->
  p = Debug /\ exists ds d e b, evs = received ds ++ SRecv d :: e /\ length b = 100%nat /\ crash_octets (firstn 100 d ++ skipn (length d) b).
Proof. exact search_crashes_only. Qed.
Theorem C154_reader : forall p bs, bytes bs -> (search_response_from_packet p bs = Panic <-> p = Debug /\ crash_octets bs).
Proof. exact search_panic_iff. Qed.
(** An error of the socket is passed on. *)
Theorem C154_receive_error_partial : forall p ds rs e, Forall2 complete ds rs -> search p (received ds ++ SRecvErr :: e) = Some Err.
Proof. exact search_receive_error. Qed.
Definition bad_reply : list N := frame 0x0202 (hpai_bytes 1 [192; 168; 1; 7] 3671 ++ [0; 2]).
Example C154_example :
  Forall2 complete [reply_bytes device_a] [device_a] /\ Forall bytes [reply_bytes device_a] /\ bytes (bad_reply ++ []) /\
  length bad_reply = 16%nat /\ crash_octets bad_reply /\
  search Debug (received [reply_bytes device_a; bad_reply] ++ [SElapsed]) = Some Panic /\
  search Release (received [reply_bytes device_a; bad_reply] ++ [SElapsed]) = Some Err.
Proof.
  destruct devices as (_&_&A&_). split; [repeat (constructor; try assumption)|]. split; [repeat constructor|]. split; [repeat constructor|].
  split; [reflexivity|]. split; [|split; vm_compute; reflexivity].
  exists 16, {| hp_code := 1; hp_ip := [192; 168; 1; 7]; hp_port := 3671 |}, [0; 2].
  split; [reflexivity|]. split; [repeat split; repeat constructor|]. split; [reflexivity|].
  left. exists 0, []. left. split; reflexivity.
Qed.
