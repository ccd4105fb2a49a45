(** Properties C118, C119: whole sessions.  Specification in TraceSpec2.v and
    SessionSpec.v, proofs in TransportStay.v and TransportSession.v. *)
From Verif Require Import Base Addresses Tunneling Emi Core Transport Wire Spec TraceSpec TraceSpec2 SessionSpec
  TransportRuns TransportStay TransportSession.
From Coq Require Import Lia.
Open Scope N_scope.

(** ** C118 *)
Theorem C118_stays : forall c start ls sched s tr,
  run c (init_sys start ls) sched = Some (s, tr) -> forallb no_recv_error sched = true -> Forall bytes (arrived tr) ->
  s_rx_alive s = true -> (forall d, ~ In (EvSendFail Bg d) (evs tr)) -> Forall (welcome (c_prof c)) (received tr) ->
  ~ In EvCleared (evs tr) /\ ~ task_stopped tr.
Proof. exact stays. Qed.
Theorem C118_once : forall c start ls sched s tr,
  run c (init_sys start ls) sched = Some (s, tr) -> forallb no_recv_error sched = true -> Forall bytes (arrived tr) ->
  s_rx_alive s = true -> (forall d, ~ In (EvSendFail Bg d) (evs tr)) -> Forall (welcome (c_prof c)) (received tr) ->
  (connections tr <= 1)%nat.
Proof. exact stays_once. Qed.
Theorem C118_never_told : forall c start ls sched s tr p n t o r q,
  run c (init_sys start ls) sched = Some (s, tr) -> forallb no_recv_error sched = true -> Forall bytes (arrived tr) ->
  s_rx_alive s = true -> (forall d, ~ In (EvSendFail Bg d) (evs tr)) -> Forall (welcome (c_prof c)) (received tr) ->
  tr = p ++ (n, EvRet t o r) :: q -> (exists cd, In (EvConnected cd) (evs p)) -> r <> RErr EDisconnected.
Proof. exact stays_told. Qed.
(** For any device: the error is reported only while there is no connection. *)
Theorem C118_told_rightly : forall c start ls tr s p n t o q,
  exec c start ls tr s -> tr = p ++ (n, EvRet t o (RErr EDisconnected)) :: q -> connected_now p = false.
Proof. exact told_disconnected. Qed.
Definition stay_schedule : list label :=
  [LInvoke 1 (ORead lamp); LCl 1 true; LCl 1 true] ++ connect_with 7 ++ call4 2 (ORead lamp) ++ deliver (tunnelled 7 0 (group_ind 0x0901 [9])) ++ [LCl 2 true]
  ++ [LTime 60000; LTick; LBg true; LArrive (state_answer 7 0); LBg true].
Example C118_example :
  let tr := trace_of client no_listeners stay_schedule in
  (exists s, run client (init_sys 0 no_listeners) stay_schedule = Some (s, tr) /\ s_rx_alive s = true) /\
  forallb no_recv_error stay_schedule = true /\ Forall bytes (arrived tr) /\ (forall d, ~ In (EvSendFail Bg d) (evs tr)) /\
  received tr = [tunnelled 7 0 (group_ind 0x0901 [9]); state_answer 7 0] /\ Forall (welcome Debug) (received tr) /\
  results tr = [(1%nat, ORead lamp, RErr EDisconnected); (2%nat, ORead lamp, RBytes [9])].
Proof.
  cbn zeta. split; [eexists; split; [vm_compute; reflexivity|reflexivity]|]. split; [reflexivity|].
  split; [vm_compute; repeat constructor|]. split; [intros d H; vm_compute in H; intuition discriminate|].
  split; [vm_compute; reflexivity|]. split; [|vm_compute; reflexivity].
  change (Forall (welcome Debug) [tunnelled 7 0 (group_ind 0x0901 [9]); state_answer 7 0]).
  constructor; [|constructor; [|constructor]]; right; eexists.
  - split; [apply tunnelled_looks; discriminate|]. cbn. intros _ (code&size&is&ty&k&rest&E&H&_).
    injection E as _ E _. subst size. destruct (N.nlt_0_r _ H).
  - split; [apply state_looks|reflexivity].
Qed.

(** ** C119: calls one after another, any number of them.  [ex_ok]: the device
    answers each read with an indication for its address, perhaps after other
    telegrams, and each write with a confirmation. *)
Theorem C119_results : forall p start ls g ch ep xs,
  bytes g -> grants g ch ep -> byte ch -> Forall ex_ok xs ->
  exists s tr, run {| c_mode := MClient; c_prof := p |} (init_sys start ls)
      ([LBg true; LBg true; LArrive g; LBg true; LBg true] ++ concat (map (ex_labels ch) xs)) = Some (s, tr) /\
    results tr = map (fun x => (ex_task x, ex_op x, ex_result x)) xs /\
    transmitted tr = map (fun i => N.of_nat i mod 256) (seq 0 (length xs)).
Proof. exact session_observed. Qed.
(** The whole trace. *)
Theorem C119_conversation : forall p start ls g ch ep xs,
  bytes g -> grants g ch ep -> byte ch -> Forall ex_ok xs ->
  exists s tr, run {| c_mode := MClient; c_prof := p |} (init_sys start ls)
      ([LBg true; LBg true; LArrive g; LBg true; LBg true] ++ concat (map (ex_labels ch) xs)) =
    Some (s, map (pair start) [EvSend Bg connection_datagram; EvArrive g; EvConnRecv g; EvConnected {| cd_chan := ch; cd_ep := ep; cd_seq := 0 |}] ++ tr) /\
    conversation ch start 0 xs tr.
Proof. exact whole_session. Qed.
Definition heard (seq code dst : N) (v : list N) : tele :=
  {| te_seq := seq; te_code := code; te_infos := []; te_c1 := 0xbc; te_c2 := 0xe0; te_src := 0x1105; te_dst := dst;
     te_len := 1 + N.of_nat (length v); te_apci := 0x80; te_data := v |}.
Definition read_exchange : exchange :=
  {| ex_pause := 500; ex_task := 1; ex_op := ORead lamp;
     ex_before := [heard 0 0x2e 0x0901 []; heard 1 0x29 0x0902 [7]]; ex_answer := heard 2 0x29 0x0901 [9] |}.
Definition write_exchange : exchange :=
  {| ex_pause := 0; ex_task := 2; ex_op := OWrite other [3] true; ex_before := []; ex_answer := heard 3 0x2e 0x0902 [3] |}.
Lemma heard_ok seq code dst v : byte seq -> byte code -> dst < 65536 -> bytes v -> (length v <= 70)%nat -> te_ok (heard seq code dst v).
Proof.
  intros. unfold te_ok, indication_octets, heard, byte in *. cbn [te_seq te_code te_infos te_c1 te_c2 te_src te_dst te_len te_apci te_data].
  repeat split; try assumption; try constructor; try lia. cbn. lia.
Qed.
Example C119_example :
  ex_ok read_exchange /\ ex_ok write_exchange /\ Forall ex_ok (concat (repeat [read_exchange; write_exchange] 200)) /\
  bytes (granting 7) /\ grants (granting 7) 7 gateway /\ ex_result read_exchange = RBytes [9].
Proof.
  assert (T : forall seq code dst v, byte seq -> byte code -> dst < 65536 -> bytes v -> (length v <= 70)%nat -> te_ok (heard seq code dst v))
    by exact heard_ok.
  assert (B : forall b, b < 256 -> bytes [b]) by (intros b H; constructor; [exact H|constructor]).
  assert (L : forall b : N, (length [b] <= 70)%nat) by (intro b; apply Nat.leb_le; reflexivity).
  assert (A : ex_ok read_exchange).
  { split; [apply T; [reflexivity|reflexivity|reflexivity|apply B; reflexivity|apply L]|]. split; [vm_compute; auto|]. split; [|split; reflexivity].
    constructor; [|constructor; [|constructor]]; (split; [apply T; [reflexivity|reflexivity|reflexivity|first [apply B; reflexivity|constructor]|apply Nat.leb_le; reflexivity]|]).
    - discriminate.
    - intros _. discriminate. }
  assert (W : ex_ok write_exchange).
  { split; [apply T; [reflexivity|reflexivity|reflexivity|apply B; reflexivity|apply L]|]. split; [|split; reflexivity]. split; [vm_compute; auto|].
    split; [apply Nat.leb_le; reflexivity|discriminate]. }
  split; [exact A|]. split; [exact W|]. split.
  { generalize 200%nat. intro n. induction n; [constructor|]. cbn [repeat concat app]. constructor; [exact A|]. constructor; assumption. }
  split; [vm_compute; repeat constructor|]. split; [|reflexivity].
  exists 20, 0x1101, (repeat 0 80). split; [split; [discriminate|reflexivity]|]. split; [reflexivity|]. split; [reflexivity|].
  vm_compute. repeat split; repeat constructor.
Qed.
