(** What does hold of properties that are false: C08, C46, C72, C82, C90, C107.
    Their refutations are in PropsCodec, PropsFloat, PropsCalls, PropsMonitor,
    PropsLive and PropsSearch; proofs in RestProofs.v. *)
From Verif Require Import Base Addresses Apdu Tunneling Emi Core Search DpTypes Transport Wire Spec TypedSpec TraceSpec TraceSpec2 SearchSpec PromptSpec RestSpec
  TransportBase TransportRuns PromptRuns TransportPrompt FloatBack SearchProofs RestProofs.
Open Scope N_scope.

(** ** C08 *)
(** No datagram at all is understood as a disconnect request. *)
Theorem C08_never_refuted : forall bs r, parse_response bs <> Ok (RDiscReq r).
Proof. exact disconnect_request_never. Qed.
(** The decoder itself understands what the encoder writes after its first 5 octets. *)
Theorem C08_tail_partial : forall c rest,
  wf_hpai (dq_endpoint c) -> disconnect_request_from_packet (skipn 5 (disconnect_request_packet c) ++ rest) = Ok (c, rest).
Proof. exact disconnect_request_tail. Qed.
Example C08_tail_example :
  let c := {| dq_chan := 7; dq_endpoint := {| hp_code := 1; hp_ip := [192; 168; 1; 5]; hp_port := 41000 |} |} in
  wf_hpai (dq_endpoint c) /\ skipn 5 (disconnect_request_packet c) = [16; 7; 0; 8; 1; 192; 168; 1; 5; 160; 40] /\
  firstn 5 (disconnect_request_packet c) = [6; 16; 2; 9; 0].
Proof. vm_compute. repeat split; repeat constructor. Qed.

(** ** C46 *)
Open Scope Z_scope.
(** Away from the gaps the code is within 0.501 steps 2^k/100 of the input. *)
Theorem C46_clear_partial : forall p fuel k x, 0 <= k <= 15 -> clear_of_gaps k x -> (117 <= fuel)%nat ->
  exists code, float_to_bytes p fuel x = Done (word code) /\ (code < 65536)%N /\ knx_exponent code = k /\
    1000 * Z.abs (knx_hundredths code * 2 ^ 149 - 100 * f_units x) <= 501 * 2 ^ (149 + k).
Proof. exact clear_encoded. Qed.
(** Every number in the KNX range is away from the gaps, or its absolute value is
    between 20.474 and 20.482 times 2^k, or it is between -0.006 and 0. *)
Theorem C46_cover : forall x, is_f32 x -> f_finite x -> -67108864 * 2 ^ 149 <= 100 * f_units x <= 67076096 * 2 ^ 149 ->
  (exists k, 0 <= k <= 15 /\ clear_of_gaps k x) \/
  (exists k, 0 <= k <= 15 /\ 20474 * 2 ^ (149 + k) < 1000 * Z.abs (f_units x) < 20482 * 2 ^ (149 + k)) \/
  - 6 * 2 ^ 149 < 1000 * f_units x < 0.
Proof. exact range_covered. Qed.
(** 21.0, 300000.0, -5.55 are away from the gaps, 20.48 is not. *)
Example C46_clear_example :
  clear_of_gaps 1 (f_of_Z 21) /\ clear_of_gaps 14 (f_of_Z 300000) /\ clear_of_gaps 0 (f_lit (-555) 100) /\
  float_to_bytes Release 117 (f_of_Z 300000) = Done [0x77; 0x27]%N /\ knx_hundredths 0x7727 = 29999104 /\
  20474 * 2 ^ (149 + 0) < 1000 * Z.abs (f_units (f_lit 2048 100)) < 20482 * 2 ^ (149 + 0).
Proof. vm_compute. repeat split; try (right; congruence); try (left; congruence); try congruence; auto. Qed.
Open Scope N_scope.

(** ** C72 *)
(** On a machine that is fast enough, a read that is handed no message is over 10 s
    after its request. *)
Theorem C72_quiet_partial : forall c start ls tr s t a body n2 d,
  prompt c start ls tr s -> s_rx_alive s = true -> in_call t (ORead a) tr body -> In (n2, EvSend (Cl t) d) body ->
  (forall n m, ~ In (n, EvDeq t m) body) -> s_now s <= n2 + 10000.
Proof. exact quiet_read_in_time. Qed.
Definition quiet_read : list label := prompt_connect ++ call4 1 (ORead lamp) ++ [LTime 10000].
Example C72_quiet_example :
  exists tr s body d, prompt client 0 no_listeners tr s /\ s_rx_alive s = true /\ in_call 1 (ORead lamp) tr body /\
    In (0, EvSend (Cl 1) d) body /\ s_now s = 10000 /\ forall n m, ~ In (n, EvDeq 1 m) body.
Proof.
  eexists _, _, _, _. split; [eapply (run_prompt client 0 no_listeners [1%nat] quiet_read); vm_compute; reflexivity|].
  split; [reflexivity|]. split.
  - exists [], 0. split; [vm_compute; reflexivity|].
    intros x Hx. cbn in Hx. repeat (destruct Hx as [Hx|Hx]; [subst x; split; [reflexivity|discriminate]|]). destruct Hx.
  - split; [right; left; reflexivity|]. split; [reflexivity|].
    intros n m Hx. cbn in Hx. repeat (destruct Hx as [Hx|Hx]; [discriminate Hx|]). destruct Hx.
Qed.

(** ** C82 *)
(** A call that needs the connection data and the task are stuck together only if a
    registered listener that was not dropped is full. *)
Theorem C82_only_full_partial : forall c start ls tr s t,
  exec c start ls tr s -> s_rx_alive s = true -> wants_connection (s_clients s t) = true ->
  step c s (LCl t true) = None -> step c s (LBg true) = None ->
  exists x, In x (registered tr) /\ li_alive (s_listeners s x) = true /\ (li_cap (s_listeners s x) <= li_count (s_listeners s x))%nat.
Proof. exact blocked_by_full. Qed.
(** With room in the registered channels the call goes on after steps of the task
    alone, at most one more than there are registrations. *)
Theorem C82_with_room_partial : forall c start ls tr s t,
  exec c start ls tr s -> s_rx_alive s = true -> wants_connection (s_clients s t) = true ->
  (forall x, In x (registered tr) -> li_alive (s_listeners s x) = true ->
     (li_count (s_listeners s x) + length (registered tr) <= li_cap (s_listeners s x))%nat) ->
  exists k s1 tr1 s2 es, (k <= S (length (registered tr)))%nat /\ run c s (repeat (LBg true) k) = Some (s1, tr1) /\
    s_clients s1 = s_clients s /\ step c s1 (LCl t true) = Some (s2, es).
Proof. exact room_goes_on. Qed.
Definition two_free (_ : nat) : listener := {| li_cap := 2; li_count := 0; li_alive := true |}.
Definition waits_for_notify : list label :=
  [LInvoke 0 (OAddListener 0); LCl 0 true; LCl 0 true; LInvoke 0 (OAddListener 1); LCl 0 true; LCl 0 true] ++ monitor_connect 7 ++
  [LInvoke 1 OIsConnected; LCl 1 true].
Example C82_room_example :
  exists tr s, exec monitor 0 two_free tr s /\ s_rx_alive s = true /\ wants_connection (s_clients s 1) = true /\ registered tr = [0%nat; 1%nat] /\
    step monitor s (LCl 1 true) = None /\
    (forall x, In x (registered tr) -> li_alive (s_listeners s x) = true ->
       (li_count (s_listeners s x) + length (registered tr) <= li_cap (s_listeners s x))%nat).
Proof.
  eexists _, _. split; [eapply (run_exec _ _ _ waits_for_notify); vm_compute; reflexivity|].
  split; [reflexivity|]. split; [reflexivity|]. split; [reflexivity|]. split; [reflexivity|].
  intros x _ _. cbn. repeat constructor.
Qed.

(** ** C90 *)
(** If every indication for the address that was queued is an answer (a response or
    a write), so is the one whose value a read returns. *)
Theorem C90_answers_partial : forall c start ls tr s p n t a v q,
  exec c start ls tr s -> Forall bytes (arrived tr) -> tr = p ++ (n, EvRet t (ORead a) (RBytes v)) :: q ->
  (forall m c1 c2 src len apci data, In m (queued p) -> is_ind m -> src < 65536 -> apci < 65536 ->
     ce_service m = ldata_bytes c1 c2 src (addr_to_u16 a) len apci data -> answers apci) ->
  exists m c1 c2 src len apci data, In m (queued p) /\ is_ind m /\
    ce_service m = ldata_bytes c1 c2 src (addr_to_u16 a) len apci data /\ answers apci /\ v = short_or_long len apci data.
Proof. exact read_of_answers. Qed.
(** In every execution a question of another participant that comes first is
    returned as the value 0. *)
Theorem C90_question_first_refuted : forall c start ls tr s t a body n2 d ms m rest c1 c2 src,
  exec c start ls tr s -> Forall bytes (arrived tr) -> s_rx_alive s = true ->
  in_call t (ORead a) tr body -> In (n2, EvSend (Cl t) d) body ->
  queued tr = taken tr ++ ms ++ m :: rest -> Forall (not_for a) ms ->
  is_ind m -> src < 65536 -> ce_service m = ldata_bytes c1 c2 src (addr_to_u16 a) 1 apci_group_read [] -> addr_to_u16 a < 65536 ->
  exists s' tr', run c s (repeat (LCl t true) (S (length ms))) = Some (s', tr') /\
    evs tr' = map (EvDeq t) (ms ++ [m]) ++ [EvRet t (ORead a) (RBytes [0])].
Proof. exact question_returned. Qed.
Example C90_rest_example :
  answers 0x0040 /\ answers 0x0085 /\ ~ answers apci_group_read /\
  nth_error session 18 = Some (0, EvRet 1 (ORead lamp) (RBytes [5])) /\
  exists tr s m, exec client 0 no_listeners tr s /\ s_rx_alive s = true /\
    in_call 1 (ORead lamp) tr [(0, EvSeq 1 0); (0, EvSend (Cl 1) (tunnel_datagram 7 0 (telegram (ORead lamp))))] /\
    queued tr = taken tr ++ [m] /\ is_ind m /\ ce_service m = ldata_bytes 0xbc 0xe0 0x1105 (addr_to_u16 lamp) 1 apci_group_read [].
Proof.
  split; [left; reflexivity|]. split; [right; reflexivity|]. split; [intros [H|H]; discriminate H|]. split; [vm_compute; reflexivity|].
  eexists _, _, _. split; [eapply (run_exec _ _ _ (connect_with 7 ++ call4 1 (ORead lamp) ++
     deliver (tunnelled 7 0 (cemi_bytes 0x29 [] (ldata_bytes 0xbc 0xe0 0x1105 0x0901 1 apci_group_read []))))); vm_compute; reflexivity|].
  split; [reflexivity|]. split; [|split; [vm_compute; reflexivity|split; reflexivity]].
  exists [], 0. split; [vm_compute; reflexivity|]. intros x [<-|[<-|[]]]; split; reflexivity || discriminate.
Qed.

(** ** C107 *)
(** The endpoint named is one of the client's exactly if the socket reports one. *)
Theorem C107_reported_partial : forall p e r x (mine : list N -> Prop),
  wf_local (se_local e) -> search_call p e = (r, [x]) ->
  ((exists ip port, snd x = request_from ip port /\ length ip = 4%nat /\ mine ip) <-> (exists ip port, se_local e = LocalV4 ip port /\ mine ip)).
Proof. exact search_names. Qed.
Example C107_reported_example :
  let e := {| se_bind := true; se_local := LocalV4 [192; 168; 1; 5] 41000; se_send := true; se_events := [SElapsed] |} in
  wf_local (se_local e) /\ exists r, search_call Debug e = (r, [(([224; 0; 23; 12], 3671), [6; 16; 2; 1; 0; 14; 8; 1; 192; 168; 1; 5; 160; 40])]).
Proof. cbn zeta. split; [repeat split; repeat constructor|]. eexists. vm_compute. reflexivity. Qed.
