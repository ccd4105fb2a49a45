(** C164-C166: the errors of the transport calls and of a search say why they failed.
    The texts are modelled in Messages3.v, what they should mean is in CauseSpec.v,
    the proofs are in CauseProofs.v. *)
From Verif Require Import Base Addresses Apdu Tunneling Emi Core Search Transport Wire Spec TraceSpec TraceSpec2 SearchSpec MsgSpec MsgSpec2
  Messages Messages2 Messages3 MsgView MsgView2 CauseSpec TransportBase TransportRuns CauseProofs.
Open Scope N_scope.

(** ** C164: the error of a failed call tells why it failed *)
(** FULL STATEMENT (false): as the next theorem, for all calls.
    Missing: solecitate_group_read. *)
Theorem C164_cause_partial : forall os dbg id c start ls tr s l s' es t o e,
  exec c start ls tr s -> Forall bytes (arrived tr) -> step c s l = Some (s', es ++ [EvRet t o (RErr e)]) ->
  (forall a, o <> OSolicit a) ->
  exists x, call_text os dbg id s l = Some x /\ is_cause t o l (tr ++ stamp (s_now s) es) (s_now s) (cause_of x).
Proof. exact call_says. Qed.
(** Its error contains the right text, after a beginning that says something else. *)
Theorem C164_solicit_partial : forall os dbg id c start ls tr s l s' es t a e,
  exec c start ls tr s -> Forall bytes (arrived tr) -> step c s l = Some (s', es ++ [EvRet t (OSolicit a) (RErr e)]) ->
  exists x, call_text os dbg id s l = Some ("Unable to send connection state request " ++ dbg x)%string /\
    is_cause t (OSolicit a) l (tr ++ stamp (s_now s) es) (s_now s) (cause_of x).
Proof. exact solicit_says. Qed.
(** Without a connection it is said that a request could not be sent. *)
Theorem C164_solicit_refuted : forall os dbg id, exists c start ls tr s l s' es t a e x,
  exec c start ls tr s /\ Forall bytes (arrived tr) /\ step c s l = Some (s', es ++ [EvRet t (OSolicit a) (RErr e)]) /\
  call_text os dbg id s l = Some x /\ cause_of x = NotSent /\
  ~ is_cause t (OSolicit a) l (tr ++ stamp (s_now s) es) (s_now s) (cause_of x) /\
  is_cause t (OSolicit a) l (tr ++ stamp (s_now s) es) (s_now s) NotConnected.
Proof. exact solicit_wrong. Qed.
(** A text is given for the steps that end a call with an error and for no others. *)
Theorem C164_given : forall os dbg id c start ls tr s l s' es,
  exec c start ls tr s -> step c s l = Some (s', es) ->
  ((exists x, call_text os dbg id s l = Some x) <-> exists e1 t o e, es = e1 ++ [EvRet t o (RErr e)]).
Proof. exact text_iff. Qed.

(** Every cause occurs. *)
Example C164_example_connection :
  said client [LInvoke 1 (ORead lamp); LCl 1 true] (LCl 1 true) = Some ("Disconnected from knx device, NR", NotConnected)%string.
Proof. reflexivity. Qed.
Example C164_example_send :
  said client (connect_with 7 ++ LInvoke 1 (OWrite lamp [1] true) :: repeat (LCl 1 true) 3) (LCl 1 false) =
  Some ("Unable to send request ENETUNREACH", NotSent)%string.
Proof. reflexivity. Qed.
Example C164_example_time :
  said client (connect_with 7 ++ call4 1 (ORead lamp) ++ [LTime 10000]) (LTimeout 1) = Some ("Request timed out", NoAnswer)%string.
Proof. reflexivity. Qed.
Example C164_example_gone :
  said monitor (monitor_connect 7 ++ [LBg true; LInvoke 1 ONextMsg; LCl 1 true; LArrive (disconnect_answer 7); LBg true]) (LCl 1 true) =
  Some ("Transport is closed", TaskGone)%string.
Proof. reflexivity. Qed.
Example C164_example_code :
  said client (connect_with 7 ++ call4 1 (OWrite lamp [1] true) ++ deliver (tunnelled 7 0 (group_ind 0x0901 [1]))) (LCl 1 true) =
  Some ("Unknown cEMI message code 41", Unexpected 0x29)%string.
Proof. reflexivity. Qed.
Example C164_example_socket :
  said client (connect_with 7 ++ LInvoke 1 OStatus :: repeat (LCl 1 true) 4) (LSockErr 1) =
  Some ("Connectionstate not responded ENETUNREACH", SocketError)%string.
Proof. reflexivity. Qed.

(** ** C165: the error about a malformed message names the fault *)
(** Read and next_msg: the first field of the indication that is missing. *)
Theorem C165_field : forall os dbg id c start ls tr s l s' t m o e,
  exec c start ls tr s -> step c s l = Some (s', [EvDeq t m; EvRet t o (RErr e)]) -> is_ind m \/ is_busmon m -> e <> EUnexpected ->
  exists w, first_missing ldata_fields (List.length (ce_service m)) = Some w /\ call_text os dbg id s l = Some (missing w).
Proof. exact detail_field. Qed.
(** connection_status: what the decoder of C156 and C157 says of what arrived. *)
Theorem C165_status : forall os dbg id c start ls tr s l s' t d e,
  exec c start ls tr s -> step c s l = Some (s', [EvClRecv t d; EvRet t OStatus (RErr e)]) ->
  exists x, call_text os dbg id s l = Some x /\ error_text GStateResponse (recv_buffer d) = Some x.
Proof. exact detail_status. Qed.
(** The monitor's disconnect: the same after the channel. *)
Theorem C165_disconnect : forall os dbg id c start ls tr s l s' t d e,
  exec c start ls tr s -> step c s l = Some (s', [EvClRecv t d; EvRet t OMDisconnect (RErr e)]) ->
  exists x, call_text os dbg id s l = Some ("Unable to request disconnection for id " ++ id ++ ", " ++ dbg x)%string /\
    error_text GDisconnectResponse (recv_buffer d) = Some x.
Proof. exact detail_disconnect. Qed.

Example C165_example_field :
  said client (connect_with 7 ++ call4 1 (ORead lamp) ++ deliver (tunnelled 7 0 [0x29; 0; 0xbc; 0xe0; 0x11; 0x05; 0x09])) (LCl 1 true) =
  Some (missing "destination address", Garbled)%string.
Proof. reflexivity. Qed.
Example C165_example_next :
  said monitor (monitor_connect 7 ++ [LBg true; LInvoke 1 ONextMsg; LCl 1 true] ++ deliver (tunnelled 7 0 [0x2b; 0])) (LCl 1 true) =
  Some (missing "control 1 byte", Garbled)%string.
Proof. reflexivity. Qed.
Example C165_example_status :
  said client (connect_with 7 ++ LInvoke 1 OStatus :: repeat (LCl 1 true) 4 ++ [LArrive (disconnect_answer 7)]) (LCl 1 true) =
  Some ("Connect response should be 0x0208 instead of 20A", Garbled)%string.
Proof. reflexivity. Qed.
Example C165_example_disconnect :
  said monitor (monitor_connect 7 ++ LBg true :: LInvoke 1 OMDisconnect :: repeat (LCl 1 true) 4 ++ [LArrive (state_answer 7 0)]) (LCl 1 true) =
  Some ("Unable to request disconnection for id 7, Disconnect response should be 0x020A instead of 208", Garbled)%string.
Proof. reflexivity. Qed.

(** ** C166: the error of a search tells why it failed *)
(** The modelled texts belong to the search of Search.v. *)
Theorem C166_same : forall os debug p e, option_map erase (m_search_call os debug p e) = fst (search_call p e).
Proof. exact search_call_same. Qed.
Theorem C166_cause : forall os debug p e t,
  m_search_call os debug p e = Some (MErr t) -> is_search_cause p e (search_cause_of t).
Proof. exact search_says. Qed.

(** A datagram is no search response; the socket fails; there is only an IPv6 address. *)
Example C166_example :
  let env l evs := {| se_bind := true; se_local := l; se_send := true; se_events := evs |} in
  let v4 := LocalV4 [192; 168; 1; 5] 41000 in
  m_search_call "ECONNREFUSED" (fun _ => ""%string) Debug (env v4 [SRecv [6; 0x10; 2; 8; 0; 8; 7; 0]; SElapsed]) =
    Some (MErr "Search response should be 0x0202 instead of 208"%string) /\
  m_search_call "ECONNREFUSED" (fun _ => ""%string) Debug (env v4 [SRecvErr]) = Some (MErr "Unable to get response ECONNREFUSED"%string) /\
  m_search_call "ECONNREFUSED" (fun _ => ""%string) Debug (env LocalV6 []) = Some (MErr "Ipv6 socket adddress where IpV4 was expected"%string).
Proof. repeat split; reflexivity. Qed.
