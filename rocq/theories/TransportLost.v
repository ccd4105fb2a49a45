(** C52: a message lost for want of room in the queue. *)
From Verif Require Import Base Addresses Apdu Tunneling Emi Core Transport Wire Spec TraceSpec TransportBase TransportRuns.
Open Scope N_scope.

(** ** C52: a message acknowledged while the queue is full and a heart beat is due *)
Lemma lost_message :
  exists tr s, exec client 0 no_listeners tr s /\ Forall bytes (arrived tr) /\
    exists a d t m b,
      bg_events tr = a ++ [EvBgRecv d; EvSend Bg (ack_datagram (tr_chan t) (tr_seq t)); EvTick; EvLost m] ++ b /\
      looks_like (recv_buffer d) (RTunReq t) /\ run_on (cemi_from_packet Release) (tr_cemi t) = Ok m /\
      length (queued tr) = 100%nat /\ taken tr = [].
Proof.
  set (d := tunnelled 7 0 (group_ind 0x0901 [1])).
  execution (connect_with 7 ++ concat (repeat (deliver d) 100) ++ [LArrive d; LBg true; LBg true; LTick]).
  split; [octets|].
  exists (firstn 303 (bg_events (trace_of client no_listeners (connect_with 7 ++ concat (repeat (deliver d) 100))))), d,
    {| tr_chan := 7; tr_seq := 0; tr_cemi := group_ind 0x0901 [1] |},
    {| ce_code := 0x29; ce_infos := []; ce_service := ldata_bytes 0xbc 0xe0 0x1105 0x0901 2 0x80 [1] |}, [].
  split; [vm_compute; reflexivity|]. split; [|vm_compute; repeat split].
  apply tunnelled_looks. vm_compute. discriminate.
Qed.
