(** Specification of whole sessions. *)
From Verif Require Import Base Addresses Tunneling Emi Core Transport Wire Spec TraceSpec TraceSpec2.
Open Scope N_scope.

(** A telegram a device sends through the tunnel. *)
Record tele := {
  te_seq : N;                            (* the device's sequence number *)
  te_code : N;                           (* message code *)
  te_infos : list (N * list N);          (* additional information *)
  te_c1 : N; te_c2 : N; te_src : N; te_dst : N; te_len : N; te_apci : N; te_data : list N;
}.
Definition te_ok (x : tele) : Prop :=
  byte (te_seq x) /\
  indication_octets (te_code x) (te_infos x) (te_c1 x) (te_c2 x) (te_src x) (te_dst x) (te_len x) (te_apci x) (te_data x).
Definition te_service (x : tele) : list N :=
  ldata_bytes (te_c1 x) (te_c2 x) (te_src x) (te_dst x) (te_len x) (te_apci x) (te_data x).
Definition te_datagram (ch : N) (x : tele) : list N :=
  tunnel_datagram ch (te_seq x) (cemi_bytes (te_code x) (te_infos x) (te_service x)).
(** The message in it. *)
Definition te_message (x : tele) (m : cemi) : Prop :=
  ce_code m = te_code x /\ map info_pair (ce_infos m) = te_infos x /\ ce_service m = te_service x.

(** A call and what the device sends until it is answered. *)
Record exchange := {
  ex_pause : N;                          (* time before the call *)
  ex_task : nat;
  ex_op : op;
  ex_before : list tele;                 (* telegrams that do not answer it *)
  ex_answer : tele;
}.
Definition ex_ok (x : exchange) : Prop :=
  te_ok (ex_answer x) /\
  match ex_op x with
  | ORead a => wf_addr a /\ Forall (fun y => te_ok y /\ (te_code y = 0x29 -> te_dst y <> addr_to_u16 a)) (ex_before x) /\
               te_code (ex_answer x) = 0x29 /\ te_dst (ex_answer x) = addr_to_u16 a
  | OWrite a v small => sendable (OWrite a v small) /\ ex_before x = [] /\ te_code (ex_answer x) = 0x2e
  | _ => False
  end.
Definition ex_result (x : exchange) : api_result :=
  match ex_op x with
  | ORead _ => RBytes (short_or_long (te_len (ex_answer x)) (te_apci (ex_answer x)) (te_data (ex_answer x)))
  | _ => RUnit
  end.
(** The schedule: time passes, the call sends its request, every telegram is
    acknowledged, queued and taken. *)
Definition take_labels (ch : N) (t : nat) (y : tele) : list label :=
  [LArrive (te_datagram ch y); LBg true; LBg true; LBg true; LCl t true].
Definition ex_labels (ch : N) (x : exchange) : list label :=
  [LTime (ex_pause x); LInvoke (ex_task x) (ex_op x); LCl (ex_task x) true; LCl (ex_task x) true; LCl (ex_task x) true; LCl (ex_task x) true] ++
  concat (map (take_labels ch (ex_task x)) (ex_before x ++ [ex_answer x])).
(** What is to be seen. *)
Inductive taken_events (ch : N) (t : nat) : list tele -> list event -> Prop :=
| te_none : taken_events ch t [] []
| te_more y ys m es : te_message y m -> taken_events ch t ys es ->
    taken_events ch t (y :: ys)
      ([EvArrive (te_datagram ch y); EvBgRecv (te_datagram ch y); EvSend Bg (ack_datagram ch (te_seq y)); EvEnq m; EvDeq t m] ++ es).
Inductive conversation (ch : N) : N -> N -> list exchange -> trace -> Prop :=
| conv_end now n : conversation ch now n [] []
| conv_next now n x xs es tr :
    taken_events ch (ex_task x) (ex_before x ++ [ex_answer x]) es ->
    conversation ch (now + ex_pause x) ((n + 1) mod 256) xs tr ->
    conversation ch now n (x :: xs)
      (map (pair (now + ex_pause x))
         ([EvInvoke (ex_task x) (ex_op x); EvSeq (ex_task x) n; EvSend (Cl (ex_task x)) (tunnel_datagram ch n (telegram (ex_op x)))]
          ++ es ++ [EvRet (ex_task x) (ex_op x) (ex_result x)]) ++ tr).
(** The results of the calls, in order. *)
Definition results (tr : trace) : list (nat * op * api_result) :=
  flat_map (fun x => match snd x with EvRet t o r => [(t, o, r)] | _ => [] end) tr.
