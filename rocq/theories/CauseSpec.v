(** What the errors of the transport calls should say. *)
From Coq Require Export String Ascii.
From Verif Require Import Base Addresses Tunneling Emi Core Search Transport Wire Spec TraceSpec TraceSpec2 SearchSpec MsgSpec.
Open Scope N_scope.

(** Why a call failed. *)
Inductive cause :=
| NotConnected             (* there is no connection *)
| NotSent                  (* the request could not be sent *)
| NoAnswer                 (* nothing came for 10 s *)
| TaskGone                 (* nothing will ever come *)
| Unexpected (code : N)    (* a message of this kind came instead of a confirmation *)
| SocketError              (* the socket reported an error instead of a response *)
| Garbled.                 (* what came cannot be read *)

(** What a reader concludes from the text, by its beginning. *)
Fixpoint after (start t : string) : option string :=
  match start, t with
  | EmptyString, _ => Some t
  | String a start', String b t' => if Ascii.eqb a b then after start' t' else None
  | _, EmptyString => None
  end.
Definition begins (start t : string) : bool := match after start t with Some _ => true | None => false end.
Definition cause_of (t : string) : cause :=
  if begins "Disconnected from knx device" t then NotConnected
  else if begins "Unable to send" t then NotSent
  else if begins "Request timed out" t || begins "Write request timed out" t then NoAnswer
  else if begins "No more data" t || begins "Transport closed" t || begins "Transport is closed" t then TaskGone
  else if begins "Connectionstate not responded" t then SocketError
  else match after "Unknown cEMI message code " t with
       | Some w => match number_value 10 w 0 with Some n => Unexpected n | None => Garbled end
       | None => Garbled
       end.

(** The call [o] of [t] is ended at time [n] by the step [l] after the events [p]: is
    this the cause? *)
Definition is_cause (t : nat) (o : op) (l : label) (p : trace) (n : N) (k : cause) : Prop :=
  match k with
  | NotConnected => connected_now p = false
  | NotSent => exists p' n' d, p = p' ++ [(n', EvSendFail (Cl t) d)]
  | NoAnswer => exists body h n2 d ms, in_call t o p body /\ body = h ++ (n2, EvSend (Cl t) d) :: takes t ms /\
      last (map fst ms) n2 + 10000 <= n
  | TaskGone => task_stopped p /\ queued p = taken p
  | Unexpected code => exists p' n' m, p = p' ++ [(n', EvDeq t m)] /\ ce_code m = code /\ ~ is_con m
  | SocketError => l = LSockErr t
  | Garbled =>
      (exists p' n' m, p = p' ++ [(n', EvDeq t m)] /\ (is_ind m \/ is_busmon m) /\ (List.length (ce_service m) < 9)%nat) \/
      (exists p' n' x, p = p' ++ [(n', EvClRecv t x)] /\
         match o with
         | OStatus => forall st, ~ looks_like (recv_buffer x) (RConnState st)
         | _ => forall st, ~ looks_like (recv_buffer x) (RDiscResp st)
         end)
  end.

(** Why a search failed. *)
Inductive search_cause := NoSocket | NoAddress | WrongFamily | NotReceived | BadResponse.
Definition search_cause_of (t : string) : search_cause :=
  if begins "Unable to get a local address" t then NoSocket
  else if begins "Unable to get local address" t then NoAddress
  else if begins "Ipv6" t then WrongFamily
  else if begins "Unable to get response" t then NotReceived
  else BadResponse.
Definition is_search_cause (p : profile) (e : search_env) (k : search_cause) : Prop :=
  match k with
  | NoSocket => se_bind e = false
  | NoAddress => se_bind e = true /\ se_local e = LocalErr
  | WrongFamily => se_bind e = true /\ se_local e = LocalV6
  | NotReceived => exists ip port, sends_from e ip port /\ exists a b, se_events e = a ++ SRecvErr :: b /\ search p a = None
  | BadResponse => exists ip port, sends_from e ip port /\ exists a d b, se_events e = a ++ SRecv d :: b /\ search p a = None /\
      search p (a ++ [SRecv d]) = Some Err
  end.
