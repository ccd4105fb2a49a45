(** The texts of the errors the transport calls return (src/transport/udp.rs and
    udp_monitor.rs).  Three texts are not modelled and are arguments: [os], the
    [Debug] text of an error of the operating system; [dbg], the [Debug] text of an
    error with the given message ([Whatever], from snafu); [id], the channel in the
    error of the monitor's [disconnect].  The displayed text of an error is its
    message; [From<Whatever> for Error] (udp.rs:54-61) keeps it. *)
From Verif Require Import Base Addresses Tunneling Emi Core Search Transport Messages Messages2.
Open Scope N_scope.

Definition text_in {A} (x : mres A) : option string := match x with MErr t => Some t | _ => None end.

(** ** Calls *)
(** The call [o] was passed the error [t] by [tunnel_req]: all return it as it is,
    [solecitate_group_read] wraps it (udp_monitor.rs:332-334). *)
Definition passed_on (dbg : string -> string) (o : op) (t : string) : option string :=
  match o with
  | OSolicit _ => Some ("Unable to send connection state request " ++ dbg t)%string
  | _ => Some t
  end.
(** udp.rs:523, 530, 555-559; udp_monitor.rs:298, 308. *)
Definition message_text (o : op) (m : cemi) : option string :=
  match o with
  | ORead _ => if ce_code m =? code_LDataCon then None
               else if ce_code m =? code_LDataInd then text_in (m_ldata_ind m (ce_service m)) else None
  | OWrite _ _ _ => if ce_code m =? code_LDataCon then None
                    else Some ("Unknown cEMI message code " ++ show_dec (ce_code m))%string
  | ONextMsg => if ce_code m =? code_LDataCon then None
                else if (ce_code m =? code_LDataInd) || (ce_code m =? code_LBusmonInd) then text_in (m_ldata_ind m (ce_service m))
                else None
  | _ => None
  end.
(** udp.rs:269, 531, 558; udp_monitor.rs:316. *)
Definition closed_text (o : op) : option string :=
  match o with
  | ORead _ | OWrite _ _ _ => Some "No more data will be received from client"%string
  | ODisconnect => Some "Transport closed before disconnection response"%string
  | ONextMsg => Some "Transport is closed"%string
  | _ => None
  end.
(** The text of the error with which the step [l] from [s] ends a call, if it ends
    one with an error: udp.rs:196-215 (connection data), 217-269, 512-560;
    udp_monitor.rs:172-252, 291-352. *)
Definition call_text (os : string) (dbg : string -> string) (id : string) (s : sys) (l : label) : option string :=
  let unless (t : option string) := match s_conn s with None => t | Some _ => None end in
  match l with
  | LCl t ok =>
      match s_clients s t with
      | CSeq o _ => unless (passed_on dbg o "Disconnected from knx device, NR")
      | CChan o _ _ => unless (passed_on dbg o "Disconnected from knx device, ID")
      | CChan2 o => unless (Some "Disconnected from knx device, ID"%string)
      | CEp o _ => unless (Some "Disconnected from knx device, HPAI"%string)
      | CSend o _ =>
          if ok then None else
          match o with
          | ORead _ | OWrite _ _ _ | OSolicit _ | OMWrite _ _ _ => passed_on dbg o ("Unable to send request " ++ os)
          | OStatus => Some ("Unable to send connection state request " ++ os)%string
          | _ => None                                      (* expect: a panic *)
          end
      | CWaitQ o _ =>
          match s_rxq s with
          | m :: _ => message_text o m
          | [] => if bg_gone s then closed_text o else None
          end
      | CWaitSock o =>
          match s_inbox s with
          | [] => None
          | d :: _ =>
              match o with
              | OStatus => text_in (m_connstate_response (recv_buffer d))
              | OMDisconnect =>
                  option_map (fun t => "Unable to request disconnection for id " ++ id ++ ", " ++ dbg t)%string
                    (text_in (m_disconnect_response (recv_buffer d)))
              | _ => None
              end
          end
      | _ => None
      end
  | LSockErr t =>
      match s_clients s t with
      | CWaitSock OStatus => Some ("Connectionstate not responded " ++ os)%string
      | _ => None
      end
  | LTimeout t =>
      match s_clients s t with
      | CWaitQ (ORead _) _ => Some "Request timed out"%string
      | CWaitQ (OWrite _ _ _) _ => Some "Write request timed out"%string
      | _ => None
      end
  | LDbg _ => unless (Some "Disconnected from knx device, ID"%string)
  | _ => None
  end.

(** ** Search *)
(** udp.rs:297-319 and 274-292, as [search_loop] and [search_call] of Search.v with
    the texts. *)
Fixpoint m_search_loop (os : string) (debug : dib -> string) (p : profile) (buffer : list N) (responses : list search_response)
         (evs : list search_event) : option (mres (list search_response)) :=
  match evs with
  | [] => None
  | SElapsed :: _ => Some (MOk responses)
  | SRecvErr :: _ => Some (MErr ("Unable to get response " ++ os)%string)
  | SRecv d :: evs' =>
      let buffer' := overwrite buffer d in
      match m_search_response debug p buffer' with
      | MOk (r, _) => m_search_loop os debug p buffer' (responses ++ [r]) evs'
      | MErr t => Some (MErr t)
      | MPanic => Some MPanic
      end
  end.
Definition m_search_call (os : string) (debug : dib -> string) (p : profile) (e : search_env) : option (mres (list search_response)) :=
  if negb (se_bind e) then Some (MErr ("Unable to get a local address " ++ os)%string)
  else match se_local e with
       | LocalV6 => Some (MErr "Ipv6 socket adddress where IpV4 was expected"%string)
       | LocalErr => Some (MErr ("Unable to get local address " ++ os)%string)
       | LocalV4 _ _ =>
           if se_send e then m_search_loop os debug p (repeat 0 100) [] (se_events e) else Some MPanic
       end.
