(** What the theorems about error texts observe of the decoders of Messages.v. *)
From Verif Require Import Base Addresses Core Tunneling Messages MsgSpec.
Open Scope N_scope.

(** [m] is [p] with the texts of the errors. *)
Definition erase {A} (x : mres A) : res A := match x with MOk a => Ok a | MErr _ => Err | MPanic => Panic end.
Definition same {A} (m : mparser A) (p : parser A) : Prop := forall r, erase (m r) = p r.

(** The text of the error returned for the datagram [b], if one is. *)
Definition error_text (g : datagram) (b : list N) : option string :=
  let text {A} (x : mres A) := match x with MErr t => Some t | _ => None end in
  match g with
  | GConnectResponse => text (m_connection_response b)
  | GStateRequest => text (m_connstate_request b)
  | GStateResponse => text (m_connstate_response b)
  | GDisconnectRequest => text (m_disconnect_request b)
  | GDisconnectResponse => text (m_disconnect_response b)
  | GHeader => text (m_header b)
  | GTunnelling => text (m_tunneling_request b)
  | GAck => text (m_tunneling_ack b)
  | GFeature => text (m_feature_resp b)
  end.
