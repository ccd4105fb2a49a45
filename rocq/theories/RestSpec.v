(** Vocabulary for PropsRest.v. *)
From Verif Require Import Base Transport.
Open Scope N_scope.

(** The APCI of a telegram is the lower 10 bits of its APCI word; the upper 4 of
    them select the service, GroupValueResponse is 1 and GroupValueWrite is 2
    (KNX 03/03/07). *)
Definition answers (apci : N) : Prop := apci mod 1024 / 64 = 1 \/ apci mod 1024 / 64 = 2.
(** A call suspended where it needs the connection data (or the list of
    listeners). *)
Definition wants_connection (pc : client_pc) : bool :=
  match pc with CSeq _ _ | CChan _ _ _ | CChan2 _ | CEp _ _ | CConnChk | CAddL _ => true | _ => false end.
