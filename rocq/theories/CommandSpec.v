(** Specification: when two group commands are the same for the bus. *)
From Verif Require Import Base Addresses Transport Wire TraceSpec.
Open Scope N_scope.

(** Reading and writing a group. *)
Inductive command := Read | WriteBits (v : N) | WriteOctets (v : list N).
(** The group and the command of a call; a write marked small carries the low
    six bits of its first octet. *)
Definition command_of (o : op) : option (N * command) :=
  match o with
  | ORead a | OSolicit a => Some (addr_to_u16 a, Read)
  | OWrite a v true | OMWrite a v true => Some (addr_to_u16 a, WriteBits (hd 0 v mod 64))
  | OWrite a v false | OMWrite a v false => Some (addr_to_u16 a, WriteOctets v)
  | _ => None
  end.
(** The bus cannot tell a write of no octet from one of six zero bits. *)
Definition same_command (x y : command) : Prop :=
  match x, y with
  | WriteBits v, WriteOctets w | WriteOctets w, WriteBits v => w = [] /\ v = 0
  | _, _ => x = y
  end.
(** The call [o] of task [t] returned success at the end of [tr] and sent [d]. *)
Definition done_with (tr : trace) (t : nat) (o : op) (d : list N) : Prop :=
  exists p n r q body, tr = p ++ (n, EvRet t o r) :: q /\ success r /\ in_call t o p body /\ sends t body = [EvSend (Cl t) d].
