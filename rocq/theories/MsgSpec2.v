(** What the errors about description blocks, L_Data messages and address texts
    should say. *)
From Coq Require Export String Ascii.
From Verif Require Import Base Wire.

(** ** Fields of fixed sizes *)
(** Names and numbers of octets, in order. *)
Definition part := (string * nat)%type.
(** The first field that does not fit into [n] octets. *)
Fixpoint first_missing (fs : list part) (n : nat) : option string :=
  match fs with
  | [] => None
  | (what, k) :: fs' => if Nat.ltb n k then Some what else first_missing fs' (n - k)
  end.
Definition times (n : nat) (fs : list part) : list part := concat (repeat fs n).
(** 03.08.02, 7.5.4: what follows the length octet [len] and the type code; the
    sizes of the last two kinds are those of the library (cf. C12, C131). *)
Definition block_fields (code len : N) : option (list part) :=
  match code with
  | 0x01 => Some [("knx mediumn", 1); ("knx device status", 1); ("knx individual address", 2);
                  ("project installation identifier", 2); ("serial number", 6);
                  ("routing multicast address", 4); ("mac address", 6); ("friendly name", 30)]%string%nat
  | 0x02 => Some (times (N.to_nat ((len - 2) / 2)) [("service family", 1); ("version", 1)]%string%nat)
  | 0x03 => Some [("ip address", 4); ("subnet_mask", 4); ("default gateway", 4);
                  ("ip capabilities", 1); ("ip assignment method", 1)]%string%nat
  | 0x04 => Some [("current ip address", 4); ("current subnet_mask", 4); ("current default gateway", 4);
                  ("dhcp server", 4); ("current ip assignment method", 1); ("reserved", 1)]%string%nat
  | 0x05 => Some (("knx individual address", 4%nat)
                  :: times (N.to_nat ((len - 4) / 2)) [("additional individual address", 4%nat)])%string
  | 0xfe => Some [("knx manufacturer id", 2%nat); ("manufacturer specific data", N.to_nat len)]%string
  | _ => None
  end.
(** Length octets that make sense. *)
Definition long_enough (code len : N) : Prop :=
  match code with 0x02 => 2 <= len | 0x05 => 4 <= len | _ => True end.
(** The media of 03.08.02, 7.5.4.2. *)
Definition known_medium (m : N) : Prop := m = 0x02 \/ m = 0x03 \/ m = 0x10 \/ m = 0x20.

(** 03.06.03, 4.1.5.3: the fields of an L_Data message that are always there. *)
Definition ldata_fields : list part :=
  [("control 1 byte", 1); ("control 2 byte", 1); ("source address", 2); ("destination address", 2);
   ("length", 1); ("octets 6 and 7", 2)]%string%nat.

(** ** Parts of an address *)
Fixpoint joined (sep : N) (ps : list (list N)) : list N :=
  match ps with
  | [] => []
  | [p] => p
  | p :: ps' => p ++ sep :: joined sep ps'
  end.
Definition without (sep : N) (p : list N) : Prop := ~ In sep p.
Definition good (max : N) (p : list N) : Prop := exists n, number p n /\ n <= max.
(** The digits of a number may follow a plus sign. *)
Definition after_sign (p body : list N) : Prop :=
  body <> [] /\ (p = 43 :: body \/ p = body /\ (forall x, p = 43 :: x -> x = [])).
(** Why [p] is not a number up to [max], by the names of the standard library:
    it is empty; a character that is no digit comes first; it becomes too large. *)
Inductive reason (max : N) (p : list N) : string -> Prop :=
| reason_empty : p = [] -> reason max p "Empty"
| reason_digit ds c rest : after_sign p (ds ++ c :: rest) -> Forall is_digit ds -> digits_value ds <= max ->
    ~ is_digit c -> reason max p "InvalidDigit"
| reason_large ds c rest : after_sign p (ds ++ c :: rest) -> Forall is_digit ds -> digits_value ds <= max ->
    is_digit c -> max < digits_value (ds ++ [c]) -> reason max p "PosOverflow".
(** [p], called [name], is the first part that is not a number up to [max]. *)
Fixpoint first_wrong (max : N) (parts : list (list N)) (names : list string) (p : list N) (name : string) (why : string) : Prop :=
  match parts, names with
  | q :: parts', n :: names' =>
      (q = p /\ n = name /\ reason max p why) \/ (good max q /\ first_wrong max parts' names' p name why)
  | _, _ => False
  end.
Definition group_names (n : nat) : list string :=
  match n with 2%nat => ["main"; "sub"]%string | 3%nat => ["main"; "mid"; "sub"]%string | _ => [] end.
