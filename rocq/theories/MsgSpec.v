(** What an error text should tell: layouts of the datagrams, the field at
    which a datagram goes wrong, numbers in a text. *)
From Coq Require Export String Ascii.
From Verif Require Import Base Wire.

(** ** Layouts (03.08.02 and 03.08.04): a field is one or two octets and has
    the values listed. *)
Record field := { two : bool; fits : N -> bool }.
Definition any (w : bool) : field := {| two := w; fits := fun _ => true |}.
Definition exactly (w : bool) (n : N) : field := {| two := w; fits := fun v => v =? n |}.
Definition at_least (w : bool) (n : N) : field := {| two := w; fits := fun v => n <=? v |}.
Definition none_of (w : bool) (l : list N) : field := {| two := w; fits := fun v => negb (existsb (N.eqb v) l) |}.
Definition one_of (w : bool) (l : list N) : field := {| two := w; fits := fun v => existsb (N.eqb v) l |}.

Definition start (service : N) : list field := [exactly false 6; exactly false 0x10; exactly true service].
Definition endpoint : list field :=
  [exactly false 8; any false; any false; any false; any false; any false; any true].
Inductive datagram :=
| GConnectResponse | GStateRequest | GStateResponse | GDisconnectRequest | GDisconnectResponse
| GHeader | GTunnelling | GAck | GFeature.
(** A disconnect request is read without its header (the caller skips it);
    [GHeader] is the header as it is read for search datagrams. *)
Definition layout (g : datagram) : list field :=
  match g with
  | GConnectResponse =>
      start 0x0206 ++ [at_least true 8; any false; none_of false [0x22; 0x23; 0x24; 0x29]] ++ endpoint
      ++ [exactly false 4; exactly false 4; any true]
  | GStateRequest => start 0x0207 ++ [any true; any false; any false] ++ endpoint
  | GStateResponse => start 0x0208 ++ [exactly true 8; any false; any false]
  | GDisconnectRequest => [at_least false 8; any false; any false] ++ endpoint
  | GDisconnectResponse => start 0x020a ++ [exactly true 8; any false; any false]
  | GHeader => [exactly false 6; exactly false 0x10; any true; any true]
  | GTunnelling => start 0x0420 ++ [any true; exactly false 4; any false; any false; any false]
  | GAck => start 0x0421 ++ [exactly true 10; exactly false 4; any false; any false; any false]
  | GFeature =>
      start 0x0423 ++ [exactly true 13; exactly false 4; any false; any false; any false;
                       one_of false [2; 6; 7; 8]; any false; any false]
  end.

Definition octets_of (f : field) (v : N) : list N := if two f then [v / 256; v mod 256] else [v].
(** The fields before number [i] are as they should be, field [i] has the value
    [v], which it should not have. *)
Fixpoint wrong_at (l : list field) (b : list N) (i : nat) (v : N) : Prop :=
  match l with
  | [] => False
  | f :: l' =>
      match i with
      | O => fits f v = false /\ exists rest, b = octets_of f v ++ rest
      | S i' => exists w rest, fits f w = true /\ b = octets_of f w ++ rest /\ wrong_at l' rest i' v
      end
  end.
(** ... and the datagram ends before field [i] does. *)
Fixpoint cut_at (l : list field) (b : list N) (i : nat) : Prop :=
  match l with
  | [] => False
  | f :: l' =>
      match i with
      | O => (length b < if two f then 2 else 1)%nat
      | S i' => exists w rest, fits f w = true /\ b = octets_of f w ++ rest /\ cut_at l' rest i'
      end
  end.

(** ** Numbers in a text *)
Definition digit_value (c : ascii) : option N :=
  let n := N_of_ascii c in
  if (48 <=? n) && (n <=? 57) then Some (n - 48)
  else if (97 <=? n) && (n <=? 102) then Some (n - 87)
  else if (65 <=? n) && (n <=? 70) then Some (n - 55)
  else None.
Fixpoint number_value (base : N) (s : string) (acc : N) : option N :=
  match s with
  | EmptyString => Some acc
  | String c s' =>
      match digit_value c with
      | Some d => if d <? base then number_value base s' (base * acc + d) else None
      | None => None
      end
  end.
(** The last word of the text is the number [v], in decimal or hexadecimal. *)
Definition states (t : string) (v : N) : Prop :=
  exists before word, t = (before ++ " " ++ word)%string /\ word <> EmptyString /\
    (number_value 10 word 0 = Some v \/ number_value 16 word 0 = Some v).

(** The reasons of 03.08.02, 7.8.2 and 03.08.04, 4.4.4 (texts of the library). *)
Definition refusal (status : N) : string :=
  match status with
  | 0x22 => "Target KNX/IP device does not support requested connection type"
  | 0x23 => "Target KNX/IP device does not support one or more requested connection options"
  | 0x24 => "No more connections available on target KNX/IP device"
  | _ => "Target KNX/IP device does not support requested tunneling layer"
  end.

(** ** Exceptions
    The version in the five decoders of core.rs that check it; the status of a
    connect response, whose error gives the reason instead of the number. *)
Definition version_field (g : datagram) (i : nat) : Prop :=
  i = 1%nat /\ match g with GConnectResponse | GStateRequest | GStateResponse | GDisconnectResponse | GHeader => True | _ => False end.
Definition status_field (g : datagram) (i : nat) : Prop := g = GConnectResponse /\ i = 5%nat.
(** Two fields with one name in the errors about their absence: the channel and
    the sequence number of acknowledgements and feature responses, the feature
    and the status of the latter. *)
Definition confused (g : datagram) (i j : nat) : Prop :=
  match g with
  | GAck => (i = 5 /\ j = 6 \/ i = 6 /\ j = 5)%nat
  | GFeature => (i = 5 /\ j = 6 \/ i = 6 /\ j = 5 \/ i = 8 /\ j = 9 \/ i = 9 /\ j = 8)%nat
  | _ => False
  end.
