(** Machine integers, results, byte readers: the vocabulary shared by the model.

    Rust integers of unsigned type are [N] (the type bound is carried by the
    [wf_*] predicates), signed ones are [Z]; arrays, slices, [Vec<u8>] and the
    UTF-8 bytes of a [&str] are [list N].  A panic is an explicit value. *)
From Coq Require Export NArith ZArith List Bool Lia.
Export ListNotations.
Open Scope N_scope.

(** Result of a Rust function returning [Result<T, Whatever>] that may also
    panic.  Error texts are modelled separately, in Messages.v and Messages2.v. *)
Inductive res (A : Type) : Type :=
| Ok (a : A)
| Err
| Panic.
Arguments Ok {A} a.
Arguments Err {A}.
Arguments Panic {A}.

Definition bind {A B} (x : res A) (f : A -> res B) : res B :=
  match x with Ok a => f a | Err => Err | Panic => Panic end.

(** Cargo build profile: arithmetic overflow panics in [Debug]
    (overflow-checks = on) and wraps in [Release]. *)
Inductive profile := Debug | Release.

(** [a + b] on an unsigned type of modulus [m]. *)
Definition add_chk (p : profile) (m a b : N) : res N :=
  if a + b <? m then Ok (a + b)
  else match p with Debug => Panic | Release => Ok ((a + b) mod m) end.

(** [a - b] on an unsigned type of modulus [m]. *)
Definition sub_chk (p : profile) (m a b : N) : res N :=
  if b <=? a then Ok (a - b)
  else match p with Debug => Panic | Release => Ok ((a + m - b) mod m) end.

Definition u8_max1 : N := 256.
Definition u16_max1 : N := 65536.

(** [write_u16::<BigEndian>(n)], [to_be_bytes] of a u16. *)
Definition be16 (n : N) : list N := [(n / 256) mod 256; n mod 256].
(** [u32::to_be_bytes]. *)
Definition be32 (n : N) : list N := be16 (n / 65536) ++ be16 (n mod 65536).

(** [x as u8], [x as u16]. *)
Definition as_u8 (n : N) : N := n mod 256.
Definition as_u16 (n : N) : N := n mod 65536.

Definition lenN {A} (l : list A) : N := N.of_nat (length l).

(** ** Readers: [std::io::Cursor<&[u8]>] as the list of bytes not yet read.
    Simplification: after an error the cursor position is not modelled (no
    caller in the repository looks at the cursor after an error). *)
Definition parser (A : Type) : Type := list N -> res (A * list N).

Definition ret {A} (a : A) : parser A := fun r => Ok (a, r).
Definition fail {A} : parser A := fun _ => Err.
Definition pbind {A B} (p : parser A) (f : A -> parser B) : parser B :=
  fun r => match p r with
           | Ok (a, r') => f a r'
           | Err => Err
           | Panic => Panic
           end.
Definition lift {A} (x : res A) : parser A :=
  fun r => match x with Ok a => Ok (a, r) | Err => Err | Panic => Panic end.

Declare Scope parser_scope.
Delimit Scope parser_scope with parser.
Notation "x <- p ;; q" := (pbind p (fun x => q))
  (at level 61, p at next level, right associativity) : parser_scope.
Notation "p ;;; q" := (pbind p (fun _ => q))
  (at level 61, right associativity) : parser_scope.

(** byteorder [ReadBytesExt::read_u8]. *)
Definition read_u8 : parser N :=
  fun r => match r with b :: r' => Ok (b, r') | [] => Err end.
(** byteorder [read_u16::<BigEndian>]. *)
Definition read_u16 : parser N :=
  fun r => match r with a :: b :: r' => Ok (a * 256 + b, r') | _ => Err end.
(** byteorder [read_u32::<BigEndian>]. *)
Definition read_u32 : parser N :=
  fun r => match r with
           | a :: b :: c :: d :: r' => Ok (((a * 256 + b) * 256 + c) * 256 + d, r')
           | _ => Err
           end.
(** [Read::read_exact] into an array of [n] bytes. *)
Definition read_exact (n : nat) : parser (list N) :=
  fun r => if Nat.leb n (length r) then Ok (firstn n r, skipn n r) else Err.
(** [Read::read] into a zeroed buffer of [n] bytes: never fails on a cursor,
    copies what is available and leaves the rest of the buffer zero. *)
Definition read_zeroed (n : nat) : parser (list N) :=
  fun r => Ok (firstn n r ++ repeat 0 (n - length r), skipn n r).
(** [Read::read_to_end]. *)
Definition read_to_end : parser (list N) := fun r => Ok (r, []).
(** [ensure_whatever!(c, ..)]. *)
Definition ensure (c : bool) : parser unit :=
  fun r => if c then Ok (tt, r) else Err.

(** Run a reader on a whole buffer and forget the unread rest, as callers do
    with [Cursor::new(buf.as_slice())]. *)
Definition run_on {A} (p : parser A) (bs : list N) : res A :=
  match p bs with Ok (a, _) => Ok a | Err => Err | Panic => Panic end.

(** Every element is a byte. *)
Definition byte (b : N) : Prop := b < 256.
Definition bytes (bs : list N) : Prop := Forall byte bs.
