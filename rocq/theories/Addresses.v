(** Model of src/packets/addresses.rs. *)
From Verif Require Import Base.

(** addresses.rs:98-103. *)
Record individual := { ia_area : N; ia_line : N; ia_address : N }.
(** addresses.rs:157-161. *)
Record group3 := { g3_main : N; g3_middle : N; g3_sub : N }.
(** addresses.rs:208-211. *)
Record group2 := { g2_main : N; g2_sub : N }.
(** addresses.rs:229-231. *)
Record group1 := { g1_main : N }.

(** addresses.rs:8-13. *)
Inductive knx_address :=
| Individual (a : individual)
| Group3Level (a : group3)
| Group2Level (a : group2)
| Group1Level (a : group1).

(** addresses.rs:16-30: the public constructors (no range checks). *)
Definition mk_individual (area line address : N) : knx_address :=
  Individual {| ia_area := area; ia_line := line; ia_address := address |}.
Definition group_1_level (main : N) : knx_address := Group1Level {| g1_main := main |}.
Definition group_2_level (main sub : N) : knx_address :=
  Group2Level {| g2_main := main; g2_sub := sub |}.
Definition group_3_level (main middle sub : N) : knx_address :=
  Group3Level {| g3_main := main; g3_middle := middle; g3_sub := sub |}.

(** [(x as u16) << k]: bits shifted out of the u16 are lost. *)
Definition shl_u16 (x k : N) : N := as_u16 (N.shiftl x k).

(** addresses.rs:106-113. *)
Definition individual_to_u16 (a : individual) : N :=
  N.lor (N.lor (N.lor 0 (shl_u16 (ia_area a) 12)) (shl_u16 (ia_line a) 8)) (ia_address a).
(** addresses.rs:115-125. *)
Definition individual_from_u16 (addr : N) : individual :=
  let area := N.shiftr (N.land 0xf000 addr) 12 in
  let line := N.shiftr (N.land 0x0f00 addr) 8 in
  let address := N.land 0x00ff addr in
  {| ia_area := as_u8 area; ia_line := as_u8 line; ia_address := as_u8 address |}.

(** addresses.rs:198-205. *)
Definition group3_to_u16 (a : group3) : N :=
  N.lor (N.lor (N.lor 0 (shl_u16 (g3_main a) 11)) (shl_u16 (g3_middle a) 8)) (g3_sub a).
(** addresses.rs:187-196 ([v & 0b11111 << 11] parses as [v & (0b11111 << 11)]). *)
Definition group3_from_u16 (v : N) : group3 :=
  let main := N.shiftr (N.land v (N.shiftl 31 11)) 11 in
  let middle := N.shiftr (N.land v (N.shiftl 7 8)) 8 in
  let sub := N.land v 255 in
  {| g3_main := as_u8 main; g3_middle := as_u8 middle; g3_sub := as_u8 sub |}.

(** addresses.rs:220-226. *)
Definition group2_to_u16 (a : group2) : N :=
  N.lor (N.lor 0 (shl_u16 (g2_main a) 8)) (g2_sub a).
(** addresses.rs:240-242. *)
Definition group1_to_u16 (a : group1) : N := g1_main a.

(** addresses.rs:32-39. *)
Definition addr_to_u16 (a : knx_address) : N :=
  match a with
  | Individual a => individual_to_u16 a
  | Group3Level a => group3_to_u16 a
  | Group2Level a => group2_to_u16 a
  | Group1Level a => group1_to_u16 a
  end.

(** Rust type bounds of the fields (u8, u8, u8 / u16). *)
Definition wf_individual (a : individual) : Prop :=
  byte (ia_area a) /\ byte (ia_line a) /\ byte (ia_address a).
Definition wf_group3 (a : group3) : Prop :=
  byte (g3_main a) /\ byte (g3_middle a) /\ byte (g3_sub a).
Definition wf_group2 (a : group2) : Prop := byte (g2_main a) /\ byte (g2_sub a).
Definition wf_addr (a : knx_address) : Prop :=
  match a with
  | Individual a => wf_individual a
  | Group3Level a => wf_group3 a
  | Group2Level a => wf_group2 a
  | Group1Level a => g1_main a < 65536
  end.

(** ** Text: a [&str] is its UTF-8 bytes.  The separators and digits are
    ASCII, and no byte of a multi-byte UTF-8 sequence is ASCII, so splitting
    and digit tests agree on bytes and on chars. *)
Definition c_dot : N := 46.
Definition c_slash : N := 47.
Definition c_plus : N := 43.
Definition c_zero : N := 48.

(** [str::contains(c)]. *)
Definition contains (c : N) (s : list N) : bool := existsb (N.eqb c) s.

(** [str::split(c).collect::<Vec<_>>()]: never empty. *)
Fixpoint split_on (c : N) (s : list N) : list (list N) :=
  match s with
  | [] => [[]]
  | x :: s' =>
      if x =? c then [] :: split_on c s'
      else match split_on c s' with
           | [] => [[x]]
           | p :: ps => (x :: p) :: ps
           end
  end.

(** core::num [from_str_radix(_, 10)] digit loop for an unsigned type with
    maximum [max]: checked multiply and add. *)
Fixpoint parse_digits (max acc : N) (s : list N) : option N :=
  match s with
  | [] => Some acc
  | c :: s' =>
      if (c_zero <=? c) && (c <=? 57) then
        let acc' := acc * 10 + (c - c_zero) in
        if acc' <=? max then parse_digits max acc' s' else None
      else None
  end.

(** [str::parse::<u8/u16>()]: the empty string and a lone sign are errors, one
    leading '+' is accepted, '-' is an invalid digit for unsigned types. *)
Definition parse_uint (max : N) (s : list N) : option N :=
  match s with
  | [] => None
  | [c] => parse_digits max 0 [c]
  | c :: s' => if c =? c_plus then parse_digits max 0 s' else parse_digits max 0 s
  end.
Definition parse_u8 : list N -> option N := parse_uint 255.
Definition parse_u16 : list N -> option N := parse_uint 65535.

(** addresses.rs:128-149. *)
Definition individual_try_from (value : list N) : res individual :=
  match split_on c_dot value with
  | [a; l; d] =>
      match parse_u8 a with
      | None => Err
      | Some area =>
          match parse_u8 l with
          | None => Err
          | Some line =>
              match parse_u8 d with
              | None => Err
              | Some address =>
                  Ok {| ia_area := area; ia_line := line; ia_address := address |}
              end
          end
      end
  | _ => Err
  end.

(** addresses.rs:169-184. *)
Definition group3_try_from (value : list N) : res group3 :=
  match split_on c_slash value with
  | [a; m; s] =>
      match parse_u8 a, parse_u8 m, parse_u8 s with
      | Some main, Some middle, Some sub =>
          Ok {| g3_main := main; g3_middle := middle; g3_sub := sub |}
      | _, _, _ => Err
      end
  | _ => Err
  end.

(** addresses.rs:42-96. *)
Definition addr_try_from (value : list N) : res knx_address :=
  if contains c_dot value then
    match individual_try_from value with
    | Ok a => Ok (Individual a)
    | Err => Err
    | Panic => Panic
    end
  else
    match split_on c_slash value with
    | [m] =>
        match parse_u16 m with Some main => Ok (group_1_level main) | None => Err end
    | [m; s] =>
        match parse_u8 m with
        | None => Err
        | Some main =>
            match parse_u8 s with
            | None => Err
            | Some sub => Ok (group_2_level main sub)
            end
        end
    | [m; i; s] =>
        match parse_u8 m with
        | None => Err
        | Some main =>
            match parse_u8 i with
            | None => Err
            | Some mid =>
                match parse_u8 s with
                | None => Err
                | Some sub => Ok (group_3_level main mid sub)
                end
            end
        end
    | _ => Err
    end.

(** [{}] formatting of an unsigned integer: decimal, no leading zeros.
    Values here are below 65536, so five digits of fuel are enough. *)
Fixpoint dec_fuel (fuel : nat) (n : N) : list N :=
  match fuel with
  | O => []
  | S f => if n <? 10 then [c_zero + n]
           else dec_fuel f (n / 10) ++ [c_zero + n mod 10]
  end.
Definition show_uint (n : N) : list N := dec_fuel 5 n.

(** addresses.rs:151-155, 163-167, 213-217, 233-237: the [fmt::Debug] texts. *)
Definition individual_debug (a : individual) : list N :=
  show_uint (ia_area a) ++ [c_dot] ++ show_uint (ia_line a) ++ [c_dot] ++ show_uint (ia_address a).
Definition group3_debug (a : group3) : list N :=
  show_uint (g3_main a) ++ [c_slash] ++ show_uint (g3_middle a) ++ [c_slash] ++ show_uint (g3_sub a).
Definition group2_debug (a : group2) : list N :=
  show_uint (g2_main a) ++ [c_slash] ++ show_uint (g2_sub a).
Definition group1_debug (a : group1) : list N := show_uint (g1_main a).
(** The text inside the derived Debug of [KnxAddress] (addresses.rs:7-13, which
    prints e.g. [Individual(1.2.3)]); the variant name and parentheses are dropped. *)
Definition addr_text (a : knx_address) : list N :=
  match a with
  | Individual a => individual_debug a
  | Group3Level a => group3_debug a
  | Group2Level a => group2_debug a
  | Group1Level a => group1_debug a
  end.
