(** What the unused first encoder of the 2-byte float turns a number of
    hundredths into: the low fifteen bits of it, cut to the eleven bits of the
    mantissa, and 65536 times too much if they are below 1024. *)
From Coq Require Import ZArith.
Open Scope Z_scope.

Definition old_hundredths (r : Z) : Z :=
  if r <? 1024 then 65536 * r
  else let step := 2 ^ (Z.log2 r - 10) in r / step * step.
