(** Model of lib/include/dectnrp/common/adt/miscellaneous.hpp and of bitmask in bitbyte.hpp.
    C++ integers are [Z] or [N] with the width [w] of the type as a parameter; undefined behaviour
    (signed overflow, division by zero) is the outcome [Oob]. Widths below int, for which C++
    promotes, are not modelled. *)
From Verif Require Import Base.

(** A value of a signed type of [w] bits. *)
Definition in_signed (w : N) (z : Z) : bool :=
  ((- 2 ^ (Z.of_N w - 1) <=? z) && (z <? 2 ^ (Z.of_N w - 1)))%Z.
(** The result of a signed operation. *)
Definition sgn (w : N) (z : Z) : res Z := if in_signed w z then Ok z else Oob.

(** miscellaneous.hpp 33-36, unsigned type of [w] bits *)
Definition ceil_divide_integer (w x y : N) : res N :=
  if (y =? 0)%N then Oob else Ok (((x + y + (2 ^ w - 1)) mod 2 ^ w) / y)%N.

(** miscellaneous.hpp 38-42, signed type of [w] bits *)
Definition round_integer (w : N) (x y : Z) : res Z :=
  do s <- (if Bool.eqb (x <? 0)%Z (y <? 0)%Z then Ok y else sgn w (- y)%Z) ;
  do a <- sgn w (x + Z.quot s 2)%Z ;
  if (y =? 0)%Z then Oob else sgn w (Z.quot a y).
(** miscellaneous.hpp 38-42, unsigned type of [w] bits *)
Definition round_integer_u (w x y : N) : res N :=
  if (y =? 0)%N then Oob else Ok (((x + y / 2) mod 2 ^ w) / y)%N.

(** miscellaneous.hpp 44-48; [w] is the width of the wider of T and M, [wt] that of T *)
Definition multiple_leq (w : N) (x m : Z) : res Z :=
  guard (1 <=? m)%Z (do q <- sgn w (Z.quot x m) ; sgn w (q * m)%Z).
(** miscellaneous.hpp 50-54 *)
Definition multiple_geq (w : N) (x m : Z) : res Z :=
  do l <- multiple_leq w x m ;
  if (l <? x)%Z then sgn w (l + m)%Z else Ok l.

(** bitbyte.hpp 29-38. 1 << i is an int: bit 31 is its sign (C++20: INT_MIN), shifting by 32 or more
    is undefined; [ret |= 1 << i] converts the int to [T] of [w] bits. *)
Definition shifted_one (w : N) (i : nat) : res N :=
  if (i <? 31)%nat then Ok (2 ^ N.of_nat i mod 2 ^ w)%N
  else if (i =? 31)%nat then Ok (Z.to_N ((- 2 ^ 31) mod 2 ^ Z.of_N w))
  else Oob.
Fixpoint bitmask_from (w : N) (k i : nat) (ret : N) : res N :=
  match k with
  | O => Ok ret
  | S k => do b <- shifted_one w i ; bitmask_from w k (S i) (N.lor ret b)
  end.
Definition bitmask (w : N) (msb lsb : nat) : res N := bitmask_from w (msb - lsb) lsb 0%N.
