(** What the integer helpers are for, in terms of plain integers. *)
From Verif Require Import Base.
Open Scope Z_scope.

(** [q] is x / y rounded up: the least number of y's that hold x. *)
Definition is_ceil (x y q : N) : Prop := (x <= q * y /\ forall p, x <= p * y -> q <= p)%N.
(** [q] is x / y rounded to the nearest integer, ties away from zero. *)
Definition is_nearest (x y q : Z) : Prop :=
  (forall p, Z.abs (x - q * y) <= Z.abs (x - p * y)) /\
  (forall p, Z.abs (x - p * y) = Z.abs (x - q * y) -> p <> q -> Z.abs (p * y) < Z.abs (q * y)).
(** [l] is the largest multiple of m not above x. *)
Definition is_mult_below (x m l : Z) : Prop := (m | l) /\ l <= x /\ forall k, (m | k) -> k <= x -> k <= l.
(** [l] is the smallest multiple of m not below x. *)
Definition is_mult_above (x m l : Z) : Prop := (m | l) /\ x <= l /\ forall k, (m | k) -> x <= k -> l <= k.
