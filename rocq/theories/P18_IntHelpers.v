(** C44: the integer helpers meet their contracts. *)
From Verif Require Import Base IntHelpers IntHelpersSpec IntHelpersFacts.
Open Scope Z_scope.

(** Ceil division is right exactly as long as x + y - 1 fits the type; beyond it returns 0. *)
Theorem C44_ceil_divide : forall w x y, (x < 2 ^ w)%N -> (0 < y < 2 ^ w)%N ->
  exists q, ceil_divide_integer w x y = Ok q /\
    (is_ceil x y q <-> (x + y - 1 < 2 ^ w)%N) /\ ((2 ^ w <= x + y - 1)%N -> q = 0%N).
Proof.
  intros w x y Hx Hy. destruct (N.ltb_spec (x + y - 1) (2 ^ w)) as [H|H].
  - destruct (ceil_exact w x y) as (q & E & C); try lia. exists q. split; [exact E|]. split; [tauto|lia].
  - destruct (ceil_wraps w x y) as (E & C); try lia. exists 0%N. split; [exact E|]. split; [|auto].
    split; [tauto|lia].
Qed.

(** Whenever rounding division returns, the result is the nearest integer, ties away from zero, for all signs;
    it does return if the magnitudes leave room for the sum. *)
Theorem C44_round : forall w x y,
  (forall q, round_integer w x y = Ok q -> is_nearest x y q) /\
  (y <> 0 -> Z.abs x + Z.abs y < 2 ^ (Z.of_N w - 1) -> exists q, round_integer w x y = Ok q).
Proof.
  intros w x y. split.
  - intros q E. apply round_integer_ok in E. destruct E as (H & ->). now apply round_z_nearest.
  - intros H B. eexists. now apply round_integer_def.
Qed.
Theorem C44_round_unsigned : forall w x y, (0 < y)%N -> (x + y / 2 < 2 ^ w)%N ->
  exists q, round_integer_u w x y = Ok q /\ is_nearest (Z.of_N x) (Z.of_N y) (Z.of_N q).
Proof. exact round_u_exact. Qed.

(** multiple_leq: right for non-negative numbers and for multiples; for every other negative number it
    returns the multiple above instead of the one below. It aborts exactly for m < 1. *)
Theorem C44_multiple_leq : forall w x m, in_signed w x = true ->
  (m < 1 -> multiple_leq w x m = Abort) /\
  (1 <= m -> exists l, multiple_leq w x m = Ok l /\
     (0 <= x -> is_mult_below x m l) /\ (x < 0 -> is_mult_above x m l) /\
     (is_mult_below x m l <-> 0 <= x \/ (m | x))).
Proof.
  intros w x m Hx. split.
  - intros H. unfold multiple_leq. replace (1 <=? m) with false by lia. reflexivity.
  - intros Hm. exists (Z.quot x m * m). split; [now apply mult_leq_val|].
    split; [intros; now apply quot_below|]. split; [intros; apply quot_above; lia|]. split.
    + intros B. destruct (Z_le_gt_dec 0 x); [auto|right].
      destruct (quot_above x m ltac:(lia) Hm) as (D & U & _). destruct B as (_ & L & _).
      replace x with (Z.quot x m * m) by lia. exact D.
    + intros [H|D]; [now apply quot_below|]. destruct D as (c & ->). rewrite Z.quot_mul by lia.
      split; [exists c; ring|]. split; [lia|]. auto.
Qed.

(** multiple_geq: right for all numbers, positive or negative, unless the next multiple leaves the type. *)
Theorem C44_multiple_geq : forall w x m, in_signed w x = true -> 1 <= m ->
  (0 <= x -> in_signed w (x + m - 1) = true) ->
  exists l, multiple_geq w x m = Ok l /\ is_mult_above x m l.
Proof. exact mult_geq_val. Qed.

(** The bit mask has exactly the bits lsb .. msb-1 set for types of up to 32 bits, and below bit 31 for wider ones. *)
Theorem C44_bitmask : forall w msb lsb, (lsb <= msb)%nat -> (N.of_nat msb <= w)%N -> (w <= 32 \/ (msb <= 31)%nat)%N ->
  exists v, bitmask w msb lsb = Ok v /\
    forall i, N.testbit v i = ((N.of_nat lsb <=? i) && (i <? N.of_nat msb))%N.
Proof.
  intros w msb lsb H1 H2 H3. unfold bitmask. rewrite bitmask_from_val by lia.
  eexists. split; [reflexivity|]. intros i. rewrite N.lor_0_l.
  destruct (N.ltb_spec i (N.of_nat lsb)) as [L|L].
  - rewrite N.shiftl_spec_low by lia. lia.
  - rewrite N.shiftl_spec_high' by lia. destruct (N.ltb_spec i (N.of_nat msb)).
    + rewrite N.ones_spec_low by lia. lia.
    + rewrite N.ones_spec_high by lia. lia.
Qed.
(** A 64 bit mask of the lower 32 bits has the upper 32 bits set as well: the sign of the shifted int. *)
Theorem C44_bitmask_64_refuted : bitmask 64 32 0 = Ok (2 ^ 64 - 1)%N.
Proof. vm_compute. reflexivity. Qed.

(** Values the code uses and one where each helper fails. *)
Example C44_hypotheses_met :
  ceil_divide_integer 32 1728 64 = Ok 27%N /\ ceil_divide_integer 32 4294967295 2 = Ok 0%N /\
  round_integer 64 (-25) 10 = Ok (-3) /\ round_integer 64 24 10 = Ok 2 /\ round_integer 32 (2 ^ 31 - 1) 2 = Oob /\
  multiple_leq 64 29 10 = Ok 20 /\ multiple_leq 64 (-29) 10 = Ok (-20) /\
  multiple_geq 64 21 10 = Ok 30 /\ multiple_geq 64 (-29) 10 = Ok (-20) /\
  bitmask 8 8 4 = Ok 240%N /\ in_signed 64 (-29) = true.
Proof. vm_compute. intuition reflexivity. Qed.

Print Assumptions C44_ceil_divide.
Print Assumptions C44_round.
Print Assumptions C44_round_unsigned.
Print Assumptions C44_multiple_leq.
Print Assumptions C44_multiple_geq.
Print Assumptions C44_bitmask.
