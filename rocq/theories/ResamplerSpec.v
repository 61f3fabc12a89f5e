(** What rational resampling means, independent of the code: insert L-1 zeros between the samples, filter, take
    every M-th value, starting where the delay of the filter ends. *)
From Verif Require Import Base Cells.
Open Scope N_scope.

Section spec.
Context {smp coef : Type}.
Variables (s0 : smp) (f0 : coef) (dot : list smp -> list coef -> smp).
Variables (L M : N) (h : list coef).

(** Sample [i] of a signal that is zero before and after. *)
Definition sample_at (x : list smp) (i : Z) : smp := if (i <? 0)%Z then s0 else nth (Z.to_nat i) x s0.
(** Coefficient [j] of the filter; it is zero after the last one. *)
Definition tap (j : N) : coef := nth (N.to_nat j) h f0.
(** Position of output [k] in the upsampled signal: a multiple of M after the delay of the filter. *)
Definition position (k : N) : N := k * M + (len h - 1) / 2.
(** How many coefficients of the filter meet samples which are not inserted zeros. *)
Definition sub_taps : N := (len h + L - 1) / L.
(** Output [k]: the samples up to the one at the position, each with the coefficient at its distance; the
    oldest sample comes first. *)
Definition out_sample (x : list smp) (k : N) : smp :=
  let t := position k in
  let ms := rev (upto sub_taps) in
  dot (map (fun m => sample_at x (Z.of_N (t / L) - Z.of_N m)) ms) (map (fun m => tap (t mod L + m * L)) ms).
(** How many outputs there are for [n] samples: all those whose samples do not start after the last one. *)
Definition out_count (n : N) : N := (L * (n + (sub_taps - 1)) - (len h - 1) / 2 + (M - 1)) / M.
End spec.

(** The same for integers with the exact sum of products: output [k] is the sum of all samples, each weighted
    with the coefficient at its distance from the position. *)
Definition zdot (w f : list Z) : Z := fold_right Z.add 0%Z (map (fun p => fst p * snd p)%Z (combine w f)).
Definition tap_z (h : list Z) (j : Z) : Z := if (j <? 0)%Z then 0%Z else nth (Z.to_nat j) h 0%Z.
Definition convolution (L M : N) (h x : list Z) (k : N) : Z :=
  fold_right Z.add 0%Z
    (map (fun i => nth i x 0 * tap_z h (Z.of_N (k * M + (len h - 1) / 2) - Z.of_N L * Z.of_nat i))%Z (seq 0 (length x))).
