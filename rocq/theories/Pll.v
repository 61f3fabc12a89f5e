(** Model of lib/src/mac/pll/pll.cpp and pll.hpp with the constants of pll_param.hpp.
    Sample times are int64_t, overflow is [Oob]. The warp factor, a double in the code, is an exact rational here;
    a division by zero yields infinity in the code, which the assertion after it rejects. *)
From Verif Require Import Base IntHelpers Ppx.
From Coq Require Import QArith.
Open Scope Z_scope.

(** pll.hpp 56-71 *)
Record pll := mkPll {
  pl_rate : Z; pl_period : Z;
  pl_accept : Z; pl_min : Z; pl_max : Z;
  pl_vec : list Z; pl_idx : nat; pl_warp : Q }.
(** pll.cpp 32-50; beacon_period holds the sample rate and its own length. The reference accuracy is 15 ppm under
    extreme conditions (sections_part2/reference_time.cpp 30-31). *)
Definition pll_new (sr P : Z) : res pll :=
  do a <- sgn 64 (sr * 1000) ; let acc := Z.quot a 1000 in
  do b <- sgn 64 (sr * 5000) ; let dmin := Z.quot b 1000 in
  do c <- sgn 64 (P * 8) ;
  do dmax <- sgn 64 (dmin + c) ;
  guard (acc <? dmin)
  (if acc =? 0 then Oob else
   guard (Z.rem dmin acc =? 0)
   (guard (dmin <? dmax)
    (do e <- sgn 64 (dmax * 15) ;
     guard (Z.quot e 1000000 <? Z.quot P 8)
     (Ok (mkPll sr P acc dmin dmax (repeat UNDEFINED_EARLY_64 (Z.to_nat (Z.quot dmin acc))) 0 1%Q))))).
(** pll.hpp 73-74 *)
Definition prev_idx (p : pll) : nat := if (pl_idx p =? 0)%nat then (length (pl_vec p) - 1)%nat else (pl_idx p - 1)%nat.
Definition next_idx (p : pll) : nat := if (pl_idx p =? length (pl_vec p) - 1)%nat then 0%nat else (pl_idx p + 1)%nat.
(** pll.hpp 39, 42; vector::at *)
Definition vat (p : pll) (i : nat) : res Z := match nth_error (pl_vec p) i with Some x => Ok x | None => Throw end.
Definition get_beacon_time_last_known (p : pll) : res Z := vat p (prev_idx p).
Definition get_beacon_time_oldest_known (p : pll) : res Z := vat p (next_idx p).
Definition pll_set (p : pll) (v : list Z) (i : nat) (w : Q) : pll :=
  mkPll (pl_rate p) (pl_period p) (pl_accept p) (pl_min p) (pl_max p) v i w.
(** common/adt/ema.hpp 39-42 with alpha = 0.9 *)
Definition ema_update (val val_new : Q) : Q := (val * (9 # 10) + (1 - (9 # 10)) * val_new)%Q.
(** pll.cpp 104-107 with 150 ppm *)
Definition in_sync (w : Q) : bool :=
  negb (Qle_bool (1 + (150 # 1000000)) w) && negb (Qle_bool w (1 - (150 # 1000000))).
(** pll.cpp 52-108 *)
Definition pll_provide (p : pll) (t : Z) : res pll :=
  do l <- get_beacon_time_last_known p ;
  do a <- sgn 64 (t - l) ;
  if a <? pl_accept p then Ok p else
  do _ <- vat p (pl_idx p) ;
  let p := pll_set p (upd (pl_vec p) (pl_idx p) t) (pl_idx p) (pl_warp p) in
  do o <- get_beacon_time_oldest_known p ;
  let q := pll_set p (pl_vec p) (next_idx p) (pl_warp p) in
  if o <? 0 then Ok q else
  do n <- vat p (pl_idx p) ;
  do dist <- sgn 64 (n - o) ;
  if pl_max p <? dist then Ok q else
  do k <- round_integer 64 dist (pl_period p) ;
  do e <- sgn 64 (k * pl_period p) ;
  if e =? 0 then Abort else
  let w := ema_update (pl_warp p) (inject_Z dist / inject_Z e)%Q in
  guard (in_sync w) (Ok (pll_set q (pl_vec q) (pl_idx q) w)).
(** pll.cpp 110-114 *)
Definition pll_reset (p : pll) : pll :=
  pll_set p (repeat UNDEFINED_EARLY_64 (length (pl_vec p))) 0 1%Q.
(** pll.hpp 46-51 on integers; std::round rounds half away from zero *)
Definition get_warped (p : pll) (len : Z) : Z :=
  let x := (inject_Z len * pl_warp p)%Q in
  Z.quot (2 * Qnum x + (if Qnum x <? 0 then - Z.pos (Qden x) else Z.pos (Qden x))) (2 * Z.pos (Qden x)).

Inductive pll_op := Provide (t : Z) | Reset.
Definition pll_step (p : pll) (o : pll_op) : res pll :=
  match o with Provide t => pll_provide p t | Reset => Ok (pll_reset p) end.
Fixpoint pll_run (p : pll) (l : list pll_op) : res pll :=
  match l with [] => Ok p | o :: l => do p <- pll_step p o ; pll_run p l end.
