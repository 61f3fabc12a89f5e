(** Model of lib/src/mac/ppx/ppx.cpp and ppx.hpp. Samples are int64_t, overflow is [Oob]. Durations enter as
    their sample counts. *)
From Verif Require Import Base IntHelpers.
Open Scope Z_scope.

(** common/adt/miscellaneous.hpp 71 *)
Definition UNDEFINED_EARLY_64 : Z := - 2 ^ 60.

(** ppx.hpp 65-79 *)
Record ppx := mkPpx {
  px_period : Z; px_length : Z; px_advance : Z; px_beacon : Z; px_devmax : Z;
  px_warped : Z; px_edge : Z }.
(** ppx.cpp 29-46 *)
Definition ppx_new (period len adv beacon devmax : Z) : res ppx :=
  guard (len <? period) (guard (adv <? period) (guard (beacon <? period)
  (if beacon =? 0 then Oob
   else guard (Z.rem period beacon =? 0)
        (Ok (mkPpx period len adv beacon devmax period UNDEFINED_EARLY_64))))).
Definition with_edge (p : ppx) (e : Z) : ppx :=
  mkPpx (px_period p) (px_length p) (px_advance p) (px_beacon p) (px_devmax p) (px_warped p) e.
(** ppx.hpp 40 *)
Definition has_ppx_rising_edge (p : ppx) : bool := 0 <=? px_edge p.
(** ppx.cpp 48-53 *)
Definition set_ppx_rising_edge (p : ppx) (e : Z) : res ppx :=
  guard (px_edge p <? 0) (guard (0 <? e) (Ok (with_edge p e))).
(** ppx.cpp 55-57 *)
Definition extrapolate_next_rising_edge (p : ppx) : res ppx :=
  do e <- sgn 64 (px_edge p + px_warped p) ; Ok (with_edge p e).
(** ppx.hpp 60-62 *)
Definition set_ppx_period_warped (p : ppx) (w : Z) : ppx :=
  mkPpx (px_period p) (px_length p) (px_advance p) (px_beacon p) (px_devmax p) w (px_edge p).
(** ppx.cpp 84-96 *)
Definition determine_offset (ref raster t : Z) : res Z :=
  guard (Z.rem raster 2 =? 0)
  (do a <- sgn 64 (t - ref) ;
   do b <- round_integer 64 a raster ;
   do br <- sgn 64 (b * raster) ;
   do c <- sgn 64 (ref + br) ;
   do d <- sgn 64 (t - c) ;
   do m <- sgn 64 (Z.abs d) ;
   guard (m <? Z.quot raster 2) (Ok d)).
(** ppx.cpp 63-76 *)
Definition provide_beacon_time_out_of_raster (p : ppx) (t raster : Z) : res ppx :=
  guard (0 <=? px_edge p)
  (do d <- determine_offset (px_edge p) raster t ;
   guard (Z.abs d <=? px_devmax p)
   (do e <- sgn 64 (px_edge p + d) ; Ok (with_edge p e))).
(** ppx.cpp 59-61 *)
Definition provide_beacon_time (p : ppx) (t : Z) : res ppx := provide_beacon_time_out_of_raster p t (px_beacon p).
(** ppx.cpp 78-82 *)
Definition get_ppx_imminent (p : ppx) : res (Z * Z) :=
  do a <- sgn 64 (px_edge p + px_warped p) ;
  do b <- sgn 64 (a + px_length p) ; Ok (a, b).

(** What the firmware does with the object once the first edge is known. *)
Inductive ppx_op := Beacon (t : Z) | Extrapolate.
Definition ppx_step (p : ppx) (o : ppx_op) : res ppx :=
  match o with Beacon t => provide_beacon_time p t | Extrapolate => extrapolate_next_rising_edge p end.
Fixpoint ppx_run (p : ppx) (l : list ppx_op) : res ppx :=
  match l with [] => Ok p | o :: l => do p <- ppx_step p o ; ppx_run p l end.
