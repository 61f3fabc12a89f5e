(** Model of lib/src/sections_part3/derivative/{duration,duration_ec,duration_lut}.cpp.
    uint32_t members are [N], sample counts int64_t are [Z] with overflow as [Oob]. *)
From Verif Require Import Base IntHelpers.

(** duration_ec.hpp 27-36 without CARDINALITY, which is not a duration *)
Inductive duration_ec := ms001 | s001 | slot001 | subslot_u1_001 | subslot_u2_001 | subslot_u4_001 | subslot_u8_001.
(** duration_ec.cpp 27-40; has_single_bit(u) && u <= 8 *)
Definition get_duration_ec_depending_on_mu (u : N) : res duration_ec :=
  match u with
  | 1%N => Ok subslot_u1_001
  | 2%N => Ok subslot_u2_001
  | 4%N => Ok subslot_u4_001
  | 8%N => Ok subslot_u8_001
  | _ => Abort
  end.

(** duration.hpp 64-69 *)
Record duration := mkDur { du_samp_rate : N; du_ec : duration_ec; du_mult : N; du_N : N }.
(** duration.cpp 40-66; constants.hpp 39-47 *)
Definition samp_rate_divisor (ec : duration_ec) : N :=
  match ec with
  | ms001 => 1000
  | s001 => 1
  | slot001 => 2400
  | subslot_u1_001 => 4800
  | subslot_u2_001 => 9600
  | subslot_u4_001 => 19200
  | subslot_u8_001 => 38400
  end.
(** duration.cpp 28-82; numeric_limits<uint32_t>::max() / 2 = 2147483647 *)
Definition duration_new (sr : N) (ec : duration_ec) (mult : N) : res duration :=
  guard (0 <? sr)%N (guard (0 <? mult)%N
  (let d := samp_rate_divisor ec in
   guard (sr mod d =? 0)%N
   (let n := (sr / d)%N in
    guard (0 <? n)%N (guard (n * mult <=? 2147483647)%N
    (Ok (mkDur sr ec mult ((n * mult) mod 2 ^ 32)%N)))))).

(** duration_lut.hpp 70-73: duration_vec, indexed by the enumeration *)
Record duration_lut := mkLut { lut_rate : N; lut_vec : duration_ec -> Z }.
Definition all_ec : list duration_ec :=
  [ms001; s001; slot001; subslot_u1_001; subslot_u2_001; subslot_u4_001; subslot_u8_001].
(** duration_lut.cpp 30-39; the loop constructs every duration once, then the table holds them *)
Definition lut_entry (sr : N) (ec : duration_ec) : Z :=
  match duration_new sr ec 1 with Ok d => Z.of_N (du_N d) | _ => 0%Z end.
Definition lut_new (sr : N) : res duration_lut :=
  if forallb (fun ec => is_ok (duration_new sr ec 1)) all_ec then Ok (mkLut sr (lut_entry sr)) else Abort.
(** duration_lut.hpp 42-45 *)
Definition get_N_samples_from_duration (l : duration_lut) (ec : duration_ec) (mult : N) : res Z :=
  sgn 64 (lut_vec l ec * Z.of_N mult)%Z.
(** duration_lut.cpp 41-43 *)
Definition get_N_samples_from_subslots (l : duration_lut) (u mult : N) : res Z :=
  do ec <- get_duration_ec_depending_on_mu u ; get_N_samples_from_duration l ec mult.
(** duration_lut.cpp 45-48 *)
Definition get_N_samples_at_last_full_second (l : duration_lut) (t : Z) : res Z := multiple_leq 64 t (Z.of_N (lut_rate l)).
(** duration_lut.cpp 50-53 *)
Definition get_N_samples_at_next_full_second (l : duration_lut) (t : Z) : res Z := multiple_geq 64 t (Z.of_N (lut_rate l)).
(** duration_lut.cpp 55-63 *)
Definition get_N_ns_from_samples (l : duration_lut) (n : Z) : res Z :=
  if (Z.of_N (lut_rate l) =? 0)%Z then Oob else
  let a := Z.quot n (Z.of_N (lut_rate l)) in
  let b := Z.rem n (Z.of_N (lut_rate l)) in
  do x <- sgn 64 (a * 1000000000)%Z ;
  do y <- sgn 64 (b * 1000000000)%Z ;
  sgn 64 (x + Z.quot y (Z.of_N (lut_rate l)))%Z.
(** duration_lut.hpp 63-65 *)
Definition get_N_us_from_samples (l : duration_lut) (n : Z) : res Z :=
  do x <- get_N_ns_from_samples l n ; Ok (Z.quot x 1000).
(** duration_lut.cpp 65-69 *)
Definition get_N_duration_in_second (l : duration_lut) (d : duration) : res N :=
  if (du_N d =? 0)%N then Oob
  else guard (lut_rate l mod du_N d =? 0)%N (Ok (lut_rate l / du_N d)%N).
