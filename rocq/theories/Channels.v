(** Model of lib/src/sections_part2/channel_arrangement.cpp. The doubles F0, channel_spacing and FC, which
    are the integers converted, are left out. *)
From Verif Require Import Base.
Open Scope N_scope.

(** channel_arrangement.hpp 27-37 *)
Record acfn := mkAcfn { ac_band : N; ac_min : N; ac_max : N; ac_spacing : N }.
(** channel_arrangement.cpp 26: the condition is 1 <= x || x <= 19 *)
Definition assert_band {A} (b : N) (k : res A) : res A := guard ((1 <=? b) || (b <=? 19)) k.
(** channel_arrangement.cpp 30-137 *)
Definition get_acfn (b : N) : res acfn :=
  assert_band b
  (let '(lo, hi) :=
     match b with
     | 1 => (1657, 1677)
     | 2 => (1680, 1700)
     | 3 => (2258, 2352)
     | 4 => (524, 552)
     | 5 => (1, 22)
     | 6 => (288, 411)
     | 7 => (309, 321)
     | 8 => (1137, 1234)
     | 9 => (1691, 1711)
     | 10 => (1806, 1822)
     | 11 => (2142, 2256)
     | 12 => (2374, 2511)
     | 13 => (3126, 3183)
     | 14 => (3184, 3298)
     | 15 => (3299, 3356)
     | 16 => (3994, 4103)
     | 17 => (4392, 4466)
     | 18 => (4105, 4203)
     | _ => (4265, 4391)
     end in
   Ok (mkAcfn b lo hi 2)).

(** channel_arrangement.hpp 39-50 *)
Record center_frequency := mkCf { cf_acfn : acfn; cf_n : N; cf_F0 : Z; cf_spacing : Z; cf_FC : Z }.
(** channel_arrangement.cpp 139-170; int64_t cannot overflow for a uint32_t n *)
Definition get_center_frequency_acfn (a : acfn) (n : N) : res center_frequency :=
  assert_band (ac_band a)
  (guard ((ac_min a <=? n) && (n <=? ac_max a))
   (let '(f0, sp, off) :=
      if (1 <=? ac_band a) && (ac_band a <=? 12) then (450144000, 864000, 0)%Z
      else if (13 <=? ac_band a) && (ac_band a <=? 16) then (3000596000, 1728000, 2952)%Z
      else (5150000000, 2000000, 4104)%Z in
    Ok (mkCf a n f0 sp (f0 + (Z.of_N n - off) * sp)%Z))).
(** channel_arrangement.cpp 172-174 *)
Definition get_center_frequency (b n : N) : res center_frequency :=
  do a <- get_acfn b ; get_center_frequency_acfn a n.

(** channel_arrangement.cpp 183-191, the bands not yet looked at *)
Fixpoint in_some_band (bands : list N) (n : N) : res bool :=
  match bands with
  | [] => Ok false
  | b :: bands =>
      do a <- get_acfn b ;
      if (ac_min a <=? n) && (n <=? ac_max a) then Ok true else in_some_band bands n
  end.
(** channel_arrangement.cpp 176-192; bitmask_lsb<13>() = 8191 *)
Definition is_absolute_channel_number_in_range (n : N) : res bool :=
  if 8191 <? n then Ok false
  else in_some_band [1; 2; 3; 4; 5; 6; 7; 8; 9; 10; 11; 12; 13; 14; 15; 16; 17; 18; 19] n.
