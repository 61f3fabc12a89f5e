(** The channel plan: first and last channel of each band (Table 5.4.2-1 as used by the code) and the
    three rasters. Frequencies in Hz. *)
From Verif Require Import Base.
Open Scope N_scope.
Definition plan : list (N * N * N) :=
  [(1, 1657, 1677); (2, 1680, 1700); (3, 2258, 2352); (4, 524, 552); (5, 1, 22); (6, 288, 411); (7, 309, 321);
   (8, 1137, 1234); (9, 1691, 1711); (10, 1806, 1822); (11, 2142, 2256); (12, 2374, 2511); (13, 3126, 3183);
   (14, 3184, 3298); (15, 3299, 3356); (16, 3994, 4103); (17, 4392, 4466); (18, 4105, 4203); (19, 4265, 4391)].
(** Channel [n] belongs to band [b]. *)
Definition in_band (b n : N) : Prop := exists lo hi, In (b, lo, hi) plan /\ lo <= n <= hi.
(** Distance of neighbouring channels of a band. *)
Definition raster (b : N) : Z := if b <=? 12 then 864000%Z else if b <=? 16 then 1728000%Z else 2000000%Z.
