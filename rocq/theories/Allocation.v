(** Model of lib/src/mac/allocation/{resource,allocation_pt,allocation_ft}.cpp and of the resource plan of the p2p
    firmware. Sample counts of durations are uint32_t ([N], wrapping), times are int64_t ([Z], overflow is [Oob]). *)
From Verif Require Import Base IntHelpers Duration.

(** resource.hpp 39-40 *)
Record resource := mkRes { rs_offset : duration; rs_length : duration }.
Definition u32 (x : N) : N := (x mod 2 ^ 32)%N.
(** resource.cpp 33 *)
Definition get_first_sample_index (r : resource) : N := du_N (rs_offset r).
(** resource.cpp 35-37; minus one modulo 2^32 *)
Definition get_last_sample_index (r : resource) : N := u32 (du_N (rs_offset r) + du_N (rs_length r) + (2 ^ 32 - 1)).
(** resource.cpp 39-41 *)
Definition is_positive_length (r : resource) (n : N) : bool := (n <=? du_N (rs_length r))%N.
(** resource.cpp 43 *)
Definition is_causal (r : resource) : bool := (get_first_sample_index r <=? get_last_sample_index r)%N.
(** resource.cpp 45 *)
Definition is_well_defined (r : resource) : bool := is_positive_length r 1 && is_causal r.
(** resource.cpp 27-31 *)
Definition resource_new (offset length : duration) : res resource :=
  let r := mkRes offset length in guard (is_well_defined r) (Ok r).
(** resource.cpp 47-50 *)
Definition is_touching_earlier (r other : resource) : res bool :=
  guard (is_well_defined other) (Ok (u32 (get_last_sample_index other + 1) =? get_first_sample_index r)%N).
(** resource.cpp 52-55 *)
Definition is_touching_later (r other : resource) : res bool :=
  guard (is_well_defined other) (Ok (u32 (get_last_sample_index r + 1) =? get_first_sample_index other)%N).
(** resource.cpp 57-60 *)
Definition is_orthogonal_earlier (r other : resource) : res bool :=
  guard (is_well_defined other) (Ok (get_last_sample_index other <? get_first_sample_index r)%N).
(** resource.cpp 62-65 *)
Definition is_orthogonal_later (r other : resource) : res bool :=
  guard (is_well_defined other) (Ok (get_last_sample_index r <? get_first_sample_index other)%N).
(** resource.cpp 67-70 *)
Definition is_orthogonal (r other : resource) : res bool :=
  guard (is_well_defined other)
  (do a <- is_orthogonal_earlier r other ; if a then Ok true else is_orthogonal_later r other).

(** direction.hpp *)
Inductive direction := ul | dl | both.
(** tx_opportunity.hpp 27-39 *)
Record tx_opportunity := mkOpp { op_time : Z; op_N : Z }.
Definition no_opportunity : tx_opportunity := mkOpp (-1) (-1).
(** tx_opportunity.hpp 35 *)
Definition get_end (o : tx_opportunity) : res Z := sgn 64 (op_time o + op_N o).

(** miscellaneous.hpp 71: int64 minimum / 8 *)
Definition UNDEFINED_EARLY_64 : Z := - 2 ^ 60.

(** allocation.hpp 45-48, allocation_pt.hpp 85-97; duration_lut is only read by add_resource_regular *)
Record allocation_pt := mkPt {
  pa_lut : duration_lut;
  pa_period : duration;
  pa_after_beacon : duration;
  pa_after_now : duration;
  pa_turnaround : Z;
  pa_beacon : Z;
  pa_ul : list resource;
  pa_dl : list resource }.
(** allocation_pt.cpp 32-44 *)
Definition allocation_pt_new (lut : duration_lut) (period after_beacon after_now : duration) (turnaround : Z) : allocation_pt :=
  mkPt lut period after_beacon after_now turnaround UNDEFINED_EARLY_64 [] [].
(** allocation_pt.hpp 47-49 *)
Definition set_beacon_time_last_known (a : allocation_pt) (t : Z) : allocation_pt :=
  mkPt (pa_lut a) (pa_period a) (pa_after_beacon a) (pa_after_now a) (pa_turnaround a) t (pa_ul a) (pa_dl a).
Definition with_ul (a : allocation_pt) (l : list resource) : allocation_pt :=
  mkPt (pa_lut a) (pa_period a) (pa_after_beacon a) (pa_after_now a) (pa_turnaround a) (pa_beacon a) l (pa_dl a).
Definition with_dl (a : allocation_pt) (l : list resource) : allocation_pt :=
  mkPt (pa_lut a) (pa_period a) (pa_after_beacon a) (pa_after_now a) (pa_turnaround a) (pa_beacon a) (pa_ul a) l.

(** allocation_pt.cpp 88-90 *)
Definition is_within_beacon_period (a : allocation_pt) (r : resource) : bool := (get_last_sample_index r <? du_N (pa_period a))%N.
(** allocation_pt.cpp 92-95: std::all_of stops at the first false *)
Fixpoint vec_orthogonal (ref : list resource) (other : resource) : res bool :=
  match ref with
  | [] => Ok true
  | e :: t => do b <- is_orthogonal e other ; if b then vec_orthogonal t other else Ok false
  end.
(** allocation_pt.cpp 97-121 *)
Definition pt_orthogonal (a : allocation_pt) (d : direction) (other : resource) : res bool :=
  match d with
  | ul => if (length (pa_ul a) =? 0)%nat then Ok true else vec_orthogonal (pa_ul a) other
  | dl => if (length (pa_dl a) =? 0)%nat then Ok true else vec_orthogonal (pa_dl a) other
  | both => Abort
  end.
(** allocation_pt.cpp 123-132 *)
Fixpoint pt_orthogonal_all (a : allocation_pt) (d : direction) (others : list resource) : res bool :=
  match others with
  | [] => Ok true
  | e :: t => do b <- pt_orthogonal a d e ; if b then pt_orthogonal_all a d t else Ok false
  end.
(** allocation_pt.cpp 46-73; limits.hpp: max_nof_ul_resources_per_pt = max_nof_dl_resources_per_pt = 8 *)
Definition add_resource (a : allocation_pt) (d : direction) (offset length_ : duration) : res allocation_pt :=
  do r <- resource_new offset length_ ;
  guard (is_within_beacon_period a r)
  (do o <- pt_orthogonal a d r ;
   guard o
   match d with
   | ul => let l := pa_ul a ++ [r] in guard (length l <=? 8)%nat (Ok (with_ul a l))
   | dl => let l := pa_dl a ++ [r] in guard (length l <=? 8)%nat (Ok (with_dl a l))
   | both => Abort
   end).
(** allocation_pt.cpp 75-86; the loop body for i, i+1, ... *)
Fixpoint add_from (a : allocation_pt) (d : direction) (offset length_ stride : N) (ec : duration_ec) (i : N) (n : nat) : res allocation_pt :=
  match n with
  | O => Ok a
  | S n =>
      do o <- duration_new (lut_rate (pa_lut a)) ec (u32 (offset + u32 (stride * i))) ;
      do l <- duration_new (lut_rate (pa_lut a)) ec length_ ;
      do a <- add_resource a d o l ;
      add_from a d offset length_ stride ec (i + 1) n
  end.
Definition add_resource_regular (a : allocation_pt) (d : direction) (offset length_ stride n : N) (ec : duration_ec) : res allocation_pt :=
  add_from a d offset length_ stride ec 0 (N.to_nat n).

(** allocation_pt.cpp 291-315: the search loop; base A, remaining resources of this period. [fuel] bounds the number
    of iterations; running out of it is the outcome [Oob]. *)
Fixpoint search (fuel : nat) (P earliest latest : Z) (rvec todo : list resource) (A : Z) : res tx_opportunity :=
  match fuel with
  | O => Oob
  | S fuel =>
      match todo with
      | [] => Throw
      | r :: todo =>
          do D <- sgn 64 (A + Z.of_N (du_N (rs_offset r))) ;
          if (earliest <=? D)%Z && (D <? latest)%Z then Ok (mkOpp D (Z.of_N (du_N (rs_length r))))
          else if (latest <=? D)%Z then Ok no_opportunity
          else match todo with
               | [] => do A <- sgn 64 (A + P) ; search fuel P earliest latest rvec rvec A
               | _ :: _ => search fuel P earliest latest rvec todo A
               end
      end
  end.
(** Enough iterations: each period before [latest] once, plus two. *)
Definition search_fuel (P latest A : Z) (rvec : list resource) : nat :=
  (Z.to_nat (Z.max 0 (Z.quot (latest - A) P) + 2) * length rvec)%nat.
(** allocation_pt.cpp 233-321 *)
Definition get_tx_opportunity_generic (a : allocation_pt) (earliest latest : Z) (rvec : list resource) : res tx_opportunity :=
  if (length rvec =? 0)%nat then Ok no_opportunity
  else if (latest <? earliest)%Z then Ok no_opportunity
  else
    do A <- (if (pa_beacon a <? earliest)%Z then
               do B <- sgn 64 (earliest - pa_beacon a) ;
               do C <- multiple_leq 64 B (Z.of_N (du_N (pa_period a))) ;
               do A <- sgn 64 (pa_beacon a + C) ;
               guard (A <=? earliest)%Z (Ok A)
             else Ok (pa_beacon a)) ;
    search (search_fuel (Z.of_N (du_N (pa_period a))) latest A rvec) (Z.of_N (du_N (pa_period a))) earliest latest rvec rvec A.
(** allocation_pt.cpp 134-173 *)
Definition get_tx_opportunity (a : allocation_pt) (d : direction) (now tx_earliest : Z) : res tx_opportunity :=
  do t <- sgn 64 (now + pa_turnaround a) ;
  let earliest := Z.max t tx_earliest in
  match d with
  | ul =>
      guard (pa_beacon a <=? now)%Z
      (do x <- sgn 64 (pa_beacon a + Z.of_N (du_N (pa_after_beacon a))) ;
       do y <- sgn 64 (now + Z.of_N (du_N (pa_after_now a))) ;
       get_tx_opportunity_generic a earliest (Z.min x y) (pa_ul a))
  | dl =>
      do x <- sgn 64 (pa_beacon a + Z.of_N (du_N (pa_period a))) ;
      get_tx_opportunity_generic a earliest x (pa_dl a)
  | both => Abort
  end.

(** allocation_pt.cpp 188-194; std::abs of the most negative value is undefined *)
Fixpoint closest_from (a : allocation_pt) (ref : Z) (l : list resource) (ret : Z) : res Z :=
  match l with
  | [] => Ok ret
  | r :: l =>
      do x <- sgn 64 (pa_beacon a + Z.of_N (du_N (rs_offset r))) ;
      do A <- sgn 64 (ref - x) ;
      do p <- sgn 64 (Z.abs A) ;
      do q <- sgn 64 (Z.abs ret) ;
      closest_from a ref l (if (p <? q)%Z then A else ret)
  end.
(** allocation_pt.cpp 175-197 *)
Definition get_tx_opportunity_ul_time_closest (a : allocation_pt) (ref : Z) : res Z :=
  if (pa_beacon a =? UNDEFINED_EARLY_64)%Z then Ok UNDEFINED_EARLY_64
  else
    do x <- sgn 64 (pa_beacon a + Z.of_N (du_N (pa_period a))) ;
    guard ((pa_beacon a <? ref)%Z && (ref <? x)%Z)
    (closest_from a ref (pa_ul a) UNDEFINED_EARLY_64).

(** allocation_ft.hpp 65-77; beacon_cnt is uint64_t *)
Record allocation_ft := mkFt {
  fa_period : duration; fa_prepare : duration;
  fa_transmitted : Z; fa_scheduled : Z; fa_cnt : N; fa_per_second : N }.
(** allocation_ft.cpp 27-34: both times start at the int64 maximum *)
Definition allocation_ft_new (lut : duration_lut) (period prepare : duration) : res allocation_ft :=
  do n <- get_N_duration_in_second lut period ;
  Ok (mkFt period prepare (2 ^ 63 - 1) (2 ^ 63 - 1) 0 n).
(** allocation_ft.hpp 43-45 *)
Definition get_beacon_time_scheduled_minus_prepare_duration (a : allocation_ft) : res Z :=
  sgn 64 (fa_scheduled a - Z.of_N (du_N (fa_prepare a))).
(** allocation_ft.hpp 48-50 *)
Definition set_beacon_time_scheduled (a : allocation_ft) (t : Z) : allocation_ft :=
  mkFt (fa_period a) (fa_prepare a) (fa_transmitted a) t (fa_cnt a) (fa_per_second a).
(** allocation_ft.hpp 55-60 *)
Definition set_beacon_time_next (a : allocation_ft) : res allocation_ft :=
  do t <- sgn 64 (fa_scheduled a + Z.of_N (du_N (fa_period a))) ;
  Ok (mkFt (fa_period a) (fa_prepare a) (fa_scheduled a) t ((fa_cnt a + 1) mod 2 ^ 64) (fa_per_second a)).

(** lib/src/upper/p2p/procedure/steady_rd.cpp 208-262 (gap = 0). The number of PTs (rd.hpp 80-86: 1 or 2) and of
    resources per PT (steady_rd.cpp 236-240: 4 or 2) are parameters here. *)
Definition init_allocation_pt (lut : duration_lut) (period : duration) (turnaround : Z) (N_pt N_resources firmware_id : N) : res allocation_pt :=
  do v <- duration_new (lut_rate lut) ms001 16 ;
  do w <- duration_new (lut_rate lut) ms001 11 ;
  let a := allocation_pt_new lut period v w turnaround in
  if (N_pt <=? firmware_id)%N then Ok a
  else
    let stride := u32 (4 * N_pt) in
    let offset := u32 (2 + u32 (firmware_id * 4)) in
    do a <- add_resource_regular a ul offset 2 stride N_resources slot001 ;
    add_resource_regular a dl (u32 (offset + 2)) 2 stride N_resources slot001.
