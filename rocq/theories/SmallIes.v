(** Models of lib/src/sections_part4/mac_messages_and_ie/: padding_ie.cpp, user_plane_data.cpp, the flowing part of
    mmie.cpp, extension/power_target_ie.cpp, extension/time_announce_ie.cpp and fill_with_padding_ies of mmie_pool_tx.cpp. *)
From Verif Require Import Base Bytes MacHeader Mux IeBase IntHelpers.
Open Scope N_scope.

(** *** extension/power_target_ie.{cpp,hpp}: the member power_target_dBm_coded. The setter rounds a float and is not
    modelled. *)
(** power_target_ie.cpp 40-42 *)
Definition pt_valid (v : N) : bool := (45 <=? v) && (v <=? 60).
(** power_target_ie.cpp 44 *)
Definition pt_size : nat := 1.
(** power_target_ie.cpp 46-49 *)
Definition pt_pack (v : N) (m : list N) : res (list N) := guard (pt_valid v) (st m 0 v).
(** power_target_ie.cpp 51-55 *)
Definition pt_unpack (m : list N) : res (N * bool) := do b <- ld m 0 ; Ok (b, pt_valid b).
(** power_target_ie.cpp 28-31 *)
Definition pt_mmh : mmh := mkMmh 0 29 UNDEF32 None.

(** *** extension/time_announce_ie.{cpp,hpp} *)
(** time_announce_ie.hpp 50-59; full_sec is int64_t *)
Record time_announce := mkTa { ta_type : N; ta_frames : N; ta_sec : Z; ta_tai : N }.
(** time_announce_ie.cpp 40-48; N_frames_until_full_sec_ is an int32_t stored in a uint32_t *)
Definition ta_set_time (type : N) (frames sec : Z) : time_announce :=
  mkTa type (Z.to_N (frames mod 2 ^ 32)) sec 0.
(** time_announce_ie.cpp 57-75; time_type_t has the values 0, 1, 2 *)
Definition ta_valid (t : time_announce) : bool :=
  enum_valid 3 (ta_type t) && negb (255 <? ta_frames t) && negb (ta_sec t <? 0)%Z && negb (255 <? ta_tai t).
(** time_announce_ie.cpp 77 *)
Definition ta_size : nat := 11.
(** time_announce_ie.cpp 79-86 *)
Definition ta_pack (t : time_announce) (m : list N) : res (list N) :=
  guard (ta_valid t)
  (do m <- st m 0 (ta_type t) ;
   do m <- st m 1 (ta_frames t) ;
   do m <- l2b_lower m 2 8 (Z.to_N (ta_sec t mod 2 ^ 64)) 8 ;
   st m 10 (ta_tai t)).
(** conversion of a uint64_t to int64_t *)
Definition to_i64 (v : N) : Z := if v <? 2 ^ 63 then Z.of_N v else (Z.of_N v - 2 ^ 64)%Z.
(** time_announce_ie.cpp 88-97 *)
Definition ta_unpack (m : list N) : res (time_announce * bool) :=
  do b0 <- ld m 0 ;
  do b1 <- ld m 1 ;
  do s <- b2l_lower m 2 8 8 ;
  do b10 <- ld m 10 ;
  let t := mkTa (from_coded 3 b0) b1 (to_i64 s) b10 in
  Ok (t, ta_valid t).
(** time_announce_ie.cpp 30-33 *)
Definition ta_mmh : mmh := mkMmh 0 30 UNDEF32 None.

(** *** user_plane_data.{cpp,hpp} and mmie_flowing_t: only the multiplexing header is stored *)
(** user_plane_data.cpp 34-57 *)
Definition set_flow_id (h : mmh) (flow : N) : res mmh :=
  match flow with
  | 1 => Ok (mkMmh (mx_ext h) 3 (mx_len h) (mx_tinfo h))
  | 2 => Ok (mkMmh (mx_ext h) 4 (mx_len h) (mx_tinfo h))
  | 3 => Ok (mkMmh (mx_ext h) 5 (mx_len h) (mx_tinfo h))
  | 4 => Ok (mkMmh (mx_ext h) 6 (mx_len h) (mx_tinfo h))
  | _ => Abort
  end.
(** user_plane_data.cpp 59-78 *)
Definition get_flow_id (h : mmh) : N :=
  match mx_ie h with 3 => 1 | 4 => 2 | 5 => 3 | 6 => 4 | _ => UNDEF32 end.
(** mmie.cpp 78-88 *)
Definition set_data_size (h : mmh) (n : N) : res mmh :=
  guard ((0 <? n) && (n <=? 65535))
  (Ok (mkMmh (if n <=? 255 then 1 else 2) (mx_ie h) n (mx_tinfo h))).
(** mmie.cpp 69-71 = padding_ie.cpp 67-69 *)
Definition flowing_size (h : mmh) : res N := do s <- mmh_size h ; Ok (N.of_nat s + mx_len h).
(** mmie.cpp 73-76: writes the header, returns the position of the data behind it *)
Definition flowing_pack (h : mmh) (m : list N) (off : nat) : res (list N * nat) :=
  do m <- at_off off (mmh_pack h) m ;
  do s <- mmh_size h ;
  Ok (m, (off + s)%nat).

(** *** padding_ie.{cpp,hpp} *)
(** padding_ie.hpp 47 *)
Definition N_PADDING_BYTES_MAX : N := 257.
(** padding_ie.cpp 31-63 *)
Definition set_nof_padding_bytes (h : mmh) (n : N) : res mmh :=
  guard ((1 <=? n) && (n <=? N_PADDING_BYTES_MAX))
  (match n with
   | 1 => Ok (mkMmh 3 0 0 (mx_tinfo h))
   | 2 => Ok (mkMmh 3 0 1 (mx_tinfo h))
   | _ => let h := mkMmh 1 0 (mx_len h) (mx_tinfo h) in
          do s <- mmh_size h ; Ok (mkMmh 1 0 (n - N.of_nat s) (mx_tinfo h))
   end).
(** padding_ie.cpp 71-76 *)
Definition padding_pack (h : mmh) (m : list N) : res (list N) :=
  do m <- mmh_pack h m ;
  do s <- mmh_size h ;
  cp m s (repeat 0 (N.to_nat (mx_len h))).
(** mmie_pool_tx.cpp 90-106; [fuel] bounds the loop, C23 shows that n rounds are enough *)
Fixpoint fill_loop (fuel : nat) (h : mmh) (m : list N) (off : nat) (n : N) : res (list N) :=
  match fuel with
  | O => if n =? 0 then Ok m else Oob
  | S f =>
    if n =? 0 then Ok m else
    let k := if N_PADDING_BYTES_MAX <? n then N_PADDING_BYTES_MAX else n in
    do h <- set_nof_padding_bytes h k ;
    do m <- at_off off (padding_pack h) m ;
    fill_loop f h m (off + N.to_nat k)%nat (n - k)
  end.
Definition fill_with_padding_ies (m : list N) (off : nat) (n : N) : res (list N) :=
  fill_loop (N.to_nat n) mmh_zero m off n.
