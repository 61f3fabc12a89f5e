(** Model of the feedback info formats:
    lib/src/sections_part4/physical_header_field/feedback_info.cpp and feedback_info.hpp. *)
From Verif Require Import Base Bytes.
Open Scope N_scope.

(** common/adt/miscellaneous.hpp UNDEFINED_NUMERIC_32; feedback_info.hpp 52 *)
Definition MCS_out_of_range : N := 4294967295.

(** feedback_info.hpp 38-42 *)
Inductive tfb := NACK | ACK | tfb_not_defined.
Definition tfb_code (t : tfb) : N := match t with NACK => 0 | ACK => 1 | tfb_not_defined => 4294967295 end.
(** static_cast<transmission_feedback_t>(x), x one bit *)
Definition tfb_cast (x : N) : tfb := match x with 0 => NACK | 1 => ACK | _ => tfb_not_defined end.

(** feedback_info.hpp 44-50 *)
Inductive mimo := single_layer | dual_layer | four_layer | mimo_reserved | mimo_not_defined.
Definition mimo_code (t : mimo) : N :=
  match t with
  | single_layer => 0 | dual_layer => 1 | four_layer => 2 | mimo_reserved => 3
  | mimo_not_defined => 4294967295
  end.
(** static_cast<mimo_feedback_t>(x), x at most two bits *)
Definition mimo_cast (x : N) : mimo :=
  match x with
  | 0 => single_layer | 1 => dual_layer | 2 => four_layer | 3 => mimo_reserved | _ => mimo_not_defined
  end.

(** feedback_info.cpp 30-35. The int32_t conversion sends values from 2^31 on to negative numbers,
    which the first assert rejects. *)
Definition mcs_2_cqi (mcs : N) : res N := guard (mcs <=? 11) (Ok (mcs + 1)).

(** feedback_info.cpp 37-43 *)
Definition cqi_2_mcs (cqi : N) : N :=
  if (cqi =? 0) || (12 <? cqi) then MCS_out_of_range else cqi - 1.

(** feedback_info.cpp 45-80 *)
Definition buffer_size_2_buffer_status (b : N) : N :=
  if b =? 0 then 0
  else if (0 <? b) && (b <=? 16) then 1
  else if (16 <? b) && (b <=? 32) then 2
  else if (32 <? b) && (b <=? 64) then 3
  else if (64 <? b) && (b <=? 128) then 4
  else if (128 <? b) && (b <=? 256) then 5
  else if (256 <? b) && (b <=? 512) then 6
  else if (512 <? b) && (b <=? 1024) then 7
  else if (1024 <? b) && (b <=? 2048) then 8
  else if (2048 <? b) && (b <=? 4096) then 9
  else if (4096 <? b) && (b <=? 8192) then 10
  else if (8192 <? b) && (b <=? 16384) then 11
  else if (16384 <? b) && (b <=? 32768) then 12
  else if (32768 <? b) && (b <=? 65536) then 13
  else if (65536 <? b) && (b <=? 131072) then 14
  else 15.

(** feedback_info.hpp 56-57 *)
Definition buffer_status_2_buffer_size_lower : list N :=
  [0; 0; 16; 32; 64; 128; 256; 512; 1024; 2048; 4096; 8192; 16384; 32768; 65536; 131072].
(** feedback_info.hpp 59-75 *)
Definition buffer_status_2_buffer_size_upper : list N :=
  [0; 16; 32; 64; 128; 256; 512; 1024; 2048; 4096; 8192; 16384; 32768; 65536; 131072; 4294967295].
(** operator[] of the table with a four bit index, so always inside the 16 entries *)
Definition size_lower (status : N) : N := nth (N.to_nat status) buffer_status_2_buffer_size_lower 0.

(** feedback_info.hpp 88-93 *)
Record f1_t := mkF1 { f1_harq : N; f1_tf : tfb; f1_buf : N; f1_mcs : N }.
(** feedback_info.hpp 104-109 *)
Record f2_t := mkF2 { f2_cb : N; f2_mimo : mimo; f2_buf : N; f2_mcs : N }.
(** feedback_info.hpp 120-126 *)
Record f3_t := mkF3 { f3_harq0 : N; f3_tf0 : tfb; f3_harq1 : N; f3_tf1 : tfb; f3_mcs : N }.
(** feedback_info.hpp 137-140 *)
Record f4_t := mkF4 { f4_bitmap : N; f4_mcs : N }.
(** feedback_info.hpp 151-156 *)
Record f5_t := mkF5 { f5_harq : N; f5_tf : tfb; f5_mimo : mimo; f5_cb : N }.
(** feedback_info.hpp 167-172 *)
Record f6_t := mkF6 { f6_harq : N; f6_reserved : N; f6_buf : N; f6_mcs : N }.

Definition tfb_defined (t : tfb) : bool := match t with tfb_not_defined => false | _ => true end.
Definition mimo_defined (t : mimo) : bool := match t with mimo_not_defined => false | _ => true end.
Definition mimo_single_or_dual (t : mimo) : bool :=
  match t with single_layer => true | dual_layer => true | _ => false end.

(** feedback_info.cpp 96-114 *)
Definition f1_valid (f : f1_t) : bool :=
  (f1_harq f <=? 7) && tfb_defined (f1_tf f) &&
  (buffer_size_2_buffer_status (f1_buf f) <=? 15) && (f1_mcs f <=? 11).
(** feedback_info.cpp 143-162 *)
Definition f2_valid (f : f2_t) : bool :=
  (f2_cb f <=? 7) && mimo_single_or_dual (f2_mimo f) &&
  (buffer_size_2_buffer_status (f2_buf f) <=? 15) && (f2_mcs f <=? 11).
(** feedback_info.cpp 192-214 *)
Definition f3_valid (f : f3_t) : bool :=
  (f3_harq0 f <=? 7) && tfb_defined (f3_tf0 f) && (f3_harq1 f <=? 7) && tfb_defined (f3_tf1 f) &&
  (f3_mcs f <=? 11).
(** feedback_info.cpp 243-253 *)
Definition f4_valid (f : f4_t) : bool := (f4_bitmap f <=? 255) && (f4_mcs f <=? 11).
(** feedback_info.cpp 281-299 *)
Definition f5_valid (f : f5_t) : bool :=
  (f5_harq f <=? 7) && tfb_defined (f5_tf f) && mimo_defined (f5_mimo f) && (f5_cb f <=? 63).
(** feedback_info.cpp 328-346 *)
Definition f6_valid (f : f6_t) : bool :=
  (f6_harq f <=? 7) && (f6_reserved f =? 0) &&
  (buffer_size_2_buffer_status (f6_buf f) <=? 15) && (f6_mcs f <=? 11).

(** feedback_info.cpp 116-125; bitmask_msb<4, uint8_t>() = 0xF0 *)
Definition f1_pack (f : f1_t) (m : list N) : res (list N) :=
  guard (f1_valid f)
  (do m <- andst m 0 240 ;
   do m <- orst m 0 (N.shiftl (f1_harq f) 1) ;
   do m <- orst m 0 (tfb_code (f1_tf f)) ;
   do m <- st m 1 (N.shiftl (buffer_size_2_buffer_status (f1_buf f)) 4) ;
   do c <- mcs_2_cqi (f1_mcs f) ;
   orst m 1 c).
(** feedback_info.cpp 127-134 *)
Definition f1_unpack (m : list N) : res (f1_t * bool) :=
  do b0 <- ld m 0 ; do b1 <- ld m 1 ;
  let f := mkF1 (N.land (N.shiftr b0 1) 7) (tfb_cast (N.land b0 1))
                (size_lower (N.land (N.shiftr b1 4) 15)) (cqi_2_mcs (N.land b1 15)) in
  Ok (f, f1_valid f).

(** feedback_info.cpp 164-173 *)
Definition f2_pack (f : f2_t) (m : list N) : res (list N) :=
  guard (f2_valid f)
  (do m <- andst m 0 240 ;
   do m <- orst m 0 (N.shiftl (f2_cb f) 1) ;
   do m <- orst m 0 (mimo_code (f2_mimo f)) ;
   do m <- st m 1 (N.shiftl (buffer_size_2_buffer_status (f2_buf f)) 4) ;
   do c <- mcs_2_cqi (f2_mcs f) ;
   orst m 1 c).
(** feedback_info.cpp 175-182 *)
Definition f2_unpack (m : list N) : res (f2_t * bool) :=
  do b0 <- ld m 0 ; do b1 <- ld m 1 ;
  let f := mkF2 (N.land (N.shiftr b0 1) 7) (mimo_cast (N.land b0 1))
                (size_lower (N.land (N.shiftr b1 4) 15)) (cqi_2_mcs (N.land b1 15)) in
  Ok (f, f2_valid f).

(** feedback_info.cpp 216-226 *)
Definition f3_pack (f : f3_t) (m : list N) : res (list N) :=
  guard (f3_valid f)
  (do m <- andst m 0 240 ;
   do m <- orst m 0 (N.shiftl (f3_harq0 f) 1) ;
   do m <- orst m 0 (tfb_code (f3_tf0 f)) ;
   do m <- st m 1 (N.shiftl (f3_harq1 f) 5) ;
   do m <- orst m 1 (N.shiftl (tfb_code (f3_tf1 f)) 4) ;
   do c <- mcs_2_cqi (f3_mcs f) ;
   orst m 1 c).
(** feedback_info.cpp 228-236 *)
Definition f3_unpack (m : list N) : res (f3_t * bool) :=
  do b0 <- ld m 0 ; do b1 <- ld m 1 ;
  let f := mkF3 (N.land (N.shiftr b0 1) 7) (tfb_cast (N.land b0 1))
                (N.land (N.shiftr b1 5) 7) (tfb_cast (N.land (N.shiftr b1 4) 1))
                (cqi_2_mcs (N.land b1 15)) in
  Ok (f, f3_valid f).

(** feedback_info.cpp 255-263 *)
Definition f4_pack (f : f4_t) (m : list N) : res (list N) :=
  guard (f4_valid f)
  (do m <- andst m 0 240 ;
   do m <- orst m 0 (N.shiftr (f4_bitmap f) 4) ;
   do m <- st m 1 (N.shiftl (N.land (f4_bitmap f) 15) 4) ;
   do c <- mcs_2_cqi (f4_mcs f) ;
   orst m 1 c).
(** feedback_info.cpp 265-272 *)
Definition f4_unpack (m : list N) : res (f4_t * bool) :=
  do b0 <- ld m 0 ; do b1 <- ld m 1 ;
  let f := mkF4 (N.lor (N.shiftl (N.land b0 15) 4) (N.land (N.shiftr b1 4) 15))
                (cqi_2_mcs (N.land b1 15)) in
  Ok (f, f4_valid f).

(** feedback_info.cpp 301-310 *)
Definition f5_pack (f : f5_t) (m : list N) : res (list N) :=
  guard (f5_valid f)
  (do m <- andst m 0 240 ;
   do m <- orst m 0 (N.shiftl (f5_harq f) 1) ;
   do m <- orst m 0 (tfb_code (f5_tf f)) ;
   do m <- st m 1 (N.shiftl (mimo_code (f5_mimo f)) 6) ;
   orst m 1 (f5_cb f)).
(** feedback_info.cpp 312-319 *)
Definition f5_unpack (m : list N) : res (f5_t * bool) :=
  do b0 <- ld m 0 ; do b1 <- ld m 1 ;
  let f := mkF5 (N.land (N.shiftr b0 1) 7) (tfb_cast (N.land b0 1))
                (mimo_cast (N.land (N.shiftr b1 6) 3)) (N.land b1 63) in
  Ok (f, f5_valid f).

(** feedback_info.cpp 348-357 *)
Definition f6_pack (f : f6_t) (m : list N) : res (list N) :=
  guard (f6_valid f)
  (do m <- andst m 0 240 ;
   do m <- orst m 0 (N.shiftl (f6_harq f) 1) ;
   do m <- orst m 0 (f6_reserved f) ;
   do m <- st m 1 (N.shiftl (buffer_size_2_buffer_status (f6_buf f)) 4) ;
   do c <- mcs_2_cqi (f6_mcs f) ;
   orst m 1 c).
(** feedback_info.cpp 359-366 *)
Definition f6_unpack (m : list N) : res (f6_t * bool) :=
  do b0 <- ld m 0 ; do b1 <- ld m 1 ;
  let f := mkF6 (N.land (N.shiftr b0 1) 7) (N.land b0 1)
                (size_lower (N.land (N.shiftr b1 4) 15)) (cqi_2_mcs (N.land b1 15)) in
  Ok (f, f6_valid f).

(** feedback_info.hpp 183-194 *)
Record pool := mkPool { pf1 : f1_t; pf2 : f2_t; pf3 : f3_t; pf4 : f4_t; pf5 : f5_t; pf6 : f6_t }.
Definition set_f1 (p : pool) (f : f1_t) : pool := mkPool f (pf2 p) (pf3 p) (pf4 p) (pf5 p) (pf6 p).
Definition set_f2 (p : pool) (f : f2_t) : pool := mkPool (pf1 p) f (pf3 p) (pf4 p) (pf5 p) (pf6 p).
Definition set_f3 (p : pool) (f : f3_t) : pool := mkPool (pf1 p) (pf2 p) f (pf4 p) (pf5 p) (pf6 p).
Definition set_f4 (p : pool) (f : f4_t) : pool := mkPool (pf1 p) (pf2 p) (pf3 p) f (pf5 p) (pf6 p).
Definition set_f5 (p : pool) (f : f5_t) : pool := mkPool (pf1 p) (pf2 p) (pf3 p) (pf4 p) f (pf6 p).
Definition set_f6 (p : pool) (f : f6_t) : pool := mkPool (pf1 p) (pf2 p) (pf3 p) (pf4 p) (pf5 p) f.

(** feedback_info.cpp 368-396 *)
Definition pool_pack (p : pool) (fmt : N) (m : list N) : res (list N) :=
  match fmt with
  | 0 => do m <- andst m 0 240 ; st m 1 0
  | 1 => f1_pack (pf1 p) m
  | 2 => f2_pack (pf2 p) m
  | 3 => f3_pack (pf3 p) m
  | 4 => f4_pack (pf4 p) m
  | 5 => f5_pack (pf5 p) m
  | 6 => f6_pack (pf6 p) m
  | _ => Abort
  end.

(** feedback_info.cpp 398-425: the struct of the given format is overwritten, the others are not. *)
Definition pool_unpack (p : pool) (fmt : N) (m : list N) : res (pool * bool) :=
  match fmt with
  | 0 => do b0 <- ld m 0 ;
         if negb (N.land b0 15 =? 0) then Ok (p, false)
         else do b1 <- ld m 1 ;
              if negb (b1 =? 0) then Ok (p, false) else Ok (p, true)
  | 1 => do r <- f1_unpack m ; Ok (set_f1 p (fst r), snd r)
  | 2 => do r <- f2_unpack m ; Ok (set_f2 p (fst r), snd r)
  | 3 => do r <- f3_unpack m ; Ok (set_f3 p (fst r), snd r)
  | 4 => do r <- f4_unpack m ; Ok (set_f4 p (fst r), snd r)
  | 5 => do r <- f5_unpack m ; Ok (set_f5 p (fst r), snd r)
  | 6 => do r <- f6_unpack m ; Ok (set_f6 p (fst r), snd r)
  | _ => Ok (p, false)
  end.
