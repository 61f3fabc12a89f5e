(** Models of lib/src/sections_part4/mac_messages_and_ie/{resource_allocation_ie,random_access_resource_ie}.cpp. *)
From Verif Require Import Base Bytes MacHeader Channels IeBase Beacons.
Open Scope N_scope.

(** std::optional::value() *)
Definition value {A} (o : option A) : res A := match o with Some x => Ok x | None => Throw end.

(** resource_allocation_ie.hpp 58-69 *)
Record allocation := mkAl { al_start : N; al_in_slots : bool; al_length : N }.
Record repeat_info := mkRp { rp_in_subslots : bool; rp_specific : bool; rp_repetition : N; rp_validity : N }.
(** resource_allocation_ie.hpp 73-80 *)
Record resource_allocation := mkRa {
  ra_dl : option allocation;
  ra_ul : option allocation;
  ra_additional : bool;
  ra_short_rd_id : option N;
  ra_repeat : option repeat_info;
  ra_sfn_offset : option N;
  ra_channel : option N;
  ra_failure : option N }.

(** resource_allocation_ie.cpp 42-78: zero() *)
Definition ra_zero : resource_allocation := mkRa None None false None None None None None.

(** resource_allocation_ie.cpp 87-90, random_access_resource_ie.cpp 92-93 *)
Definition al_valid (mu : N) (a : allocation) : bool :=
  (al_start a <=? (if mu <=? 4 then 255 else 65535)) && (al_length a <=? 127).
(** resource_allocation_ie.cpp 111-113, random_access_resource_ie.cpp 68-70 *)
Definition rp_valid (r : repeat_info) : bool :=
  negb ((255 <? rp_repetition r) || (rp_repetition r =? 0) || (255 <? rp_validity r)).
(** resource_allocation_ie.cpp 80-135: value() is called before has_value() is looked at *)
Definition ra_valid (mu : N) (c : resource_allocation) : res bool :=
  if negb (is_some (ra_dl c)) && negb (is_some (ra_ul c)) then Ok true
  else
    do d <- value (ra_dl c) ;
    if negb (al_valid mu d) then Ok false else
    do u <- value (ra_ul c) ;
    if negb (al_valid mu u) then Ok false else
    if negb (opt_all (fun s => s <=? 65535) (ra_short_rd_id c)) then Ok false else
    do r <- value (ra_repeat c) ;
    if negb (rp_valid r) then Ok false else
    Ok (opt_all (fun s => s <=? 255) (ra_sfn_offset c) && opt_all channel_in_range (ra_channel c) &&
        opt_all (enum_valid_lower 1 12) (ra_failure c)).

(** resource_allocation_ie.cpp 137-162 *)
Definition ra_size (mu : N) (c : resource_allocation) : res nat :=
  do v <- ra_valid mu c ;
  guard v
  (if negb (is_some (ra_dl c)) && negb (is_some (ra_ul c)) then Ok 1%nat
   else Ok ((if (mu <=? 4)%N then 4 else 5) +
            (if is_some (ra_dl c) && is_some (ra_ul c) then (if (mu <=? 4)%N then 2 else 3) else 0) +
            opt_size (ra_short_rd_id c) 2 + opt_size (ra_repeat c) 2 + opt_size (ra_sfn_offset c) 1 +
            opt_size (ra_channel c) 2 + opt_size (ra_failure c) 1)%nat).

(** resource_allocation_ie.cpp 395-454; None: peek_errc::NONRESERVED_FIELD_SET_TO_RESERVED *)
Definition ra_peek (mu : N) (m : list N) : res (option nat) :=
  do b0 <- ld m 0 ;
  if N.shiftr b0 6 =? 0 then Ok (Some 1%nat)
  else
    let n := if N.shiftr b0 6 =? 3 then (if mu <=? 4 then 6%nat else 8%nat) else (if mu <=? 4 then 4%nat else 5%nat) in
    let n := (n + (if flag b0 4 then 2 else 0))%nat in
    let code := N.land (N.shiftr b0 1) 7 in
    if 4 <? code then Ok None
    else
      let n := (n + (if (code =? 0)%N then 0 else 2))%nat in
      do b1 <- ld m 1 ;
      Ok (Some (n + N.to_nat (N.land b0 1) + N.to_nat (N.shiftr b1 7) * 2 + N.to_nat (N.land (N.shiftr b1 6) 1))%nat).

(** resource_allocation_ie.cpp 215-223: the lambda pack_resource_allocation *)
Definition wr_allocation (mu : N) (a : allocation) (m : list N) (off : nat) : res (list N) :=
  do m <- l2b_lower m off 4 (al_start a) (fo_size mu) ;
  do m <- st m (off + fo_size mu) (N.shiftl (N.b2n (al_in_slots a)) 7) ;
  orst m (off + fo_size mu) (al_length a).
(** resource_allocation_ie.cpp 272-279: the lambda unpack_resource_allocation *)
Definition rd_allocation (mu : N) (m : list N) (off : nat) : res allocation :=
  do s <- b2l_lower m off 4 (fo_size mu) ;
  do b <- ld m (off + fo_size mu) ;
  Ok (mkAl s (negb (N.shiftr b 7 =? 0)) (N.land b 127)).
(** resource_allocation_ie.cpp 244-246, random_access_resource_ie.cpp 161-163 *)
Definition wr_repeat (r : repeat_info) (m : list N) (off : nat) : res (list N) :=
  do m <- st m off (rp_repetition r) ; st m (off + 1) (rp_validity r).
Definition rd_two (m : list N) (off : nat) : res (N * N) :=
  do a <- ld m off ; do b <- ld m (off + 1) ; Ok (a, b).
(** resource_allocation_ie.cpp 184-206 *)
Definition repeat_code (r : repeat_info) : N :=
  match rp_in_subslots r, rp_specific r with
  | false, false => 1 | true, false => 2 | false, true => 3 | true, true => 4
  end.

(** resource_allocation_ie.cpp 164-266 *)
Definition ra_pack (mu : N) (c : resource_allocation) (m : list N) : res (list N) :=
  do v <- ra_valid mu c ;
  guard v
  (do m <- st m 0 (N.shiftl (N.b2n (is_some (ra_ul c))) 7) ;
   do m <- orst m 0 (N.shiftl (N.b2n (is_some (ra_dl c))) 6) ;
   do b0 <- ld m 0 ;
   if b0 =? 0 then
     do p <- ra_peek mu m ;
     guard (match p with Some n => (n =? 1)%nat | None => false end) (Ok m)
   else
     do m <- orst m 0 (N.shiftl (N.b2n (ra_additional c)) 5) ;
     do m <- orst m 0 (N.shiftl (N.b2n (is_some (ra_short_rd_id c))) 4) ;
     do r <- value (ra_repeat c) ;
     do m <- orst m 0 (N.shiftl (repeat_code r) 1) ;
     do m <- orst m 0 (N.b2n (is_some (ra_sfn_offset c))) ;
     do m <- st m 1 (N.shiftl (N.b2n (is_some (ra_channel c))) 7) ;
     do m <- orst m 1 (N.shiftl (N.b2n (is_some (ra_failure c))) 6) ;
     do s <- put (ra_dl c) (wr_allocation mu) (fo_size mu + 1) (m, 2%nat) ;
     do s <- put (ra_ul c) (wr_allocation mu) (fo_size mu + 1) s ;
     do s <- put (ra_short_rd_id c) (wr_num 2) 2 s ;
     do s <- put (ra_repeat c) wr_repeat 2 s ;
     do s <- put (ra_sfn_offset c) wr_byte 1 s ;
     do s <- put (ra_channel c) wr_channel 2 s ;
     do s <- put (ra_failure c) wr_byte 1 s ;
     do p <- ra_peek mu (fst s) ;
     guard (match p with Some n => (n =? snd s)%nat | None => false end) (Ok (fst s))).

(** resource_allocation_ie.cpp 268-393. In the case of a reserved Repeat field the fields read so far stay set
    and false is returned. *)
Definition ra_unpack (mu : N) (m : list N) : res (resource_allocation * bool) :=
  do b0 <- ld m 0 ;
  if N.shiftr b0 6 =? 0 then Ok (ra_zero, true)
  else
    do (dl, off) <- get (flag b0 6) (rd_allocation mu) (fo_size mu + 1) m 2 ;
    do (ul, off) <- get (flag b0 7) (rd_allocation mu) (fo_size mu + 1) m off ;
    do (srd, off) <- get (flag b0 4) (rd_num 2) 2 m off ;
    let code := N.land (N.shiftr b0 1) 7 in
    if 4 <? code then Ok (mkRa dl ul (flag b0 5) srd None None None None, false)
    else
      do (two, off) <- get (negb (code =? 0)) rd_two 2 m off ;
      let rep := option_map (fun x => mkRp ((code =? 2) || (code =? 4)) ((code =? 3) || (code =? 4)) (fst x) (snd x)) two in
      do (sfn, off) <- get (flag b0 0) (fun m i => ld m i) 1 m off ;
      do b1 <- ld m 1 ;
      do (ch, off) <- get (flag b1 7) (fun m i => do hi <- ld m i ; do lo <- ld m (i + 1) ; Ok (N.land (N.lor (N.shiftl hi 8) lo) 8191)) 2 m off ;
      do (fl, off) <- get (flag b1 6) (fun m i => do v <- rd_low4 m i ; Ok (from_coded_lower 1 12 v)) 1 m off ;
      let c := mkRa dl ul (flag b0 5) srd rep sfn ch fl in
      do n <- ra_size mu c ;
      guard (n =? off)%nat (do v <- ra_valid mu c ; Ok (c, v)).

(** random_access_resource_ie.hpp 70-80 *)
Record random_access := mkRr {
  rr_repeat : option repeat_info;   (* rp_specific does not exist here and is false *)
  rr_sfn_offset : option N;
  rr_channel : option N;
  rr_channel_2 : option N;
  rr_allocation : allocation;
  rr_max_in_slots : bool;
  rr_max_length : N;
  rr_cw_min : N;
  rr_delay : bool;
  rr_window : N;
  rr_cw_max : N }.
(** random_access_resource_ie.cpp 66-104 *)
Definition rr_valid (mu : N) (c : random_access) : res bool :=
  do r <- value (rr_repeat c) ;
  if negb (rp_valid r) then Ok false else
  Ok (opt_all (fun s => s <=? 255) (rr_sfn_offset c) && opt_all channel_in_range (rr_channel c) &&
      opt_all channel_in_range (rr_channel_2 c) && al_valid mu (rr_allocation c) &&
      (rr_max_length c <=? 15) && enum_valid 8 (rr_cw_min c) && (rr_window c <=? 15) && enum_valid 8 (rr_cw_max c)).
(** random_access_resource_ie.cpp 106-116 *)
Definition rr_size (mu : N) (c : random_access) : res nat :=
  do v <- rr_valid mu c ;
  guard v
  (Ok ((if (mu <=? 4)%N then 5 else 6) + opt_size (rr_repeat c) 2 + opt_size (rr_sfn_offset c) 1 +
       opt_size (rr_channel c) 2 + opt_size (rr_channel_2 c) 2)%nat).
(** random_access_resource_ie.cpp 279-312; the masked bits are added without a shift *)
Definition rr_peek (mu : N) (m : list N) : res (option nat) :=
  let n := if mu <=? 4 then 5%nat else 6%nat in
  do b0 <- ld m 0 ;
  let code := N.land (N.shiftr b0 3) 3 in
  if code =? 3 then Ok None
  else
    Ok (Some (n + (if (code =? 0)%N then 0 else 2) + N.to_nat (N.land b0 4) + N.to_nat (N.land b0 2) * 2 + N.to_nat (N.land b0 1) * 2)%nat).
(** random_access_resource_ie.cpp 122-148, the required fields without the Repeat field *)
Definition rr_pack_required (mu : N) (c : random_access) (m : list N) : res (list N) :=
  do m <- st m 0 (N.shiftl (N.b2n (is_some (rr_sfn_offset c))) 2) ;
  do m <- orst m 0 (N.shiftl (N.b2n (is_some (rr_channel c))) 1) ;
  do m <- orst m 0 (N.b2n (is_some (rr_channel_2 c))) ;
  do m <- l2b_lower m 1 4 (al_start (rr_allocation c)) (fo_size mu) ;
  let n := (1 + fo_size mu)%nat in
  do m <- st m n (N.shiftl (N.b2n (al_in_slots (rr_allocation c))) 7) ;
  do m <- orst m n (al_length (rr_allocation c)) ;
  do m <- st m (n + 1) (N.shiftl (N.b2n (rr_max_in_slots c)) 7) ;
  do m <- orst m (n + 1) (N.shiftl (rr_max_length c) 3) ;
  do m <- orst m (n + 1) (rr_cw_min c) ;
  do m <- st m (n + 2) (N.shiftl (N.b2n (rr_delay c)) 7) ;
  do m <- orst m (n + 2) (N.shiftl (rr_window c) 3) ;
  orst m (n + 2) (rr_cw_max c).
(** random_access_resource_ie.cpp 118-196 *)
Definition rr_pack (mu : N) (c : random_access) (m : list N) : res (list N) :=
  do v <- rr_valid mu c ;
  guard v
  (do m <- rr_pack_required mu c m ;
   do r <- value (rr_repeat c) ;
   do m <- orst m 0 (N.shiftl (if rp_in_subslots r then 2 else 1) 3) ;
   do s <- put (rr_repeat c) wr_repeat 2 (m, (4 + fo_size mu)%nat) ;
   do s <- put (rr_sfn_offset c) wr_byte 1 s ;
   do s <- put (rr_channel c) wr_channel 2 s ;
   do s <- put (rr_channel_2 c) wr_channel 2 s ;
   do p <- rr_peek mu (fst s) ;
   guard (match p with Some n => (n =? snd s)%nat | None => false end) (Ok (fst s))).
(** random_access_resource_ie.cpp 198-277; for a reserved Repeat field only the result false is modelled *)
Definition rr_unpack (mu : N) (m : list N) : res (option random_access * bool) :=
  do s <- b2l_lower m 1 4 (fo_size mu) ;
  let n := (1 + fo_size mu)%nat in
  do b <- ld m n ;
  do b' <- ld m (n + 1) ;
  do b'' <- ld m (n + 2) ;
  do b0 <- ld m 0 ;
  let code := N.land (N.shiftr b0 3) 3 in
  if code =? 3 then Ok (None, false)
  else
    do (two, off) <- get (negb (code =? 0)) rd_two 2 m (n + 3)%nat ;
    let rep := option_map (fun x => mkRp (code =? 2) false (fst x) (snd x)) two in
    do (sfn, off) <- get (flag b0 2) (fun m i => ld m i) 1 m off ;
    do (ch, off) <- get (flag b0 1) rd_channel 2 m off ;
    do (ch2, off) <- get (flag b0 0) rd_channel 2 m off ;
    let c := mkRr rep sfn ch ch2 (mkAl s (negb (N.shiftr b 7 =? 0)) (N.land b 127))
               (negb (N.shiftr b' 7 =? 0)) (N.land (N.shiftr b' 3) 15) (from_coded 8 (N.land b' 7))
               (negb (N.shiftr b'' 7 =? 0)) (N.land (N.shiftr b'' 3) 15) (from_coded 8 (N.land b'' 7)) in
    do n <- rr_size mu c ;
    guard (n =? off)%nat (do v <- rr_valid mu c ; Ok (Some c, v)).
