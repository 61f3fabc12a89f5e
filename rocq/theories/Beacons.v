(** Models of lib/src/sections_part4/mac_messages_and_ie/{cluster_beacon_message,network_beacon_message}.cpp. *)
From Verif Require Import Base Bytes MacHeader Channels IeBase.
Open Scope N_scope.

(** cluster_beacon_message.hpp 66-76 *)
Record cluster_beacon := mkCb {
  cb_sfn : N;
  cb_power : option N;
  cb_constraints : bool;
  cb_offset : option N;
  cb_next_channel : option N;
  cb_time_to_next : option N;
  cb_nbp : N;
  cb_cbp : N;
  cb_count : N;
  cb_rel : N;
  cb_min : N }.

(** cluster_beacon_message.cpp 86-133; [mu] is the member of mu_depending_t *)
Definition cb_valid (mu : N) (c : cluster_beacon) : bool :=
  negb (255 <? cb_sfn c) &&
  opt_all (enum_valid_lower 2 16) (cb_power c) &&
  opt_all (fun o => negb (((mu <=? 4) && (255 <? o)) || ((4 <? mu) && (65535 <? o)))) (cb_offset c) &&
  opt_all channel_in_range (cb_next_channel c) &&
  enum_valid 7 (cb_nbp c) && enum_valid 11 (cb_cbp c) &&
  enum_valid 16 (cb_count c) && enum_valid 4 (cb_rel c) && enum_valid 4 (cb_min c).
(** mu <= 4 ? 1 : 2 *)
Definition fo_size (mu : N) : nat := if mu <=? 4 then 1%nat else 2%nat.
(** cluster_beacon_message.cpp 135-142 *)
Definition cb_size (mu : N) (c : cluster_beacon) : nat :=
  (4 + opt_size (cb_power c) 1 + opt_size (cb_offset c) (fo_size mu) + opt_size (cb_next_channel c) 2 + opt_size (cb_time_to_next c) 4)%nat.
(** cluster_beacon_message.cpp 328-342 *)
Definition cb_peek (mu : N) (m : list N) : res nat :=
  do b <- ld m 1 ;
  Ok (4 + N.to_nat (N.land (N.shiftr b 4) 1) + N.to_nat (N.land (N.shiftr b 2) 1) * fo_size mu
      + N.to_nat (N.land (N.shiftr b 1) 1) * 2 + N.to_nat (N.land b 1) * 4)%nat.
(** cluster_beacon_message.cpp 144-227; the required fields are lines 151-190 *)
Definition cb_pack_required (c : cluster_beacon) (m : list N) : res (list N) :=
  do m <- st m 0 (cb_sfn c) ;
  do m <- st m 1 (N.shiftl (N.b2n (is_some (cb_power c))) 4) ;
  do m <- orst m 1 (N.shiftl (N.b2n (cb_constraints c)) 3) ;
  do m <- orst m 1 (N.shiftl (N.b2n (is_some (cb_offset c))) 2) ;
  do m <- orst m 1 (N.shiftl (N.b2n (is_some (cb_next_channel c))) 1) ;
  do m <- orst m 1 (N.b2n (is_some (cb_time_to_next c))) ;
  do m <- st m 2 (N.shiftl (cb_nbp c) 4) ;
  do m <- orst m 2 (cb_cbp c) ;
  do m <- st m 3 (N.shiftl (cb_count c) 4) ;
  do m <- orst m 3 (N.shiftl (cb_rel c) 2) ;
  orst m 3 (cb_min c).
Definition cb_pack (mu : N) (c : cluster_beacon) (m : list N) : res (list N) :=
  guard (cb_valid mu c)
  (do m <- cb_pack_required c m ;
   do s <- put (cb_power c) wr_byte 1 (m, 4%nat) ;
   do s <- put (cb_offset c) (wr_num (fo_size mu)) (fo_size mu) s ;
   do s <- put (cb_next_channel c) wr_channel 2 s ;
   do s <- put (cb_time_to_next c) (wr_num 4) 4 s ;
   do n <- cb_peek mu (fst s) ;
   guard (n =? snd s)%nat (Ok (fst s))).
(** cluster_beacon_message.cpp 229-326; returns the message and the result of is_valid() *)
Definition cb_unpack (mu : N) (m : list N) : res (cluster_beacon * bool) :=
  do b0 <- ld m 0 ;
  do b1 <- ld m 1 ;
  do b2 <- ld m 2 ;
  do b3 <- ld m 3 ;
  let nbp := from_coded 7 (N.shiftr b2 4) in
  let cbp := from_coded 11 (N.land b2 15) in
  let count := from_coded 16 (N.shiftr b3 4) in
  let rel := from_coded 4 (N.land (N.shiftr b3 2) 3) in
  let mn := from_coded 4 (N.land b3 3) in
  do (power, off) <- get (flag b1 4) (fun m i => do v <- rd_low4 m i ; Ok (from_coded_lower 2 16 v)) 1 m 4 ;
  do (fo, off) <- get (flag b1 2) (rd_num (fo_size mu)) (fo_size mu) m off ;
  do (ch, off) <- get (flag b1 1) rd_channel 2 m off ;
  do (ttn, off) <- get (flag b1 0) (rd_num 4) 4 m off ;
  let c := mkCb b0 power (flag b1 3) fo ch ttn nbp cbp count rel mn in
  guard (cb_size mu c =? off)%nat (Ok (c, cb_valid mu c)).

(** network_beacon_message.hpp 89-98 *)
Record network_beacon := mkNb {
  nb_power : option N;
  nb_constraints : bool;
  nb_current : option N;
  nb_channel_0 : option N;
  nb_channel_1 : option N;
  nb_channel_2 : option N;
  nb_nbp : N;
  nb_cbp : N;
  nb_next_channel : N;
  nb_time_to_next : N }.
(** network_beacon_message.cpp 91-133 *)
Definition nb_valid (c : network_beacon) : bool :=
  opt_all (enum_valid_lower 2 16) (nb_power c) &&
  opt_all channel_in_range (nb_current c) &&
  opt_all channel_in_range (nb_channel_0 c) &&
  opt_all channel_in_range (nb_channel_1 c) &&
  opt_all channel_in_range (nb_channel_2 c) &&
  enum_valid 7 (nb_nbp c) && enum_valid 11 (nb_cbp c) && channel_in_range (nb_next_channel c).
(** network_beacon_message.cpp 135-143 *)
Definition nb_size (c : network_beacon) : nat :=
  (8 + opt_size (nb_power c) 1 + opt_size (nb_current c) 2 + opt_size (nb_channel_0 c) 2 + opt_size (nb_channel_1 c) 2 + opt_size (nb_channel_2 c) 2)%nat.
(** network_beacon_message.cpp 361-371 *)
Definition nb_peek (m : list N) : res nat :=
  do b <- ld m 0 ;
  Ok (8 + N.to_nat (N.land (N.shiftr b 4) 1) + N.to_nat (N.land (N.shiftr b 2) 1) * 2 + N.to_nat (N.land b 3) * 2)%nat.
(** network_beacon_message.cpp 145-236; the required fields are lines 153-191 *)
Definition nb_pack_required (c : network_beacon) (m : list N) : res (list N) :=
  do m <- st m 0 (N.shiftl (N.b2n (is_some (nb_power c))) 4) ;
  do m <- orst m 0 (N.shiftl (N.b2n (nb_constraints c)) 3) ;
  do m <- orst m 0 (N.shiftl (N.b2n (is_some (nb_current c))) 2) ;
  do m <- orst m 0 (N.b2n (is_some (nb_channel_0 c)) + N.b2n (is_some (nb_channel_1 c)) + N.b2n (is_some (nb_channel_2 c))) ;
  do m <- st m 1 (N.shiftl (nb_nbp c) 4) ;
  do m <- orst m 1 (nb_cbp c) ;
  do m <- st m 2 (N.shiftr (nb_next_channel c) 8) ;
  do m <- st m 3 (N.land (nb_next_channel c) 255) ;
  l2b_lower m 4 4 (nb_time_to_next c) 4.
Definition nb_pack (c : network_beacon) (m : list N) : res (list N) :=
  guard (nb_valid c)
  (do m <- nb_pack_required c m ;
   do s <- put (nb_power c) wr_byte 1 (m, 8%nat) ;
   do s <- put (nb_current c) wr_channel 2 s ;
   do s <- put (nb_channel_0 c) wr_channel 2 s ;
   do s <- put (nb_channel_1 c) wr_channel 2 s ;
   do s <- put (nb_channel_2 c) wr_channel 2 s ;
   do n <- nb_peek (fst s) ;
   guard (n =? snd s)%nat (Ok (fst s))).
(** network_beacon_message.cpp 238-359 *)
Definition nb_unpack (m : list N) : res (network_beacon * bool) :=
  do b0 <- ld m 0 ;
  do b1 <- ld m 1 ;
  do b3 <- ld m 3 ;
  do b2 <- ld m 2 ;
  do ttn <- b2l_lower m 4 4 4 ;
  let n := N.land b0 3 in
  let nbp := from_coded 7 (N.shiftr b1 4) in
  let cbp := from_coded 11 (N.land b1 15) in
  let next := N.lor b3 (N.shiftl (N.land b2 31) 8) in
  do (power, off) <- get (flag b0 4) (fun m i => do v <- rd_low4 m i ; Ok (from_coded_lower 2 16 v)) 1 m 8 ;
  do (cur, off) <- get (flag b0 2) rd_channel 2 m off ;
  do (c0, off) <- get (1 <=? n) rd_channel 2 m off ;
  do (c1, off) <- get (2 <=? n) rd_channel 2 m off ;
  do (c2, off) <- get (3 <=? n) rd_channel 2 m off ;
  let c := mkNb power (flag b0 3) cur c0 c1 c2 nbp cbp next ttn in
  guard (nb_size c =? off)%nat (Ok (c, nb_valid c)).
