(** Models of lib/src/sections_part4/mac_messages_and_ie/{rd_capability,neighbouring,broadcast_indication}_ie.cpp. *)
From Verif Require Import Base Bytes MacHeader Channels IeBase IeLists ResourceIes.
Open Scope N_scope.

(** *** rd_capability_ie *)
(** rd_capability_ie.hpp 182-214: phy_capability_t *)
Record phy_capability := mkPc {
  pc_power_class : N;
  pc_nss : N;
  pc_diversity : N;
  pc_gain_index : N;
  pc_max_mcs : N;
  pc_soft_buffer : N;
  pc_harq : N;
  pc_delay : N }.
(** rd_capability_ie.hpp 177-180, 216: phy_capability_additional_t *)
Record additional := mkAd { ad_mu : N; ad_beta : N; ad_phy : phy_capability }.
(** rd_capability_ie.hpp 220-227 *)
Record rd_capability := mkCap {
  cap_additional : list additional;
  cap_release : N;
  cap_modes : N;
  cap_mesh : bool;
  cap_scheduled : bool;
  cap_security : N;
  cap_dlc : N;
  cap_phy : phy_capability }.

(** rd_capability_ie.hpp 212-213: rx_gain_table *)
Definition rx_gain_table : list Z := [-10; -8; -6; -4; -2; 0; 2; 4; 6]%Z.
(** std::lower_bound over the table: the first entry that is not less *)
Fixpoint lower_bound (l : list Z) (v : Z) : nat :=
  match l with [] => 0%nat | x :: l => if (x <? v)%Z then S (lower_bound l v) else 0%nat end.
(** rd_capability_ie.hpp 187-192: set_rx_gain; returns the index *)
Definition set_rx_gain (dB : Z) : N :=
  let i := lower_bound rx_gain_table dB in
  N.of_nat (if (i =? length rx_gain_table)%nat then length rx_gain_table - 1 else i)%nat.
(** rd_capability_ie.hpp 194-200: get_rx_gain_dB *)
Definition get_rx_gain_dB (i : N) : option Z := if i <? 9 then nth_error rx_gain_table (N.to_nat i) else None.

(** rd_capability_ie.cpp 67-75 *)
Definition pc_valid (p : phy_capability) : bool :=
  enum_valid 3 (pc_power_class p) && enum_valid 4 (pc_nss p) && enum_valid 4 (pc_diversity p) &&
  is_some (get_rx_gain_dB (pc_gain_index p)) && enum_valid 10 (pc_max_mcs p) && enum_valid 9 (pc_soft_buffer p) &&
  enum_valid 4 (pc_harq p) && enum_valid 7 (pc_delay p).
(** rd_capability_ie.cpp 66-95 *)
Definition cap_valid (c : rd_capability) : bool :=
  (length (cap_additional c) <=? 7)%nat &&
  forallb (fun a => enum_valid 4 (ad_mu a) && enum_valid 6 (ad_beta a) && pc_valid (ad_phy a)) (cap_additional c) &&
  enum_valid_lower 0 5 (cap_release c) && enum_valid 3 (cap_modes c) && enum_valid 2 (cap_security c) &&
  enum_valid 5 (cap_dlc c) && pc_valid (cap_phy c).
(** rd_capability_ie.cpp 97-100 *)
Definition cap_size (c : rd_capability) : res nat := guard (cap_valid c) (Ok (7 + length (cap_additional c) * 5)%nat).
(** rd_capability_ie.cpp 214-217 *)
Definition cap_peek (m : list N) : res (option nat) := do b0 <- ld m 0 ; Ok (Some (7 + N.to_nat (N.shiftr b0 5) * 5)%nat).
(** rd_capability_ie.cpp 119-133 *)
Definition wr_phy (p : phy_capability) (m : list N) (off : nat) : res (list N) :=
  do m <- st m off (N.shiftl (pc_power_class p) 4) ;
  do m <- orst m off (N.shiftl (pc_nss p) 2) ;
  do m <- orst m off (pc_diversity p) ;
  do m <- st m (off + 1) (N.shiftl (pc_gain_index p) 4) ;
  do m <- orst m (off + 1) (pc_max_mcs p) ;
  do m <- st m (off + 2) (N.shiftl (pc_soft_buffer p) 4) ;
  do m <- orst m (off + 2) (N.shiftl (pc_harq p) 2) ;
  st m (off + 3) (N.shiftl (pc_delay p) 4).
(** rd_capability_ie.cpp 142-146 *)
Definition wr_additional (a : additional) (m : list N) (off : nat) : res (list N) :=
  do m <- st m off (N.shiftl (ad_mu a) 5) ;
  do m <- orst m off (N.shiftl (ad_beta a) 1) ;
  wr_phy (ad_phy a) m (off + 1).
(** rd_capability_ie.cpp 102-152 *)
Definition cap_pack (c : rd_capability) (m : list N) : res (list N) :=
  guard (cap_valid c)
  (do m <- st m 0 (N.shiftl (N.of_nat (length (cap_additional c))) 5) ;
   do m <- orst m 0 (cap_release c) ;
   do m <- st m 1 (N.shiftl (cap_modes c) 2) ;
   do m <- orst m 1 (N.shiftl (N.b2n (cap_mesh c)) 1) ;
   do m <- orst m 1 (N.b2n (cap_scheduled c)) ;
   do m <- st m 2 (N.shiftl (cap_security c) 5) ;
   do m <- orst m 2 (N.shiftl (cap_dlc c) 2) ;
   do m <- wr_phy (cap_phy c) m 3 ;
   do s <- put_all (cap_additional c) wr_additional 5 (m, 7%nat) ;
   do p <- cap_peek (fst s) ;
   guard (match p with Some n => (n =? snd s)%nat | None => false end) (Ok (fst s))).
(** rd_capability_ie.cpp 172-188 *)
Definition rd_phy (m : list N) (off : nat) : res phy_capability :=
  do b0 <- ld m off ;
  do b1 <- ld m (off + 1) ;
  do b2 <- ld m (off + 2) ;
  do b3 <- ld m (off + 3) ;
  Ok (mkPc (from_coded 3 (N.land (N.shiftr b0 4) 7)) (from_coded 4 (N.land (N.shiftr b0 2) 3)) (from_coded 4 (N.land b0 3))
           (N.shiftr b1 4) (from_coded 10 (N.land b1 15)) (from_coded 9 (N.shiftr b2 4)) (from_coded 4 (N.land (N.shiftr b2 2) 3))
           (from_coded 7 (N.shiftr b3 4))).
(** rd_capability_ie.cpp 200-206 *)
Definition rd_additional (m : list N) (off : nat) : res additional :=
  do b <- ld m off ;
  do p <- rd_phy m (off + 1) ;
  Ok (mkAd (from_coded 4 (N.shiftr b 5)) (from_coded 6 (N.land (N.shiftr b 1) 15)) p).
(** rd_capability_ie.cpp 154-212; the loop runs while N_bytes < 7 + 5 * (number in octet 0), N_bytes starting with 7 in steps of 5 *)
Definition cap_unpack (m : list N) : res (rd_capability * bool) :=
  do b0 <- ld m 0 ;
  do b1 <- ld m 1 ;
  do b2 <- ld m 2 ;
  do p <- rd_phy m 3 ;
  do (l, off) <- get_all (N.to_nat (N.shiftr b0 5)) rd_additional 5 m 7 ;
  let c := mkCap l (from_coded_lower 0 5 (N.land b0 31)) (from_coded 3 (N.land (N.shiftr b1 2) 3)) (negb (N.land b1 2 =? 0))
                 (negb (N.land b1 1 =? 0)) (from_coded 2 (N.shiftr b2 5)) (from_coded 5 (N.land (N.shiftr b2 2) 7)) p in
  do n <- cap_size c ;
  guard (n =? off)%nat (Ok (c, cap_valid c)).

(** *** neighbouring_ie *)
(** The radio device class is mu and beta. *)
Record neighbouring := mkNg {
  ng_id : N;
  ng_constraints : bool;
  ng_nbp : N;
  ng_cbp : N;
  ng_channel : option N;
  ng_time : option N;
  ng_rssi_2 : option N;
  ng_snr : option N;
  ng_class : option (N * N) }.
(** neighbouring_ie.cpp 68-98; radio_device_class.value() throws std::bad_optional_access *)
Definition ng_valid (c : neighbouring) : res bool :=
  if 65535 <? ng_id c then Ok false else
  do v <- value (ng_class c) ;
  Ok (enum_valid 4 (fst v) && enum_valid 6 (snd v) &&
      opt_all (fun p => p <=? 255) (ng_snr c) && opt_all (fun p => p <=? 255) (ng_rssi_2 c) &&
      opt_all channel_in_range (ng_channel c) && enum_valid 7 (ng_nbp c) && enum_valid 11 (ng_cbp c)).
(** neighbouring_ie.cpp 100-108 *)
Definition ng_size (c : neighbouring) : nat :=
  (4 + opt_size (ng_class c) 1 + opt_size (ng_snr c) 1 + opt_size (ng_rssi_2 c) 1 + opt_size (ng_channel c) 2 + opt_size (ng_time c) 4)%nat.
(** neighbouring_ie.cpp 229-238 *)
Definition ng_peek (m : list N) : res (option nat) :=
  do b <- ld m 2 ;
  Ok (Some (4 + N.to_nat (N.land (N.shiftr b 5) 1) + N.to_nat (N.land (N.shiftr b 4) 1) + N.to_nat (N.land (N.shiftr b 3) 1) +
            N.to_nat (N.land b 2) * 2 + N.to_nat (N.land b 1) * 4)%nat).
(** neighbouring_ie.cpp 133-134 *)
Definition wr_ng_channel (v : N) (m : list N) (off : nat) : res (list N) :=
  do m <- st m off (N.shiftr v 5) ; st m (off + 1) (N.land v 255).
(** neighbouring_ie.cpp 158-159 *)
Definition wr_class (v : N * N) (m : list N) (off : nat) : res (list N) :=
  do m <- st m off (N.shiftl (fst v) 5) ; orst m off (N.shiftl (snd v) 1).
(** neighbouring_ie.cpp 110-166; next_cluster_channel.value() and radio_device_class.value() throw std::bad_optional_access *)
Definition ng_pack (c : neighbouring) (m : list N) : res (list N) :=
  do v <- ng_valid c ;
  guard v
  (do m <- wr_num 2 (ng_id c) m 0 ;
   do m <- st m 2 (N.shiftl (N.b2n (is_some (ng_class c))) 5) ;
   do m <- orst m 2 (N.shiftl (N.b2n (is_some (ng_snr c))) 4) ;
   do m <- orst m 2 (N.shiftl (N.b2n (is_some (ng_rssi_2 c))) 3) ;
   do m <- orst m 2 (N.shiftl (N.b2n (ng_constraints c)) 2) ;
   do m <- orst m 2 (N.shiftl (N.b2n (is_some (ng_channel c))) 1) ;
   do m <- orst m 2 (N.b2n (is_some (ng_time c))) ;
   do m <- st m 3 (N.shiftl (ng_nbp c) 4) ;
   do m <- orst m 3 (ng_cbp c) ;
   do ch <- value (ng_channel c) ;
   do m <- wr_ng_channel ch m 4 ;
   do s <- put (ng_time c) (wr_num 4) 4 (m, 6%nat) ;
   do s <- put (ng_rssi_2 c) wr_byte 1 s ;
   do s <- put (ng_snr c) wr_byte 1 s ;
   do v <- value (ng_class c) ;
   do s <- put (Some v) wr_class 1 s ;
   do p <- ng_peek (fst s) ;
   guard (match p with Some n => (n =? snd s)%nat | None => false end) (Ok (fst s))).
(** neighbouring_ie.cpp 189-190 *)
Definition rd_ng_channel (m : list N) (off : nat) : res N :=
  do hi <- ld m off ; do lo <- ld m (off + 1) ; Ok (N.lor (N.shiftl (N.land hi 31) 8) lo).
(** neighbouring_ie.cpp 215-219 *)
Definition rd_class (m : list N) (off : nat) : res (N * N) :=
  do b <- ld m off ; Ok (from_coded 4 (N.land (N.shiftr b 5) 7), from_coded 6 (N.land (N.shiftr b 1) 15)).
(** neighbouring_ie.cpp 168-227; the network beacon period is masked, not shifted *)
Definition ng_unpack (m : list N) : res (neighbouring * bool) :=
  do id <- rd_num 2 m 0 ;
  do b2 <- ld m 2 ;
  do b3 <- ld m 3 ;
  do (ch, off) <- get (negb (N.land b2 2 =? 0)) rd_ng_channel 2 m 4 ;
  do (t, off) <- get (negb (N.land b2 1 =? 0)) (rd_num 4) 4 m off ;
  do (r2, off) <- get (flag b2 3) ld 1 m off ;
  do (snr, off) <- get (flag b2 4) ld 1 m off ;
  do (cl, off) <- get (flag b2 5) rd_class 1 m off ;
  let c := mkNg id (flag b2 2) (from_coded 7 (N.land b3 240)) (from_coded 11 (N.land b3 15)) ch t r2 snr cl in
  guard (ng_size c =? off)%nat (do v <- ng_valid c ; Ok (c, v)).

(** *** broadcast_indication_ie *)
(** broadcast_indication_ie.hpp: std::variant<std::monostate, channel_quality_t, mimo_feedback_t> *)
Inductive feedback_value := No_value | Mcs (quality : N) | Mimo (layers codebook : N).
(** indication type: paging 0, random access response 1; id type: short 0, long 1; feedback: none 0, MCS 1, MIMO with two
    antennas 2, with four 3 *)
Record broadcast_indication := mkBi {
  bi_type : N;
  bi_id_type : N;
  bi_ack : N;
  bi_feedback : N;
  bi_follows : bool;
  bi_id : N;
  bi_value : feedback_value }.
(** broadcast_indication_ie.cpp 66-111, with the CBI_MAX constants of broadcast_indication_ie.hpp 120-132 *)
Definition feedback_valid (feedback : N) (v : feedback_value) : bool :=
  match feedback with
  | 0 => true
  | 1 => match v with Mcs q => enum_valid_lower 0 13 q | _ => false end
  | 2 => match v with Mimo l k => ((l =? 0) && (k <=? 5)) || ((l =? 1) && (k <=? 2)) | _ => false end
  | 3 => match v with Mimo l k => ((l =? 0) && (k <=? 27)) || ((l =? 1) && (k <=? 21)) || ((l =? 2) && (k <=? 4)) | _ => false end
  | _ => false
  end.
(** broadcast_indication_ie.cpp 50-115 *)
Definition bi_valid (c : broadcast_indication) : bool :=
  enum_valid 2 (bi_type c) && enum_valid 2 (bi_id_type c) && negb ((bi_id_type c =? 0) && (65535 <? bi_id c)) &&
  (if bi_type c =? 1 then (bi_id_type c =? 0) && enum_valid 2 (bi_ack c) && feedback_valid (bi_feedback c) (bi_value c) else true).
(** broadcast_indication_ie.cpp 117-127 *)
Definition bi_size (c : broadcast_indication) : res nat :=
  guard (bi_valid c)
  (Ok ((if (bi_id_type c =? 0)%N then 3 else 5) + (if (bi_type c =? 1)%N && negb (bi_feedback c =? 0)%N then 1 else 0))%nat).
(** broadcast_indication_ie.cpp 239-256; the result is a number of type uint32_t *)
Definition bi_peek (m : list N) : res (option N) :=
  do b0 <- ld m 0 ;
  if 2 <=? N.shiftr b0 5 then Ok (Some UNDEF32) else
  Ok (Some ((if N.land (N.shiftr b0 4) 1 =? 0 then 3 else 5) +
            (if (N.shiftr b0 5 =? 1) && negb (N.land b0 6 =? 0) then 1 else 0))).
(** broadcast_indication_ie.cpp 149-174; std::get throws std::bad_variant_access *)
Definition put_feedback (feedback : N) (v : feedback_value) (s : list N * nat) : res (list N * nat) :=
  match feedback with
  | 1 => match v with
         | Mcs q => do m <- st (fst s) (snd s) q ; Ok (m, (snd s + 1)%nat)
         | _ => Throw
         end
  | 2 | 3 => match v with
             | Mimo l k => do m <- st (fst s) (snd s) (N.shiftl l (if feedback =? 2 then 3 else 6)) ;
                           do m <- orst m (snd s) k ; Ok (m, (snd s + 1)%nat)
             | _ => Throw
             end
  | _ => Ok s
  end.
(** broadcast_indication_ie.cpp 129-180 *)
Definition bi_pack (c : broadcast_indication) (m : list N) : res (list N) :=
  guard (bi_valid c)
  (do m <- st m 0 (N.shiftl (bi_type c) 5) ;
   do m <- orst m 0 (N.shiftl (bi_id_type c) 4) ;
   do m <- orst m 0 (N.b2n (bi_follows c)) ;
   let k := if bi_id_type c =? 0 then 2%nat else 4%nat in
   do m <- wr_num k (bi_id c) m 1 ;
   do s <- (if bi_type c =? 1 then
              do m <- orst m 0 (N.shiftl (bi_ack c) 3) ;
              do m <- orst m 0 (N.shiftl (bi_feedback c) 1) ;
              put_feedback (bi_feedback c) (bi_value c) (m, (k + 1)%nat)
            else Ok (m, (k + 1)%nat)) ;
   do p <- bi_peek (fst s) ;
   guard (match p with Some n => n =? N.of_nat (snd s) | None => false end) (Ok (fst s))).
(** broadcast_indication_ie.cpp 202-231 *)
Definition get_feedback (feedback : N) (m : list N) (off : nat) : res (feedback_value * nat) :=
  match feedback with
  | 1 => do b <- ld m off ; Ok (Mcs (from_coded_lower 0 13 (N.land b 15)), (off + 1)%nat)
  | 2 => do b <- ld m off ; Ok (Mimo (from_coded 3 (N.land (N.shiftr b 3) 1)) (N.land b 7), (off + 1)%nat)
  | 3 => do b <- ld m off ; Ok (Mimo (from_coded 3 (N.shiftr b 6)) (N.land b 63), (off + 1)%nat)
  | _ => Ok (No_value, off)
  end.
(** broadcast_indication_ie.cpp 182-237; the feedback type is masked, not shifted (199) *)
Definition bi_unpack (m : list N) : res (broadcast_indication * bool) :=
  do b0 <- ld m 0 ;
  let ty := from_coded 2 (N.shiftr b0 5) in
  let it := from_coded 2 (N.land (N.shiftr b0 4) 1) in
  let k := if it =? 0 then 2%nat else 4%nat in
  do id <- rd_num k m 1 ;
  let follows := negb (N.land b0 1 =? 0) in
  do (c, off) <- (if ty =? 1 then
                    let fb := from_coded 4 (N.land b0 6) in
                    do (v, off) <- get_feedback fb m (k + 1) ;
                    Ok (mkBi ty it (from_coded 2 (N.land (N.shiftr b0 3) 1)) fb follows id v, off)
                  else Ok (mkBi ty it UNDEF32 UNDEF32 follows id No_value, (k + 1)%nat)) ;
  do n <- bi_size c ;
  guard (n =? off)%nat (Ok (c, bi_valid c)).
