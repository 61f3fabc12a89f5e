(** Model of the PHY layer control field (PLCF) headers, lib/src/sections_part4/physical_header_field/
    plcf_base.cpp, plcf_10.cpp, plcf_20.cpp, plcf_21.cpp, plcf_decoder.cpp and their headers. *)
From Verif Require Import Base Bytes Identity Feedback.
Open Scope N_scope.

(** plcf_base.hpp 39-44: the fields common to all headers. *)
Record base := mkBase { HeaderFormat : N; PacketLengthType : N; PacketLength_m1 : N }.

(** plcf_base.cpp 37-51 *)
Definition base_valid (b : base) : bool :=
  (HeaderFormat b <=? 1) && (PacketLengthType b <=? 1) && (PacketLength_m1 b <=? 15).
(** plcf_base.cpp 53-59 *)
Definition base_pack (b : base) (m : list N) : res (list N) :=
  guard (base_valid b)
  (do m <- st m 0 (N.shiftl (HeaderFormat b) 5) ;
   do m <- orst m 0 (N.shiftl (PacketLengthType b) 4) ;
   orst m 0 (PacketLength_m1 b)).
(** plcf_base.cpp 61-67 *)
Definition base_unpack (m : list N) : res (base * bool) :=
  do b0 <- ld m 0 ;
  let b := mkBase (N.shiftr b0 5) (N.land (N.shiftr b0 4) 1) (N.land b0 15) in
  Ok (b, base_valid b).

(** plcf_base.cpp 69-71: conversion to uint32_t of an int32_t *)
Definition set_PacketLength_m1 (b : base) (len : Z) : base :=
  mkBase (HeaderFormat b) (PacketLengthType b) (Z.to_N ((len - 1) mod 4294967296)).
(** plcf_base.cpp 73, uint32_t addition *)
Definition get_PacketLength (b : base) : N := (PacketLength_m1 b + 1) mod 4294967296.

(** plcf_base.hpp 66-67 *)
Definition tx_power_table : list Z :=
  [-40; -30; -20; -16; -12; -8; -4; 0; 4; 7; 10; 13; 16; 19; 21; 23]%Z.
(** std::lower_bound on a sorted range: position of the first element not less than x, else the end *)
Fixpoint lower_bound (l : list Z) (x : Z) : nat :=
  match l with
  | [] => O
  | h :: t => if Z.ltb h x then S (lower_bound t x) else O
  end.
(** plcf_base.cpp 75-81 *)
Definition TransmitPower_of_dBm (dbm : Z) : N :=
  let l := lower_bound tx_power_table dbm in
  if Nat.eqb l (length tx_power_table) then N.of_nat (length tx_power_table - 1) else N.of_nat l.
(** plcf_base.hpp 51-55, std::array::at *)
Definition get_TransmitPower_dBm (code : N) : res Z :=
  match nth_error tx_power_table (N.to_nat code) with Some v => Ok v | None => Throw end.

(** plcf_base.hpp 69 and 71; plcf_20.cpp 135-139, plcf_21.cpp 121-125 *)
Definition N_SS_coded_lut : list N := [0; 0; 1; 0; 2; 0; 0; 0; 3].
Definition N_SS_coded_lut_rev : list N := [1; 2; 4; 8].
Definition N_SS_code (nss : N) : res N :=
  match nth_error N_SS_coded_lut (N.to_nat nss) with Some v => Ok v | None => Throw end.
Definition N_SS_of_code (code : N) : res N :=
  match nth_error N_SS_coded_lut_rev (N.to_nat code) with Some v => Ok v | None => Throw end.

(** plcf_10.hpp 35-42 *)
Record plcf10 := mk10 {
  p10_base : base; p10_snid : N; p10_tx : N; p10_power : N; p10_reserved : N; p10_mcs : N }.
(** plcf_20.hpp 36-49 *)
Record plcf20 := mk20 {
  p20_base : base; p20_snid : N; p20_tx : N; p20_power : N; p20_mcs : N; p20_rx : N; p20_nss : N;
  p20_rv : N; p20_ndi : N; p20_harq : N; p20_ff : N; p20_pool : pool }.
(** plcf_21.hpp 36-47 *)
Record plcf21 := mk21 {
  p21_base : base; p21_snid : N; p21_tx : N; p21_power : N; p21_mcs : N; p21_rx : N; p21_nss : N;
  p21_reserved : N; p21_ff : N; p21_pool : pool }.

(** plcf_10.cpp 39-66 *)
Definition p10_valid (p : plcf10) : bool :=
  (HeaderFormat (p10_base p) =? 0) && is_valid_ShortNetworkID (p10_snid p) &&
  is_valid_ShortRadioDeviceID (p10_tx p) && (p10_power p <=? 15) && (p10_reserved p =? 0) &&
  (p10_mcs p <=? 7).
(** plcf_10.cpp 68-78 *)
Definition p10_pack (p : plcf10) (m : list N) : res (list N) :=
  do m <- base_pack (p10_base p) m ;
  guard (p10_valid p)
  (do m <- st m 1 (p10_snid p) ;
   do m <- l2b_lower m 2 4 (p10_tx p) 2 ;
   do m <- st m 4 (N.shiftl (p10_power p) 4) ;
   do m <- orst m 4 (N.shiftl (p10_reserved p) 3) ;
   orst m 4 (p10_mcs p)).
(** plcf_10.cpp 80-92; on a failed base the remaining fields keep their old values *)
Definition p10_unpack (old : plcf10) (m : list N) : res (plcf10 * bool) :=
  do r <- base_unpack m ;
  let b := fst r in
  if negb (snd r)
  then Ok (mk10 b (p10_snid old) (p10_tx old) (p10_power old) (p10_reserved old) (p10_mcs old), false)
  else
    do snid <- ld m 1 ;
    do tx <- b2l_lower m 2 4 2 ;
    do b4 <- ld m 4 ;
    let p := mk10 b snid tx (N.land (N.shiftr b4 4) 15) (N.land (N.shiftr b4 3) 1) (N.land b4 7) in
    Ok (p, p10_valid p).

(** plcf_20.cpp 44-91 *)
Definition p20_valid (p : plcf20) : bool :=
  (HeaderFormat (p20_base p) =? 0) && is_valid_ShortNetworkID (p20_snid p) &&
  is_valid_ShortRadioDeviceID (p20_tx p) && (p20_power p <=? 15) && (p20_mcs p <=? 11) &&
  is_valid_ShortRadioDeviceID (p20_rx p) && (p20_nss p <=? 3) && (p20_rv p <=? 3) &&
  (p20_ndi p <=? 1) && (p20_harq p <=? 7) && (p20_ff p <=? 15).
(** plcf_20.cpp 93-110 *)
Definition p20_pack (p : plcf20) (m : list N) : res (list N) :=
  do m <- base_pack (p20_base p) m ;
  guard (p20_valid p)
  (do m <- st m 1 (p20_snid p) ;
   do m <- l2b_lower m 2 4 (p20_tx p) 2 ;
   do m <- st m 4 (N.shiftl (p20_power p) 4) ;
   do m <- orst m 4 (p20_mcs p) ;
   do m <- l2b_lower m 5 4 (p20_rx p) 2 ;
   do m <- st m 7 (N.shiftl (p20_nss p) 6) ;
   do m <- orst m 7 (N.shiftl (p20_rv p) 4) ;
   do m <- orst m 7 (N.shiftl (p20_ndi p) 3) ;
   do m <- orst m 7 (p20_harq p) ;
   do m <- st m 8 (N.shiftl (p20_ff p) 4) ;
   at_off 8 (pool_pack (p20_pool p) (p20_ff p)) m).
(** plcf_20.cpp 112-133 *)
Definition p20_unpack (old : plcf20) (m : list N) : res (plcf20 * bool) :=
  do r <- base_unpack m ;
  let b := fst r in
  if negb (snd r)
  then Ok (mk20 b (p20_snid old) (p20_tx old) (p20_power old) (p20_mcs old) (p20_rx old)
                (p20_nss old) (p20_rv old) (p20_ndi old) (p20_harq old) (p20_ff old) (p20_pool old), false)
  else
    do snid <- ld m 1 ;
    do tx <- b2l_lower m 2 4 2 ;
    do b4 <- ld m 4 ;
    do rx <- b2l_lower m 5 4 2 ;
    do b7 <- ld m 7 ;
    do b8 <- ld m 8 ;
    let ff := N.land (N.shiftr b8 4) 15 in
    do q <- pool_unpack (p20_pool old) ff (skipn 8 m) ;
    let p := mk20 b snid tx (N.land (N.shiftr b4 4) 15) (N.land b4 15) rx
                  (N.land (N.shiftr b7 6) 3) (N.land (N.shiftr b7 4) 3) (N.land (N.shiftr b7 3) 1)
                  (N.land b7 7) ff (fst q) in
    if negb (snd q) then Ok (p, false) else Ok (p, p20_valid p).

(** plcf_21.cpp 42-81 *)
Definition p21_valid (p : plcf21) : bool :=
  (HeaderFormat (p21_base p) =? 1) && is_valid_ShortNetworkID (p21_snid p) &&
  is_valid_ShortRadioDeviceID (p21_tx p) && (p21_power p <=? 15) && (p21_mcs p <=? 11) &&
  is_valid_ShortRadioDeviceID (p21_rx p) && (p21_nss p <=? 3) && (p21_reserved p =? 0) &&
  (p21_ff p <=? 15).
(** plcf_21.cpp 83-98 *)
Definition p21_pack (p : plcf21) (m : list N) : res (list N) :=
  do m <- base_pack (p21_base p) m ;
  guard (p21_valid p)
  (do m <- st m 1 (p21_snid p) ;
   do m <- l2b_lower m 2 4 (p21_tx p) 2 ;
   do m <- st m 4 (N.shiftl (p21_power p) 4) ;
   do m <- orst m 4 (p21_mcs p) ;
   do m <- l2b_lower m 5 4 (p21_rx p) 2 ;
   do m <- st m 7 (N.shiftl (p21_nss p) 6) ;
   do m <- orst m 7 (p21_reserved p) ;
   do m <- st m 8 (N.shiftl (p21_ff p) 4) ;
   at_off 8 (pool_pack (p21_pool p) (p21_ff p)) m).
(** plcf_21.cpp 100-119 *)
Definition p21_unpack (old : plcf21) (m : list N) : res (plcf21 * bool) :=
  do r <- base_unpack m ;
  let b := fst r in
  if negb (snd r)
  then Ok (mk21 b (p21_snid old) (p21_tx old) (p21_power old) (p21_mcs old) (p21_rx old)
                (p21_nss old) (p21_reserved old) (p21_ff old) (p21_pool old), false)
  else
    do snid <- ld m 1 ;
    do tx <- b2l_lower m 2 4 2 ;
    do b4 <- ld m 4 ;
    do rx <- b2l_lower m 5 4 2 ;
    do b7 <- ld m 7 ;
    do b8 <- ld m 8 ;
    let ff := N.land (N.shiftr b8 4) 15 in
    do q <- pool_unpack (p21_pool old) ff (skipn 8 m) ;
    let p := mk21 b snid tx (N.land (N.shiftr b4 4) 15) (N.land b4 15) rx
                  (N.land (N.shiftr b7 6) 3) (N.land b7 63) ff (fst q) in
    if negb (snd q) then Ok (p, false) else Ok (p, p21_valid p).

(** plcf_decoder.hpp 115-136. A header format is None for UNDEFINED_NUMERIC_32. The fec_cfg
    members are storage for the PHY and not modelled. *)
Record decoder := mkDec {
  PacketLength_max : N; mcs_index_max : N; N_SS_max : N;
  hf1 : option N; hf2 : option N;
  d10 : plcf10; d20 : plcf20; d21 : plcf21 }.

(** plcf_decoder.cpp 39-42 *)
Definition set_configuration (d : decoder) : decoder :=
  mkDec (PacketLength_max d) (mcs_index_max d) (N_SS_max d) None None (d10 d) (d20 d) (d21 d).

(** plcf_decoder.cpp 56-63. Short-circuit ||, get_N_SS may throw. *)
Definition check_rdc_limits (d : decoder) (b : base) (mcs : N) (nss : res N) : res bool :=
  if PacketLength_max d <? get_PacketLength b then Ok false
  else if mcs_index_max d <? mcs then Ok false
  else do n <- nss ; Ok (negb (N_SS_max d <? n)).

(** plcf_decoder.cpp 50-110; array_plcf_type1 holds format 0, array_plcf_type2 formats 0 and 1. *)
Definition decode_and_rdc_check (d : decoder) (type : N) (m : list N) : res decoder :=
  guard ((type =? 1) || (type =? 2))
  (do b0 <- ld m 0 ;
   let cand := N.land (N.shiftr b0 5) 7 in
   let '(mkDec pl mc ns h1 h2 e10 e20 e21) := d in
   if type =? 1 then
     guard (match h1 with None => true | Some _ => false end)
     (if 1 <=? cand then Ok d
      else
        do r <- p10_unpack e10 m ;
        let d' := mkDec pl mc ns h1 h2 (fst r) e20 e21 in
        if negb (snd r) then Ok d'
        else
          do c <- check_rdc_limits d' (p10_base (fst r)) (p10_mcs (fst r)) (Ok 1) ;
          if negb c then Ok d'
          else Ok (mkDec pl mc ns (Some cand) h2 (fst r) e20 e21))
   else
     guard (match h2 with None => true | Some _ => false end)
     (if 2 <=? cand then Ok d
      else if cand =? 0 then
        do r <- p20_unpack e20 m ;
        let d' := mkDec pl mc ns h1 h2 e10 (fst r) e21 in
        if negb (snd r) then Ok d'
        else
          do c <- check_rdc_limits d' (p20_base (fst r)) (p20_mcs (fst r)) (N_SS_of_code (p20_nss (fst r))) ;
          if negb c then Ok d'
          else Ok (mkDec pl mc ns h1 (Some cand) e10 (fst r) e21)
      else
        do r <- p21_unpack e21 m ;
        let d' := mkDec pl mc ns h1 h2 e10 e20 (fst r) in
        if negb (snd r) then Ok d'
        else
          do c <- check_rdc_limits d' (p21_base (fst r)) (p21_mcs (fst r)) (N_SS_of_code (p21_nss (fst r))) ;
          if negb c then Ok d'
          else Ok (mkDec pl mc ns h1 (Some cand) e10 e20 (fst r)))).

(** plcf_decoder.cpp 112-124 *)
Definition has_any_plcf (d : decoder) : N :=
  (match hf1 d with Some _ => 1 | None => 0 end) + (match hf2 d with Some _ => 2 | None => 0 end).

(** A pointer to one of the three headers. *)
Inductive plcf := P10 (p : plcf10) | P20 (p : plcf20) | P21 (p : plcf21).

(** plcf_decoder.cpp 126-151; array::at throws, the assert compares with the constant format of the
    class. *)
Definition get_plcf_base (d : decoder) (type : N) : res (option plcf) :=
  guard ((type =? 1) || (type =? 2))
  (if type =? 1 then
     match hf1 d with
     | Some 0 => Ok (Some (P10 (d10 d)))
     | Some _ => Throw
     | None => Ok None
     end
   else
     match hf2 d with
     | Some 0 => Ok (Some (P20 (d20 d)))
     | Some 1 => Ok (Some (P21 (d21 d)))
     | Some _ => Throw
     | None => Ok None
     end).
