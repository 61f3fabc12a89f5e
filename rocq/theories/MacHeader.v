(** Model of lib/{src,include/dectnrp}/sections_part4/mac_pdu/mac_header_type.{cpp,hpp} and
    mac_common_header.{cpp,hpp}. Enumerations are their underlying uint32_t. *)
From Verif Require Import Base Bytes Identity.
Open Scope N_scope.

(** common/adt/miscellaneous.hpp 66 *)
Definition UNDEF32 : N := 4294967295.

(** mac_header_type.hpp 61-63; Version 32-35, MAC_security 37-43, MAC_header_type 45-53 *)
Record mht := mkMht { mht_version : N; mht_security : N; mht_type : N }.
(** mac_header_type.cpp 35-49 *)
Definition mht_valid (h : mht) : bool :=
  negb (mht_version h =? UNDEF32) && negb (mht_security h =? UNDEF32) && negb (mht_type h =? UNDEF32).
(** mac_header_type.cpp 51-57 *)
Definition mht_pack (h : mht) (m : list N) : res (list N) :=
  guard (mht_valid h)
  (do m <- st m 0 (N.shiftl (mht_version h) 6) ;
   do m <- orst m 0 (N.shiftl (mht_security h) 4) ;
   orst m 0 (mht_type h)).
(** mac_header_type.hpp 65-77 *)
Definition get_version_ec (v : N) : N := if v =? 0 then v else UNDEF32.
Definition get_mac_security_ec (v : N) : N := if v <=? 3 then v else UNDEF32.
Definition get_mac_header_type_ec (v : N) : N := if v <=? 4 then v else UNDEF32.
(** mac_header_type.cpp 59-65 *)
Definition mht_unpack (m : list N) : res (mht * bool) :=
  do b <- ld m 0 ;
  let h := mkMht (get_version_ec (N.land (N.shiftr b 6) 3))
                 (get_mac_security_ec (N.land (N.shiftr b 4) 3))
                 (get_mac_header_type_ec (N.land b 15)) in
  Ok (h, mht_valid h).

(** mac_common_header.hpp 46-48 *)
Record data_header := mkDh { dh_reserved : N; dh_reset : N; dh_seq : N }.
(** mac_common_header.cpp 35-49 *)
Definition dh_valid (h : data_header) : bool :=
  negb (negb (dh_reserved h =? 0)) && negb (1 <? dh_reset h) && negb (4095 <? dh_seq h).
(** mac_common_header.cpp 54-57 = 138-141 = 186-189 *)
Definition seq_pack (h : data_header) (m : list N) : res (list N) :=
  do m <- st m 0 (N.shiftl (dh_reserved h) 5) ;
  do m <- orst m 0 (N.shiftl (dh_reset h) 4) ;
  do m <- orst m 0 (N.shiftr (dh_seq h) 8) ;
  st m 1 (N.land (dh_seq h) 255).
(** mac_common_header.cpp 61-63 = 147-149 = 194-196 *)
Definition seq_unpack (m : list N) : res data_header :=
  do b0 <- ld m 0 ;
  do b1 <- ld m 1 ;
  Ok (mkDh (N.land (N.shiftr b0 5) 7) (N.land (N.shiftr b0 4) 1) (N.shiftl (N.land b0 15) 8 + b1)).
(** mac_common_header.cpp 51-58 *)
Definition dh_pack (h : data_header) (m : list N) : res (list N) :=
  guard (dh_valid h) (seq_pack h m).
(** mac_common_header.cpp 60-66 *)
Definition dh_unpack (m : list N) : res (data_header * bool) :=
  do h <- seq_unpack m ; Ok (h, dh_valid h).

(** mac_common_header.hpp 61-62 *)
Record beacon_header := mkBh { bh_netid : N; bh_tx : N }.
(** mac_common_header.cpp 73-83, bitmask_lsb<24>() = 16777215 *)
Definition bh_valid (h : beacon_header) : bool :=
  negb (16777215 <? bh_netid h) && is_valid_LongRadioDeviceID (bh_tx h).
(** mac_common_header.cpp 85-90 *)
Definition bh_pack (h : beacon_header) (m : list N) : res (list N) :=
  guard (bh_valid h)
  (do m <- l2b_upper m 0 4 (bh_netid h) 3 ;
   l2b_lower m 3 4 (bh_tx h) 4).
(** mac_common_header.cpp 92-97 *)
Definition bh_unpack (m : list N) : res (beacon_header * bool) :=
  do n <- b2l_upper m 0 4 3 ;
  do t <- b2l_lower m 3 4 4 ;
  let h := mkBh n t in
  Ok (h, bh_valid h).
(** mac_common_header.cpp 99-101 *)
Definition set_Network_ID_3_lsb (h : beacon_header) (id : N) : beacon_header :=
  mkBh (N.land id 16777215) (bh_tx h).

(** mac_common_header.hpp 73-77; the first three members are those of the data header *)
Record unicast_header := mkUh { uh_seq : data_header; uh_rx : N; uh_tx : N }.
(** mac_common_header.cpp 111-133 *)
Definition uh_valid (h : unicast_header) : bool :=
  dh_valid (uh_seq h) && is_valid_LongRadioDeviceID (uh_tx h) && is_valid_LongRadioDeviceID (uh_rx h).
(** mac_common_header.cpp 135-144 *)
Definition uh_pack (h : unicast_header) (m : list N) : res (list N) :=
  guard (uh_valid h)
  (do m <- seq_pack (uh_seq h) m ;
   do m <- l2b_lower m 2 4 (uh_rx h) 4 ;
   l2b_lower m 6 4 (uh_tx h) 4).
(** mac_common_header.cpp 146-154 *)
Definition uh_unpack (m : list N) : res (unicast_header * bool) :=
  do s <- seq_unpack m ;
  do rx <- b2l_lower m 2 4 4 ;
  do tx <- b2l_lower m 6 4 4 ;
  let h := mkUh s rx tx in
  Ok (h, uh_valid h).

(** mac_common_header.hpp 88-91 *)
Record rdb_header := mkRh { rh_seq : data_header; rh_tx : N }.
(** mac_common_header.cpp 163-181 *)
Definition rh_valid (h : rdb_header) : bool :=
  dh_valid (rh_seq h) && is_valid_LongRadioDeviceID (rh_tx h).
(** mac_common_header.cpp 183-191 *)
Definition rh_pack (h : rdb_header) (m : list N) : res (list N) :=
  guard (rh_valid h)
  (do m <- seq_pack (rh_seq h) m ;
   l2b_lower m 2 4 (rh_tx h) 4).
(** mac_common_header.cpp 193-200 *)
Definition rh_unpack (m : list N) : res (rdb_header * bool) :=
  do s <- seq_unpack m ;
  do tx <- b2l_lower m 2 4 4 ;
  let h := mkRh s tx in
  Ok (h, rh_valid h).

(** mac_common_header_t and its five subclasses, mac_common_header.hpp 38-104 *)
Inductive mch :=
| MchData (h : data_header)
| MchBeacon (h : beacon_header)
| MchUnicast (h : unicast_header)
| MchRdb (h : rdb_header)
| MchEmpty.
(** mac_common_header.hpp 42, 55, 69, 84, 98 *)
Definition mch_size (h : mch) : nat :=
  match h with
  | MchData _ => 2 | MchBeacon _ => 7 | MchUnicast _ => 10 | MchRdb _ => 6 | MchEmpty => 0
  end.
Definition mch_pack (h : mch) (m : list N) : res (list N) :=
  match h with
  | MchData h => dh_pack h m
  | MchBeacon h => bh_pack h m
  | MchUnicast h => uh_pack h m
  | MchRdb h => rh_pack h m
  | MchEmpty => Ok m
  end.
