(** Model of the derivation of packet sizes: lib/src/sections_part3/derivative/packet_sizes.cpp,
    numerologies.cpp, mcs.cpp, tm_mode.cpp, transmission_packet_structure.cpp, the static functions of
    pdc.cpp, transport_block_size.cpp, fix/cbsegm.cpp and radio_device_class.cpp.
    Every integer is a uint32_t and wraps. The fields delta_u_f, T_u_symb and B_u_b_DFT of the numerology
    (two of them double) are not modelled: no size depends on them. *)
From Verif Require Import Base IntHelpers.
Open Scope N_scope.

(** uint32_t arithmetic *)
Definition mul32 (a b : N) : N := (a * b) mod 4294967296.
Definition add32 (a b : N) : N := (a + b) mod 4294967296.
Definition sub32 (a b : N) : N := (a + (4294967296 - b)) mod 4294967296.

(** std::has_single_bit *)
Definition has_single_bit (x : N) : bool := negb (x =? 0) && (N.land x (x - 1) =? 0).

(** packet_sizes_def.hpp 27-35 *)
Record psdef := mkPsdef {
  d_u : N; d_b : N; d_type : N; d_length : N; d_tm : N; d_mcs : N; d_Z : N }.

(** numerologies.hpp, numerologies.cpp 30-70 *)
Record numerology := mkNum {
  N_SLOT_u_symb : N; N_SLOT_u_subslot : N; N_b_DFT : N; N_b_CP : N; N_b_OCC : N;
  N_guards_top : N; N_guards_bottom : N }.
Definition get_numerologies (u b : N) : res numerology :=
  guard (has_single_bit u && (u <=? 8))
  (guard ((has_single_bit b && (b <=? 16)) || (b =? 12))
   (let dft := mul32 b 64 in
    let occ := mul32 b 56 in
    let top := sub32 (sub32 dft occ / 2) 1 in
    Ok (mkNum (mul32 u 10) (mul32 u 2) dft (mul32 b 8) occ top (add32 top 1)))).

(** mcs.hpp, mcs.cpp 27-107 *)
Record mcs_t := mkMcs { N_bps : N; R_num : N; R_den : N }.
Definition mcs_table : list mcs_t :=
  [ mkMcs 1 1 2; mkMcs 2 1 2; mkMcs 2 3 4; mkMcs 4 1 2; mkMcs 4 3 4; mkMcs 6 2 3; mkMcs 6 3 4;
    mkMcs 6 5 6; mkMcs 8 3 4; mkMcs 8 5 6; mkMcs 10 3 4; mkMcs 10 5 6 ].
Definition get_mcs (i : N) : res mcs_t := guard (i <=? 11) (rd mcs_table (N.to_nat i)).

(** tm_mode.hpp, tm_mode.cpp 27-131 *)
Record tm_t := mkTm { N_eff_TX : N; N_SS : N; tm_cl : bool; N_TS : N; N_TX : N }.
Definition tm_table : list tm_t :=
  [ mkTm 1 1 false 1 1; mkTm 2 1 false 2 2; mkTm 2 2 false 2 2; mkTm 1 1 true 1 2; mkTm 2 2 true 2 2;
    mkTm 4 1 false 4 4; mkTm 4 4 false 4 4; mkTm 1 1 true 1 4; mkTm 2 2 true 2 4; mkTm 4 4 true 4 4;
    mkTm 8 1 false 8 8; mkTm 8 8 false 8 8 ].
Definition get_tm_mode (i : N) : res tm_t := guard (i <=? 11) (rd tm_table (N.to_nat i)).
(** tm_mode.cpp 133-146 *)
Definition get_max_tm_mode_index (n : N) : res N :=
  guard ((n =? 1) || (n =? 2) || (n =? 4) || (n =? 8))
  (Ok (if n =? 1 then 0 else if n =? 2 then 4 else if n =? 4 then 9 else 11)).
(** tm_mode.cpp 174-189 *)
Definition get_equivalent_tm_mode (n_eff n_ss : N) : res N :=
  guard ((n_eff =? 1) || (n_eff =? 2) || (n_eff =? 4) || (n_eff =? 8))
  (guard (0 <? n_ss)
   (Ok (if n_eff =? 1 then 0
        else if n_eff =? 2 then (if n_ss =? 1 then 1 else 2)
        else if n_eff =? 4 then (if n_ss =? 1 then 5 else 6)
        else (if n_ss =? 1 then 10 else 11)))).

(** transmission_packet_structure.cpp 28-34 *)
Definition get_N_PACKET_symb (ty len symb subslot : N) : res N :=
  if ty =? 0
  then (if subslot =? 0 then Oob else Ok (mul32 len symb / subslot))
  else Ok (mul32 len symb).
(** transmission_packet_structure.cpp 42-46, constants.hpp 27-29 *)
Definition get_N_samples_OFDM_symbol (b : N) : N := mul32 72 b.

(** pdc.cpp 155-165 *)
Definition get_N_DF_symb (u n : N) : N :=
  if u =? 1 then sub32 n 2 else if (u =? 2) || (u =? 4) then sub32 n 3 else sub32 n 4.
(** pdc.cpp 167-193 *)
Definition get_nof_DRS_symb (u n n_eff : N) : res N :=
  guard (negb ((n_eff =? 4) && (n <? 15)))
  (guard (negb ((u =? 8) && (n_eff =? 8) && ((n <? 20) || negb (n mod 10 =? 0))))
   (let step := if n_eff <=? 2 then 5 else 10 in
    let k := n / step in
    if (step =? 10) && negb (n mod 10 =? 0)
    then guard (n mod 5 =? 0) (Ok (add32 k 1))
    else Ok k)).
(** pdc.cpp 195-201 *)
Definition get_N_DRS_subc (u n n_eff occ : N) : res N :=
  do k <- get_nof_DRS_symb u n n_eff ; Ok (mul32 (mul32 n_eff occ / 4) k).
(** pdc.cpp 203-219; constants.hpp 81: 98 PCC cells *)
Definition get_N_PDC_subc (n u n_eff occ : N) : res N :=
  do drs <- get_N_DRS_subc u n n_eff occ ;
  let df := mul32 (get_N_DF_symb u n) occ in
  Ok (if df <=? add32 drs 98 then 0 else sub32 (sub32 df drs) 98).

(** transmission_packet_structure.cpp 56-69 *)
Definition get_N_samples_STF (u b : N) : N :=
  let s := get_N_samples_OFDM_symbol b in
  if u =? 1 then mul32 s 14 / 9
  else if (u =? 2) || (u =? 4) || (u =? 8) then mul32 s 2 else 0.
(** transmission_packet_structure.cpp 71-75 *)
Definition get_N_samples_STF_CP_only (u b : N) : N := sub32 (get_N_samples_STF u b) (mul32 64 b).
(** transmission_packet_structure.cpp 77-79 *)
Definition get_N_samples_DF (u b n : N) : N :=
  mul32 (get_N_samples_OFDM_symbol b) (get_N_DF_symb u n).
(** transmission_packet_structure.cpp 81-96 *)
Definition get_N_samples_GI (u b : N) : N :=
  let s := get_N_samples_OFDM_symbol b in
  if u =? 1 then mul32 s 4 / 9
  else if (u =? 2) || (u =? 4) then s
  else if u =? 8 then mul32 s 2 else 0.

(** transport_block_size.cpp 27-29 *)
Definition get_G (n_ss n_pdc bps : N) : N := mul32 (mul32 n_ss n_pdc) bps.
(** transport_block_size.cpp 31-37 *)
Definition get_N_PDC_bits (n_ss n_pdc bps num den : N) : res N :=
  if den =? 0 then Oob else Ok (mul32 (get_G n_ss n_pdc bps) num / den).
(** transport_block_size.cpp 39-80, from N_PDC_bits on *)
Definition tb_of_bits (bits Z : N) : res N :=
  let m := if bits <=? 512 then 8 else if bits <=? 1024 then 16 else if bits <=? 2048 then 32 else 64 in
  let nm := mul32 (bits / m) m in
  if nm =? 0 then Ok 0
  else if nm <=? 24 then Ok 0
  else if nm <=? Z then Ok (sub32 nm 24)
  else do c <- ceil_divide_integer 32 (sub32 nm 24) Z ; Ok (sub32 nm (mul32 (add32 c 1) 24)).
(** transport_block_size.cpp 39-80 *)
Definition get_N_TB_bits (n_ss n_pdc bps num den Z : N) : res N :=
  do bits <- get_N_PDC_bits n_ss n_pdc bps num den ; tb_of_bits bits Z.

(** cbsegm.cpp 34-46 *)
Definition tc_cb_sizes : list N :=
  [ 40;   48;   56;   64;   72;   80;   88;   96;   104;  112;  120;  128;  136;  144;  152;  160;
    168;  176;  184;  192;  200;  208;  216;  224;  232;  240;  248;  256;  264;  272;  280;  288;
    296;  304;  312;  320;  328;  336;  344;  352;  360;  368;  376;  384;  392;  400;  408;  416;
    424;  432;  440;  448;  456;  464;  472;  480;  488;  496;  504;  512;  528;  544;  560;  576;
    592;  608;  624;  640;  656;  672;  688;  704;  720;  736;  752;  768;  784;  800;  816;  832;
    848;  864;  880;  896;  912;  928;  944;  960;  976;  992;  1008; 1024; 1056; 1088; 1120; 1152;
    1184; 1216; 1248; 1280; 1312; 1344; 1376; 1408; 1440; 1472; 1504; 1536; 1568; 1600; 1632; 1664;
    1696; 1728; 1760; 1792; 1824; 1856; 1888; 1920; 1952; 1984; 2016; 2048; 2112; 2176; 2240; 2304;
    2368; 2432; 2496; 2560; 2624; 2688; 2752; 2816; 2880; 2944; 3008; 3072; 3136; 3200; 3264; 3328;
    3392; 3456; 3520; 3584; 3648; 3712; 3776; 3840; 3904; 3968; 4032; 4096; 4160; 4224; 4288; 4352;
    4416; 4480; 4544; 4608; 4672; 4736; 4800; 4864; 4928; 4992; 5056; 5120; 5184; 5248; 5312; 5376;
    5440; 5504; 5568; 5632; 5696; 5760; 5824; 5888; 5952; 6016; 6080; 6144 ].

(** cbsegm.cpp 125-136: [None] is SRSRAN_ERROR *)
Fixpoint cbindex_from (l : list N) (j : nat) (long_cb : N) : option nat :=
  match l with
  | [] => None
  | h :: t => if h <? long_cb then cbindex_from t (S j) long_cb else Some j
  end.
Definition cbindex (long_cb : N) : option nat := cbindex_from tc_cb_sizes 0 long_cb.
(** cbsegm.cpp 138-144 *)
Definition cbsize (j : nat) : option N := nth_error tc_cb_sizes j.

(** cbsegm.cpp 55-63. SRSRAN_CEIL of srsRAN is (NUM + (DEN - 1)) / DEN. *)
Definition cb_size (B Z : N) : res (N * N) :=
  if B <=? Z then Ok (1, B)
  else
    let d := sub32 Z 24 in
    if d =? 0 then Oob
    else let c := add32 B (sub32 d 1) / d in Ok (c, add32 B (mul32 24 c)).

(** srsran_cbsegm_t, the fields set by cbsegm.cpp 65-123 other than the constants and the indices *)
Record segm := mkSegm { sg_C : N; sg_C1 : N; sg_K1 : N; sg_C2 : N; sg_K2 : N; sg_F : N; sg_tbs : N }.
(** cbsegm.cpp 65-123; the inner [None] is SRSRAN_ERROR *)
Definition cbsegm (tbs Z : N) : res (option segm) :=
  if tbs =? 0 then Ok (Some (mkSegm 0 0 0 0 0 0 0))
  else
    do p <- cb_size (add32 tbs 24) Z ;
    let '(c, bp) := p in
    if c =? 0 then Oob
    else
      match cbindex (add32 (sub32 bp 1 / c) 1) with
      | None => Ok None
      | Some i =>
          match cbsize i, cbsize (i - 1) with
          | Some k1, Some k2 =>
              if c =? 1
              then Ok (Some (mkSegm c 1 k1 0 0 (sub32 (add32 (mul32 1 k1) (mul32 0 0)) bp) tbs))
              else
                let d := sub32 k1 k2 in
                if d =? 0 then Oob
                else
                  let c2 := sub32 (mul32 c k1) bp / d in
                  let c1 := sub32 c c2 in
                  Ok (Some (mkSegm c c1 k1 c2 k2 (sub32 (add32 (mul32 c1 k1) (mul32 c2 k2)) bp) tbs))
          | _, _ => Ok None
          end
      end.

(** packet_sizes.hpp 35-63 *)
Record packet_sizes := mkSizes {
  q_psdef : psdef; q_numerology : numerology; q_mcs : mcs_t; q_tm : tm_t;
  q_N_PACKET_symb : N; q_N_PDC_subc : N; q_G : N; q_N_PDC_bits : N; q_N_TB_bits : N; q_N_TB_byte : N;
  q_C : N; q_N_DF_symb : N; q_N_DRS_subc : N;
  q_OFDM_symbol : N; q_STF : N; q_STF_CP_only : N; q_DF : N; q_GI : N; q_packet_no_GI : N; q_packet : N }.

(** packet_sizes.cpp 97-227 *)
Definition get_packet_sizes (d : psdef) : res (option packet_sizes) :=
  let u := d_u d in
  let b := d_b d in
  guard (has_single_bit u && (u <=? 8))
  (guard ((has_single_bit b && (b <=? 16)) || (b =? 12))
  (guard (d_type d <=? 1)
  (guard ((0 <? d_length d) && (d_length d <=? 16))
  (guard (d_tm d <=? 11)
  (guard (d_mcs d <=? 11)
  (guard ((d_Z d =? 2048) || (d_Z d =? 6144))
  (do nu <- get_numerologies u b ;
   do n <- get_N_PACKET_symb (d_type d) (d_length d) (N_SLOT_u_symb nu) (N_SLOT_u_subslot nu) ;
   guard ((5 <=? n) && (n <=? 1280) && (n mod 5 =? 0))
   (do tm <- get_tm_mode (d_tm d) ;
    let e := N_eff_TX tm in
    if (e =? 4) && (n <? 15) then Ok None
    else if (u =? 8) && (e =? 8) && ((n <? 20) || negb (n mod 10 =? 0)) then Ok None
    else
      do pdc <- get_N_PDC_subc n u e (N_b_OCC nu) ;
      if pdc =? 0 then Ok None
      else
        do mc <- get_mcs (d_mcs d) ;
        do tb <- get_N_TB_bits (N_SS tm) pdc (N_bps mc) (R_num mc) (R_den mc) (d_Z d) ;
        if tb =? 0 then Ok None
        else
          do bits <- get_N_PDC_bits (N_SS tm) pdc (N_bps mc) (R_num mc) (R_den mc) ;
          do byte <- ceil_divide_integer 32 tb 8 ;
          do sg <- cbsegm tb (d_Z d) ;
          match sg with
          | None => Abort
          | Some sg =>
              if 0 <? sg_F sg then Ok None
              else
                do drs <- get_N_DRS_subc u n e (N_b_OCC nu) ;
                let stf := get_N_samples_STF u b in
                let df := get_N_samples_DF u b n in
                let gi := get_N_samples_GI u b in
                let nogi := add32 stf df in
                let all := add32 nogi gi in
                guard (all =? add32 (add32 (add32 (get_N_samples_STF_CP_only u b) (mul32 64 b)) df) gi)
                (guard (all =? mul32 (get_N_samples_OFDM_symbol b) n)
                 (Ok (Some (mkSizes d nu mc tm n pdc (get_G (N_SS tm) pdc (N_bps mc)) bits tb byte
                                    (sg_C sg) (get_N_DF_symb u n) drs (get_N_samples_OFDM_symbol b)
                                    stf (get_N_samples_STF_CP_only u b) df gi nogi all))))
          end)))))))).

(** radio_device_class.hpp; only the fields the packet sizes depend on *)
Record rdc := mkRdc { r_u : N; r_b : N; r_N_TX : N; r_mcs : N; r_Z : N; r_PacketLength : N }.
(** radio_device_class.cpp 158-171, the assertions on the modelled fields *)
Definition rdc_checked (c : rdc) : bool :=
  (has_single_bit (r_u c) && (r_u c <=? 8)) &&
  ((has_single_bit (r_b c) && (r_b c <=? 16)) || (r_b c =? 12)) &&
  (has_single_bit (r_N_TX c) && (r_N_TX c <=? 8)) && (r_mcs c <=? 11) &&
  ((r_Z c =? 2048) || (r_Z c =? 6144)) && ((1 <=? r_PacketLength c) && (r_PacketLength c <=? 16)).
(** radio_device_class.cpp 33-135: the eight built-in classes *)
Definition rdc_1_1_1_A : rdc := mkRdc 1 1 1 7 2048 4.
Definition rdc_1_1_1_B : rdc := mkRdc 1 1 1 7 6144 4.
Definition rdc_8_1_1_A : rdc := mkRdc 8 1 1 7 6144 4.
Definition rdc_1_8_1_A : rdc := mkRdc 1 8 1 7 6144 4.
Definition rdc_2_12_4_A : rdc := mkRdc 2 12 4 7 2048 4.
Definition rdc_2_12_4_B : rdc := mkRdc 2 12 4 7 6144 4.
Definition rdc_8_12_8_A : rdc := mkRdc 8 12 8 9 6144 16.
Definition rdc_8_16_8_A : rdc := mkRdc 8 16 8 9 6144 16.
Definition builtin_classes : list rdc :=
  [ rdc_1_1_1_A; rdc_1_1_1_B; rdc_8_1_1_A; rdc_1_8_1_A; rdc_2_12_4_A; rdc_2_12_4_B; rdc_8_12_8_A;
    rdc_8_16_8_A ].

(** packet_sizes.cpp 76-91 *)
Definition covers (q m : packet_sizes) : bool :=
  (q_N_PACKET_symb m <=? q_N_PACKET_symb q) && (q_N_PDC_subc m <=? q_N_PDC_subc q) &&
  (q_G m <=? q_G q) && (q_N_PDC_bits m <=? q_N_PDC_bits q) && (q_N_TB_bits m <=? q_N_TB_bits q) &&
  (q_N_TB_byte m <=? q_N_TB_byte q) && (q_C m <=? q_C q) && (q_N_DF_symb m <=? q_N_DF_symb q) &&
  (q_N_DRS_subc m <=? q_N_DRS_subc q) && (q_OFDM_symbol m <=? q_OFDM_symbol q) &&
  (q_STF m <=? q_STF q) && (q_STF_CP_only m <=? q_STF_CP_only q) && (q_DF m <=? q_DF q) &&
  (q_GI m <=? q_GI q) && (q_packet_no_GI m <=? q_packet_no_GI q) && (q_packet m <=? q_packet q).
(** packet_sizes.cpp 55-92: u_check = 1, 2, 4, ... below u_min; u_min is at most 8, so at most three
    rounds, and [fuel] 4 is enough *)
Fixpoint check_smaller (fuel : nat) (d : psdef) (u_check u_min : N) (q : packet_sizes) : res unit :=
  match fuel with
  | O => Ok tt
  | S fuel =>
      if u_check <? u_min
      then
        do m <- get_packet_sizes (mkPsdef u_check (d_b d) (d_type d) (d_length d) (d_tm d) (d_mcs d) (d_Z d)) ;
        match m with
        | None => Abort
        | Some m => guard (covers q m) (check_smaller fuel d (mul32 u_check 2) u_min q)
        end
      else Ok tt
  end.
(** packet_sizes.cpp 39-95 *)
Definition get_maximum_packet_sizes (c : rdc) : res packet_sizes :=
  do tm <- get_max_tm_mode_index (r_N_TX c) ;
  let d := mkPsdef (r_u c) (r_b c) 1 (r_PacketLength c) tm (r_mcs c) (r_Z c) in
  do q <- get_packet_sizes d ;
  match q with
  | None => Abort
  | Some q => do _ <- check_smaller 4 d 1 (r_u c) q ; Ok q
  end.

(** packet_sizes.cpp 234-250; the products of line 236-244 in uint64_t, the one of line 238 in uint32_t *)
Definition get_N_samples_in_packet_length (q : packet_sizes) (samp_rate : N) : res N :=
  let A := q_packet q in
  let B := mul32 (mul32 (d_u (q_psdef q)) (d_b (q_psdef q))) 1728000 in
  do r <- ceil_divide_integer 64 ((A * samp_rate) mod 2 ^ 64) B ;
  let ret := r mod 4294967296 in
  guard (q_packet q <=? ret) (Ok ret).
