(** What the sizes of a packet should be, independent of how the code derives them
    (ETSI TS 103 636-3, clauses 4.5, 5.1, 5.2, 5.3, 6.1.3 and Annex A). *)
From Verif Require Import Base PacketSizes.
Open Scope N_scope.

(** A packet configuration the library supports. *)
Definition supported (d : psdef) : Prop :=
  In (d_u d) [1; 2; 4; 8] /\ In (d_b d) [1; 2; 4; 8; 12; 16] /\ d_type d <= 1 /\
  1 <= d_length d <= 16 /\ d_tm d <= 11 /\ d_mcs d <= 11 /\ In (d_Z d) [2048; 6144].

(** Transmission modes 0..11: effective transmit antennas and spatial streams. *)
Definition eff_antennas (tm : N) : N := nth (N.to_nat tm) [1; 2; 2; 1; 2; 4; 4; 1; 2; 4; 8; 8] 0.
Definition streams (tm : N) : N := nth (N.to_nat tm) [1; 1; 2; 1; 2; 1; 4; 1; 2; 4; 1; 8] 0.
(** MCS 0..11: bits per cell, numerator and denominator of the code rate. *)
Definition bits_per_cell (mcs : N) : N := nth (N.to_nat mcs) [1; 2; 2; 4; 4; 6; 6; 6; 8; 8; 10; 10] 0.
Definition rate_num (mcs : N) : N := nth (N.to_nat mcs) [1; 1; 3; 1; 3; 2; 3; 5; 3; 5; 3; 5] 0.
Definition rate_den (mcs : N) : N := nth (N.to_nat mcs) [2; 2; 4; 2; 4; 3; 4; 6; 4; 6; 4; 6] 0.

(** OFDM symbols of the packet: a subslot has 5, a slot 10 times the subcarrier scaling factor. *)
Definition symbols (d : psdef) : N := if d_type d =? 0 then 5 * d_length d else 10 * d_u d * d_length d.
(** Symbol durations taken by the synchronization field and the guard interval together. *)
Definition overhead (u : N) : N := if u =? 1 then 2 else if u =? 8 then 4 else 3.
(** Symbols of one stream that carry reference cells: every 5th, with 4 or 8 antennas every 10th. *)
Definition reference_symbols (d : psdef) : N :=
  if eff_antennas (d_tm d) <=? 2 then symbols d / 5 else (symbols d + 5) / 10.
Definition reference_cells (d : psdef) : N := eff_antennas (d_tm d) * (14 * d_b d) * reference_symbols d.
(** Cells of the data field left for data; negative if the packet is too short. *)
Definition data_cells (d : psdef) : Z :=
  (Z.of_N ((symbols d - overhead (d_u d)) * (56 * d_b d)) - Z.of_N (reference_cells d) - 98)%Z.
(** Information bits (with checksums) that fit at the code rate. *)
Definition budget (d : psdef) : N :=
  streams (d_tm d) * Z.to_N (data_cells d) * bits_per_cell (d_mcs d) * rate_num (d_mcs d) / rate_den (d_mcs d).

(** The packet has room for the reference symbols of all streams ... *)
Definition room_for_reference (d : psdef) : Prop :=
  ~ (eff_antennas (d_tm d) = 4 /\ symbols d < 15) /\
  ~ (d_u d = 8 /\ eff_antennas (d_tm d) = 8 /\ (symbols d < 20 \/ symbols d mod 10 <> 0)).
(** ... and for the smallest codeword of the turbo code. *)
Definition possible (d : psdef) : Prop := room_for_reference d /\ 40 <= budget d.

(** Codeword lengths of the turbo code interleaver. *)
Definition turbo_size (x : N) : Prop :=
  (40 <= x <= 512 /\ x mod 8 = 0) \/ (512 < x <= 1024 /\ x mod 16 = 0) \/
  (1024 < x <= 2048 /\ x mod 32 = 0) \/ (2048 < x <= 6144 /\ x mod 64 = 0).
Definition sum (l : list N) : N := fold_right N.add 0 l.
(** Checksums: 24 bits for the transport block, and 24 for each code block if there are several. *)
Definition checksum_bits (blocks : list N) : N :=
  match blocks with [_] => 24 | _ => 24 + 24 * N.of_nat (length blocks) end.
(** [blocks] carry exactly a transport block of [tb] bits and its checksums: no filler bits. *)
Definition segmentation (tb Z : N) (blocks : list N) : Prop :=
  blocks <> [] /\ Forall (fun k => turbo_size k /\ k <= Z) blocks /\ sum blocks = tb + checksum_bits blocks.

(** The announced sizes of a packet agree with each other and with the configuration. *)
Definition consistent (d : psdef) (q : packet_sizes) : Prop :=
  q_psdef q = d /\
  q_N_PACKET_symb q = symbols d /\
  q_N_DF_symb q + overhead (d_u d) = symbols d /\
  q_N_DRS_subc q = reference_cells d /\
  (* every cell of the data field is a reference, control or data cell *)
  q_N_DF_symb q * (56 * d_b d) = q_N_DRS_subc q + 98 + q_N_PDC_subc q /\
  0 < q_N_PDC_subc q /\
  (* bits *)
  q_G q = streams (d_tm d) * q_N_PDC_subc q * bits_per_cell (d_mcs d) /\
  q_N_PDC_bits q = q_G q * rate_num (d_mcs d) / rate_den (d_mcs d) /\
  0 < q_N_TB_bits q /\ q_N_TB_bits q = 8 * q_N_TB_byte q /\
  (exists blocks, segmentation (q_N_TB_bits q) (d_Z d) blocks /\ q_C q = N.of_nat (length blocks) /\
     sum blocks <= q_N_PDC_bits q < sum blocks + 64) /\
  (* samples *)
  q_OFDM_symbol q = 72 * d_b d /\
  q_STF q = (if d_u d =? 1 then 112 * d_b d else 144 * d_b d) /\
  q_STF q = q_STF_CP_only q + 64 * d_b d /\
  q_DF q = q_N_DF_symb q * q_OFDM_symbol q /\
  q_packet_no_GI q = q_STF q + q_DF q /\
  q_packet q = q_STF q + q_DF q + q_GI q /\
  q_packet q = q_N_PACKET_symb q * q_OFDM_symbol q.

(** ** Radio device classes *)
(** The parameters a class file may hold; everything else is refused when it is read. *)
Definition class_ok (c : rdc) : Prop :=
  In (r_u c) [1; 2; 4; 8] /\ In (r_b c) [1; 2; 4; 8; 12; 16] /\ In (r_N_TX c) [1; 2; 4; 8] /\ r_mcs c <= 11 /\
  In (r_Z c) [2048; 6144] /\ 1 <= r_PacketLength c <= 16.
(** A packet a device of the class may send or receive. *)
Definition within (c : rdc) (d : psdef) : Prop :=
  supported d /\ d_u d <= r_u c /\ d_b d <= r_b c /\ eff_antennas (d_tm d) <= r_N_TX c /\
  d_mcs d <= r_mcs c /\ d_Z d = r_Z c /\ d_length d <= r_PacketLength c.
(** No buffer laid out for [m] is too small for [q]. *)
Definition fits (q m : packet_sizes) : Prop :=
  q_N_PACKET_symb q <= q_N_PACKET_symb m /\ q_N_DF_symb q <= q_N_DF_symb m /\
  q_G q <= q_G m /\ q_N_PDC_bits q <= q_N_PDC_bits m /\ q_N_TB_bits q <= q_N_TB_bits m /\
  q_N_TB_byte q <= q_N_TB_byte m /\ q_C q <= q_C m /\
  q_OFDM_symbol q <= q_OFDM_symbol m /\ q_STF q <= q_STF m /\ q_STF_CP_only q <= q_STF_CP_only m /\
  q_DF q <= q_DF m /\ q_GI q <= q_GI m /\ q_packet_no_GI q <= q_packet_no_GI m /\ q_packet q <= q_packet m.
