(** Where packet sizes are used: the request for a HARQ process, the receiver's reading of a control
    header, and the length of a packet at the sample rate of the hardware. *)
From Verif Require Import Base IntHelpers Duration Plcf PacketSizes.
Open Scope N_scope.

(** sync_report.hpp: the fields the packet configuration is derived from *)
Record sync := mkSync { s_u : N; s_b : N; s_N_eff_TX : N }.

(** plcf_base.hpp, plcf_10.hpp, plcf_20.hpp, plcf_21.hpp: the members of the common base class *)
Definition h_base (h : plcf) : base :=
  match h with P10 p => p10_base p | P20 p => p20_base p | P21 p => p21_base p end.
(** DFMCS of the three headers *)
Definition h_mcs (h : plcf) : N := match h with P10 p => p10_mcs p | P20 p => p20_mcs p | P21 p => p21_mcs p end.
(** plcf_10.hpp 46, plcf_20.cpp 139, plcf_21.cpp 125 *)
Definition h_N_SS (h : plcf) : res N :=
  match h with P10 _ => Ok 1 | P20 p => N_SS_of_code (p20_nss p) | P21 p => N_SS_of_code (p21_nss p) end.

(** rx_synced.cpp 159-162: the decoder of a worker, built from the maximum packet sizes; the headers
    it holds before the first packet are [d10], [d20], [d21] *)
Definition decoder_of_class (m : packet_sizes) (e10 : plcf10) (e20 : plcf20) (e21 : plcf21) : decoder :=
  mkDec (d_length (q_psdef m)) (d_mcs (q_psdef m)) (N_SS (q_tm m)) None None e10 e20 e21.

(** tpoint.cpp 156-170 *)
Definition worksub_psdef (m : packet_sizes) (s : sync) (dec : decoder) (type : N) : res psdef :=
  do h <- get_plcf_base dec type ;
  match h with
  | None => Abort
  | Some h =>
      do nss <- h_N_SS h ;
      do tm <- get_equivalent_tm_mode (s_N_eff_TX s) nss ;
      Ok (mkPsdef (s_u s) (s_b s) (PacketLengthType (h_base h)) (get_PacketLength (h_base h)) tm (h_mcs h) (d_Z (q_psdef m)))
  end.

(** process_pool.cpp 39-67 (transmit) and 69-99 (receive) once a free process is found: the sizes
    stored in it. The transport block buffer holds N_TB_byte of the maximum packet sizes
    (process_tx.cpp 26-33, process_rx.cpp 25-33, buffer.cpp 31-35). The search for a free process is
    modelled in HarqPool.v. *)
Definition get_process (m : packet_sizes) (type : N) (d : psdef) : res packet_sizes :=
  guard ((type =? 1) || (type =? 2))
  (do q <- get_packet_sizes d ;
   match q with
   | None => Abort
   | Some q => guard (q_N_TB_byte q <=? q_N_TB_byte m) (Ok q)
   end).

(** tpoint.cpp 119-141: what the MAC does with a control header it wants to receive the data of *)
Definition worksub_pcc2pdc (m : packet_sizes) (s : sync) (dec : decoder) (type : N) : res packet_sizes :=
  do d <- worksub_psdef m s dec type ; get_process m type d.

(** packet_sizes.cpp 252-258; the sample count is cast to uint32_t, the product is one of uint32_t *)
Definition get_N_samples_in_packet_length_max (m : packet_sizes) (samp_rate : N) : res N :=
  do x <- duration_new samp_rate slot001 1 ; Ok (mul32 (d_length (q_psdef m)) (du_N x mod 4294967296)).
