(** What a control header says about its packet, and the length of a packet in time. *)
From Verif Require Import Base Plcf PacketSizes PacketSizesSpec PacketUse.
Open Scope N_scope.

(** Spatial streams announced by a header. *)
Definition announced (h : plcf) : N := match h with P10 _ => 1 | P20 p => 2 ^ p20_nss p | P21 p => 2 ^ p21_nss p end.
(** The packet that a header together with the synchronization report describes. *)
Definition described (s : sync) (h : plcf) (Z : N) (d : psdef) : Prop :=
  d_u d = s_u s /\ d_b d = s_b s /\ d_type d = PacketLengthType (h_base h) /\
  d_length d = PacketLength_m1 (h_base h) + 1 /\ d_mcs d = h_mcs h /\ d_Z d = Z /\
  eff_antennas (d_tm d) = s_N_eff_TX s /\
  streams (d_tm d) = (if announced h =? 1 then 1 else s_N_eff_TX s).
(** A synchronization report a device of the class can produce. *)
Definition report_ok (c : rdc) (s : sync) : Prop :=
  In (s_u s) [1; 2; 4; 8] /\ s_u s <= r_u c /\ In (s_b s) [1; 2; 4; 8; 12; 16] /\ s_b s <= r_b c /\
  In (s_N_eff_TX s) [1; 2; 4; 8] /\ s_N_eff_TX s <= r_N_TX c.

(** [n] is the least number of samples at [rate] samples per second that lasts as long as the packet:
    a symbol lasts 1/24000 s divided by the subcarrier scaling factor. *)
Definition lasts (d : psdef) (rate n : N) : Prop :=
  0 < n /\ symbols d * rate <= n * (24000 * d_u d) /\ (n - 1) * (24000 * d_u d) < symbols d * rate.
