(** The PLCF headers on the wire (ETSI TS 103 636-4, 6.2.1): which headers may be sent, and the bit
    fields they consist of. *)
From Verif Require Import Base WireSpec Feedback FeedbackSpec Plcf.
Open Scope N_scope.

Definition short_network_id (x : N) : Prop := 1 <= x <= 255.
Definition short_rd_id (x : N) : Prop := 1 <= x <= 65535.

Definition base_ok (hf : N) (b : base) : Prop :=
  HeaderFormat b = hf /\ PacketLengthType b <= 1 /\ PacketLength_m1 b <= 15.

Definition p10_ok (p : plcf10) : Prop :=
  base_ok 0 (p10_base p) /\ short_network_id (p10_snid p) /\ short_rd_id (p10_tx p) /\
  p10_power p <= 15 /\ p10_reserved p = 0 /\ p10_mcs p <= 7.
Definition p20_ok (p : plcf20) : Prop :=
  base_ok 0 (p20_base p) /\ short_network_id (p20_snid p) /\ short_rd_id (p20_tx p) /\
  p20_power p <= 15 /\ p20_mcs p <= 11 /\ short_rd_id (p20_rx p) /\ p20_nss p <= 3 /\ p20_rv p <= 3 /\
  p20_ndi p <= 1 /\ p20_harq p <= 7 /\ fb_ok (fb_view (p20_ff p) (p20_pool p)).
Definition p21_ok (p : plcf21) : Prop :=
  base_ok 1 (p21_base p) /\ short_network_id (p21_snid p) /\ short_rd_id (p21_tx p) /\
  p21_power p <= 15 /\ p21_mcs p <= 11 /\ short_rd_id (p21_rx p) /\ p21_nss p <= 3 /\
  p21_reserved p = 0 /\ fb_ok (fb_view (p21_ff p) (p21_pool p)).

Definition base_fields (b : base) : list (N * N) :=
  [(3, HeaderFormat b); (1, PacketLengthType b); (4, PacketLength_m1 b)].
Definition p10_fields (p : plcf10) : list (N * N) :=
  base_fields (p10_base p) ++
  [(8, p10_snid p); (16, p10_tx p); (4, p10_power p); (1, 0); (3, p10_mcs p)].
Definition p20_fields (p : plcf20) (level : N) : list (N * N) :=
  base_fields (p20_base p) ++
  [(8, p20_snid p); (16, p20_tx p); (4, p20_power p); (4, p20_mcs p); (16, p20_rx p);
   (2, p20_nss p); (2, p20_rv p); (1, p20_ndi p); (3, p20_harq p); (4, p20_ff p)] ++
  fb_fields (fb_view (p20_ff p) (p20_pool p)) level.
Definition p21_fields (p : plcf21) (level : N) : list (N * N) :=
  base_fields (p21_base p) ++
  [(8, p21_snid p); (16, p21_tx p); (4, p21_power p); (4, p21_mcs p); (16, p21_rx p);
   (2, p21_nss p); (6, 0); (4, p21_ff p)] ++
  fb_fields (fb_view (p21_ff p) (p21_pool p)) level.

(** Two type 2 headers that differ at most in feedback: the same but for what the receiver holds for
    feedback formats it was not sent, and for the buffer size, which arrives as [size]. *)
Definition p20_arrives (p p' : plcf20) (size : N) : Prop :=
  p20_base p' = p20_base p /\ p20_snid p' = p20_snid p /\ p20_tx p' = p20_tx p /\
  p20_power p' = p20_power p /\ p20_mcs p' = p20_mcs p /\ p20_rx p' = p20_rx p /\
  p20_nss p' = p20_nss p /\ p20_rv p' = p20_rv p /\ p20_ndi p' = p20_ndi p /\
  p20_harq p' = p20_harq p /\ p20_ff p' = p20_ff p /\
  fb_view (p20_ff p) (p20_pool p') = with_buf (fb_view (p20_ff p) (p20_pool p)) size.
Definition p21_arrives (p p' : plcf21) (size : N) : Prop :=
  p21_base p' = p21_base p /\ p21_snid p' = p21_snid p /\ p21_tx p' = p21_tx p /\
  p21_power p' = p21_power p /\ p21_mcs p' = p21_mcs p /\ p21_rx p' = p21_rx p /\
  p21_nss p' = p21_nss p /\ p21_reserved p' = p21_reserved p /\ p21_ff p' = p21_ff p /\
  fb_view (p21_ff p) (p21_pool p') = with_buf (fb_view (p21_ff p) (p21_pool p)) size.

(** Received bytes [m] encode header [p] and the header stays inside the radio device class of the
    decoder. The number of spatial streams is 2 to the power of its code. *)
Definition accepts10 (d : decoder) (m : list N) (p : plcf10) : Prop :=
  p10_ok p /\ spells 5 m (p10_fields p) /\
  PacketLength_m1 (p10_base p) + 1 <= PacketLength_max d /\ p10_mcs p <= mcs_index_max d /\
  1 <= N_SS_max d.
Definition accepts20 (d : decoder) (m : list N) (p : plcf20) (level : N) : Prop :=
  p20_ok p /\ spells 10 m (p20_fields p level) /\ level <= 15 /\
  PacketLength_m1 (p20_base p) + 1 <= PacketLength_max d /\ p20_mcs p <= mcs_index_max d /\
  2 ^ p20_nss p <= N_SS_max d.
Definition accepts21 (d : decoder) (m : list N) (p : plcf21) (level : N) : Prop :=
  p21_ok p /\ spells 10 m (p21_fields p level) /\ level <= 15 /\
  PacketLength_m1 (p21_base p) + 1 <= PacketLength_max d /\ p21_mcs p <= mcs_index_max d /\
  2 ^ p21_nss p <= N_SS_max d.
