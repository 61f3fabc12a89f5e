(** MAC header type and MAC common headers on the wire (ETSI TS 103 636-4, 6.3.2 and 6.3.3). *)
From Verif Require Import Base WireSpec MacHeader.
Open Scope N_scope.

(** Types 0 to 4: data, beacon, unicast, RD broadcast, no common header. *)
Definition mht_ok (h : mht) : Prop := mht_version h = 0 /\ mht_security h <= 3 /\ mht_type h <= 4.
Definition mht_fields (h : mht) : list (N * N) :=
  [(2, mht_version h); (2, mht_security h); (4, mht_type h)].

Definition long_rd_id (x : N) : Prop := 1 <= x < 2 ^ 32.

Definition dh_ok (h : data_header) : Prop := dh_reserved h = 0 /\ dh_reset h <= 1 /\ dh_seq h <= 4095.
Definition dh_fields (h : data_header) : list (N * N) :=
  [(3, dh_reserved h); (1, dh_reset h); (12, dh_seq h)].

Definition uh_ok (h : unicast_header) : Prop := dh_ok (uh_seq h) /\ long_rd_id (uh_rx h) /\ long_rd_id (uh_tx h).
Definition uh_fields (h : unicast_header) : list (N * N) :=
  dh_fields (uh_seq h) ++ [(32, uh_rx h); (32, uh_tx h)].

Definition rh_ok (h : rdb_header) : Prop := dh_ok (rh_seq h) /\ long_rd_id (rh_tx h).
Definition rh_fields (h : rdb_header) : list (N * N) := dh_fields (rh_seq h) ++ [(32, rh_tx h)].

Definition bh_ok (h : beacon_header) : Prop := bh_netid h < 2 ^ 24 /\ long_rd_id (bh_tx h).
(** Figure 6.3.3.2-1: 24 bits network ID, 32 bits transmitter address. *)
Definition bh_standard_fields (h : beacon_header) : list (N * N) := [(24, bh_netid h); (32, bh_tx h)].
(** What the implementation writes: a zero byte, then the upper 16 of the 24 bits. *)
Definition bh_actual_fields (h : beacon_header) : list (N * N) :=
  [(8, 0); (16, bh_netid h / 256); (32, bh_tx h)].

Definition mch_ok (h : mch) : Prop :=
  match h with
  | MchData h => dh_ok h | MchBeacon h => bh_ok h | MchUnicast h => uh_ok h | MchRdb h => rh_ok h | MchEmpty => True
  end.
Definition mch_actual_fields (h : mch) : list (N * N) :=
  match h with
  | MchData h => dh_fields h | MchBeacon h => bh_actual_fields h | MchUnicast h => uh_fields h
  | MchRdb h => rh_fields h | MchEmpty => []
  end.
