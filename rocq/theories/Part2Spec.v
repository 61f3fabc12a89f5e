(** What the reported values of part 2 stand for. *)
From Coq Require Import QArith.
Open Scope Z_scope.

(** Levels in dBm that are reported with value [v] (1 to 182): steps of half a dB downwards from -20.5 dBm. *)
Definition rssi_means (v : Z) (x : Q) : Prop :=
  (v = 1 /\ (- 41 # 2 < x)%Q) \/
  (2 <= v <= 181 /\ (- (41 # 2) - inject_Z (v - 1) / 2 < x <= - (41 # 2) - inject_Z (v - 2) / 2)%Q) \/
  (v = 182 /\ (x <= - (221 # 2))%Q).

(** Ratios in dB that are reported with value [v] (1 to 201): steps of a quarter dB upwards from -4.75 dB. *)
Definition snr_means (v : Z) (x : Q) : Prop :=
  (v = 1 /\ (x < - 19 # 4)%Q) \/
  (2 <= v <= 200 /\ (- (19 # 4) + inject_Z (v - 2) / 4 <= x < - (19 # 4) + inject_Z (v - 1) / 4)%Q) \/
  (v = 201 /\ (45 <= x)%Q).

(** The operating bands in tenths of MHz. *)
Definition bands : list (Z * Z) :=
  ((18800, 19000) :: (19000, 19200) :: (24000, 24835) :: (9020, 9280) :: (4500, 4700) :: (6980, 8060) :: (7160, 7280) ::
   (14320, 15170) :: (19100, 19300) :: (20100, 20250) :: (23000, 24000) :: (25000, 26200) :: (33000, 34000) ::
   (34000, 36000) :: (36000, 37000) :: (48000, 49900) :: (57250, 58750) :: nil)%list.
