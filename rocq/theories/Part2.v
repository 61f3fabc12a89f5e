(** Tables and reports of part 2 of the standard: sections_part2/radio_device_measurement.cpp, channel_bandwidth.cpp,
    transmitter_power.cpp and operating_bands.cpp. float and double are taken as the rational numbers; a measured value
    may also be minus infinity, the level of no signal at all. Fields that repeat an argument are left out. *)
From Coq Require Import QArith Qround.
From Verif Require Import Base.
Open Scope Z_scope.

(** A measured level in dB or dBm. *)
Inductive level : Type := Fin (q : Q) | MinusInf.

(** static_cast<uint32_t> of a value that is not negative and already floored: undefined behaviour if it does not fit. *)
Definition cast_u32 (z : Z) : res Z := if z <? 2 ^ 32 then Ok z else Oob.

(** radio_device_measurement.cpp 27-44 get_rssi_x_measurement_report: reported value. *)
Definition rssi_report (x : level) : res Z :=
  do v <- match x with
          | MinusInf => Oob
          | Fin q =>
              if negb (Qle_bool q (- 41 # 2)) then Ok 1
              else do f <- cast_u32 (Qfloor ((- (41 # 2) - q) / (1 # 2))) ; Ok ((2 + f) mod 2 ^ 32)
          end ;
  Ok (if 182 <? v then 182 else v).

(** radio_device_measurement.cpp 46-63 get_snr_measurement_report_t: reported value. *)
Definition snr_report (x : level) : res Z :=
  do v <- match x with
          | MinusInf => Ok 1
          | Fin q =>
              if negb (Qle_bool (- 19 # 4) q) then Ok 1
              else do f <- cast_u32 (Qfloor (((19 # 4) + q) / (1 # 4))) ; Ok ((2 + f) mod 2 ^ 32)
          end ;
  Ok (if 201 <? v then 201 else v).

(** channel_bandwidth.cpp 27-60 get_channel_bandwidth: nominal and transmission bandwidth. *)
Definition get_channel_bandwidth (index : Z) : res (Z * Z) :=
  guard ((index =? 1) || (index =? 2) || (index =? 3))
    (let '(nominal, transmission) :=
       match index with
       | 1 => (1728, 1512)
       | 2 => (3456, 3024)
       | _ => (6912, 6048)
       end in
     Ok (nominal * 1000000, transmission * 1000000)).

(** transmitter_power.cpp 27-74 get_maximum_output_power: measurement bandwidth, power in dBm, tolerance in dB. *)
Definition get_maximum_output_power (bandwidth power_class : Z) : res (Z * Z * Z) :=
  guard ((bandwidth =? 1728000) || (bandwidth =? 3456000) || (bandwidth =? 6912000))
    (let m := match bandwidth with
              | 1728000 => 1512000
              | 3456000 => 3024000
              | _ => 6048000
              end in
     guard ((power_class =? 1) || (power_class =? 2) || (power_class =? 3))
       (let p := match power_class with
                 | 1 => 23
                 | 2 => 19
                 | _ => 10
                 end in
        Ok (m, p, 2))).

(** operating_bands.cpp 27-124 get_operating_band: lower and upper end. Ends are written in kHz here, times 1000,
    where the code has MHz, times 1e6. *)
Definition get_operating_band (n : Z) : res (Z * Z) :=
  guard ((1 <=? n) && (n <=? 17))
    (let '(lo, hi) :=
       match n with
       | 1 => (1880000, 1900000)
       | 2 => (1900000, 1920000)
       | 3 => (2400000, 2483500)
       | 4 => (902000, 928000)
       | 5 => (450000, 470000)
       | 6 => (698000, 806000)
       | 7 => (716000, 728000)
       | 8 => (1432000, 1517000)
       | 9 => (1910000, 1930000)
       | 10 => (2010000, 2025000)
       | 11 => (2300000, 2400000)
       | 12 => (2500000, 2620000)
       | 13 => (3300000, 3400000)
       | 14 => (3400000, 3600000)
       | 15 => (3600000, 3700000)
       | 16 => (4800000, 4990000)
       | _ => (5725000, 5875000)
       end in
     Ok (lo * 1000, hi * 1000)).
