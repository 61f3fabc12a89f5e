(** Model of the channel measurement: lib/src/phy/rx/chscan/chscanner.cpp, lib/include/dectnrp/phy/rx/chscan/chscan.hpp, and of the request made by the
    firmware lib/src/upper/chscanner/tfw_chscanner.cpp 74-93.

    Samples have exact rational parts: floating point numbers are such rationals, but the rounding of the operations is left out, and the square root is
    a parameter. The samples are those of one moment, and 64-bit times do not overflow. *)
From Verif Require Import Base RxRing.
From Coq Require Import QArith Qcanon.
Open Scope Z_scope.

Definition C : Type := Qc * Qc.
Definition qz (z : Z) : Qc := Q2Qc (inject_Z z).
(** One product of volk_32fc_x2_conjugate_dot_prod_32fc of a signal with itself; its imaginary part is zero. *)
Definition power (s : C) : Qc := (fst s * fst s + snd s * snd s)%Qc.
Fixpoint qsum (l : list Qc) : Qc := match l with [] => 0%Qc | x :: l => (x + qsum l)%Qc end.
Definition u32 (z : Z) : Z := z mod 4294967296.

(** chscan.hpp: [q_len] is the length of a partial scan in samples, chscanner.cpp 47 (the table of durations is C33). *)
Record request := mkReq { q_end : Z; q_len : Z; q_parts : nat; q_ants : nat }.

(** The dot product of &ant_streams[ant_idx][i] with itself over [k] samples *)
Definition dot (m : list C) (i k : Z) : res Qc :=
  if i + k <=? Z.of_nat (length m) then Ok (qsum (map power (firstn (Z.to_nat k) (skipn (Z.to_nat i) m)))) else Oob.

(** The loops over antennas, chscanner.cpp 110-117 and 120-134 *)
Fixpoint antennas (f : list C -> Qc -> res Qc) (streams : list (list C)) (ids : list nat) (energy : Qc) : res Qc :=
  match ids with
  | [] => Ok energy
  | a :: ids => do m <- rd streams a ; do energy <- f m energy ; antennas f streams ids energy
  end.

(** chscanner.cpp 77-141; [L] is ant_streams_length_samples *)
Definition scan_partial (root : Qc -> Qc) (streams : list (list C)) (L : Z) (nant : nat) (start len : Z) : res Qc :=
  let last := start + len - 1 in
  let A := u32 (Z.rem start L) in
  let B := u32 (Z.rem last L) in
  do energy <-
    (if A <? B
     then antennas (fun m e => do r <- dot m A (u32 (B - A + 1)) ; Ok (e + r)%Qc) streams (seq 0 nant) 0%Qc
     else antennas (fun m e => do r <- dot m A (u32 (L - A)) ; do r' <- dot m 0 (u32 (B + 1)) ; Ok (e + r + r')%Qc) streams (seq 0 nant) 0%Qc) ;
  Ok (root (energy / (qz len * qz (Z.of_nat nant)))%Qc).

(** chscanner.cpp 65-74 *)
Fixpoint parts (root : Qc -> Qc) (streams : list (list C)) (L : Z) (nant : nat) (k : nat) (start len : Z) (avg : Qc) : res (list Qc * Qc) :=
  match k with
  | O => Ok ([], avg)
  | S k =>
      do r <- scan_partial root streams L nant start len ;
      do (rs, avg) <- parts root streams L nant k (start + len) len (avg + r)%Qc ;
      Ok (r :: rs, avg)
  end.

(** chscanner.cpp 38-75; [now] and [now'] are the two values of get_rx_time_passed. The result is rms_vec and rms_avg. *)
Definition scan (root : Qc -> Qc) (streams : list (list C)) (L : Z) (now now' : Z) (r : request) : res (list Qc * Qc) :=
  guard (q_end r <=? now)
  (guard (0 <? q_parts r)%nat
  (guard (0 <? q_ants r)%nat
  (let nant := Nat.min (q_ants r) (length streams) in
   guard (0 <? q_len r)
   (let start := q_end r - (Z.of_nat (q_parts r) * q_len r - 1) in
    guard (start <=? q_end r)
    (guard (q_end r - start <? L)
    (guard (now' - L <=? start)
    (parts root streams L nant (q_parts r) start (q_len r) 0%Qc))))))).

(** tfw_chscanner.cpp 77 and 90: five pieces of one millisecond up to [now], all antennas; [ms] is the number of samples of a millisecond *)
Definition firmware_request (now ms : Z) (ants : nat) : request := mkReq now ms 5 ants.
