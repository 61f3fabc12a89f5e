(** What a channel measurement means, in terms of the numbered samples the hardware delivered (RxRingSpec). *)
From Verif Require Import Base RxRing RxRingSpec Chscan.
From Coq Require Import QArith Qcanon.
Open Scope Z_scope.

(** Power of sample number [t] of antenna [a]. *)
Definition power_at (from : Z) (good : list (block C)) (a : nat) (t : Z) : Qc :=
  match sample_at from good a t with Some s => power s | None => 0%Qc end.

(** Energy of [n] consecutive samples from number [t] on, of [ants] antennas. *)
Definition energy (from : Z) (good : list (block C)) (ants : nat) (t : Z) (n : nat) : Qc :=
  qsum (map (fun a => qsum (map (fun i => power_at from good a (t + Z.of_nat i)) (seq 0 n))) (seq 0 ants)).

(** Mean power per sample and antenna. *)
Definition mean_power (from : Z) (good : list (block C)) (ants : nat) (t : Z) (n : nat) : Qc :=
  (energy from good ants t n / (qz (Z.of_nat n) * qz (Z.of_nat ants)))%Qc.

(** Number of the first sample of piece [i]: the pieces are consecutive and the last one ends with sample [q_end]. *)
Definition piece_start (r : request) (i : nat) : Z := q_end r + 1 - Z.of_nat (q_parts r - i) * q_len r.

(** A request that makes sense: at least one piece and one antenna, pieces of at least two samples, not longer than the buffer altogether. *)
Definition sensible (L : Z) (r : request) : Prop :=
  (0 < q_parts r)%nat /\ (0 < q_ants r)%nat /\ 2 <= q_len r /\ Z.of_nat (q_parts r) * q_len r <= L.
