(** The estimator of the signal-to-noise ratio: phy/rx/rx_synced/snr/estimator_snr.cpp. float is taken as the rational
    numbers; an estimate is given as the ratio whose decibels are returned (0 dB is the ratio 1, and a ratio that is not
    positive has no decibels: log10 gives NaN or minus infinity). Counters do not overflow. *)
From Coq Require Import QArith.
From Verif Require Import Base.
Open Scope nat_scope.

Definition cplx : Type := Q * Q.

(** volk_32fc_x2_conjugate_dot_prod_32fc of a vector with itself, real part. *)
Fixpoint self_dot (l : list cplx) : Q :=
  match l with
  | [] => 0
  | z :: l' => fst z * fst z + snd z * snd z + self_dot l'
  end.

(** volk_32f_x2_subtract_32f of a vector and itself from the second value on (estimator_snr.cpp 131-134). *)
Fixpoint pairwise (l : list cplx) : list cplx :=
  match l with
  | a :: l' => match l' with
               | b :: _ => ((fst a - fst b)%Q, (snd a - snd b)%Q) :: pairwise l'
               | [] => []
               end
  | [] => []
  end.

(** estimator_snr.hpp 53-70 snr_acc_t with operator+= *)
Record acc : Type := mkAcc { S_plus_N_sum : Q; S_plus_N_cnt : nat; N_sum : Q; N_cnt : nat }.
Definition acc_add (a b : acc) : acc :=
  mkAcc (S_plus_N_sum a + S_plus_N_sum b) (S_plus_N_cnt a + S_plus_N_cnt b) (N_sum a + N_sum b) (N_cnt a + N_cnt b).

(** estimator_snr.cpp 104-144 process_stf_or_drs_packed *)
Definition packed (l : list cplx) : acc :=
  mkAcc (self_dot l) (length l) (self_dot (pairwise l) / 2) (length l - 1).

(** estimator_snr.hpp 70, estimator.hpp 57-58: accumulator and number of pilots (the same for STF and DRS,
    estimator.cpp 41). *)
Record est : Type := mkEst { pilots : nat; snr_acc : acc }.

(** estimator.cpp 30-45 reset and estimator_snr.cpp 96-102 reset_internal; constants.hpp: 14 pilots for b = 1. *)
Definition reset (b : nat) : est := mkEst (b * 14) (mkAcc 0 0 0 0).

(** The channel estimates of one antenna: transmit stream and pilot. *)
Definition antenna : Type := nat -> nat -> cplx.
Definition chestim (n : nat) (a : antenna) (ts : nat) : list cplx := map (a ts) (seq 0 n).

(** estimator_snr.cpp 48-66 process_stf *)
Definition process_stf (e : est) (ants : list antenna) : res est :=
  guard (S_plus_N_cnt (snr_acc e) =? 0)
  (guard (N_cnt (snr_acc e) =? 0)
    (let a := fold_left (fun x ant => acc_add x (packed (chestim (pilots e) ant 0))) ants (snr_acc e) in
     let S := (S_plus_N_sum a - N_sum a)%Q in
     Ok (mkEst (pilots e) (mkAcc (S / 4 + N_sum a) (S_plus_N_cnt a) (N_sum a) (N_cnt a))))).

(** estimator_snr.cpp 68-82 process_drs; RX_SYNCED_PARAM_SNR_BASED_ON_DRS_N_TS_MAX is 8. *)
Definition process_drs (e : est) (ants : list antenna) (first last : nat) : est :=
  let A := Nat.min last (8 - 1) in
  mkEst (pilots e)
    (fold_left (fun x ant =>
       fold_left (fun y ts => acc_add y (packed (chestim (pilots e) ant ts))) (seq first (A + 1 - first)) x)
     ants (snr_acc e)).

(** estimator_snr.cpp 84-94 get_current_snr_dB_estimation: the ratio *)
Definition estimate (e : est) : Q :=
  let a := snr_acc e in
  if Qle_bool (S_plus_N_sum a) 0 || Qle_bool (N_sum a) 0 then 1
  else let S_avg := ((S_plus_N_sum a - N_sum a) / inject_Z (Z.of_nat (S_plus_N_cnt a)))%Q in
       let N_avg := (N_sum a / inject_Z (Z.of_nat (N_cnt a)))%Q in
       (S_avg / N_avg)%Q.

(** What is received after a reset: the STF and then DRS symbols (rx_synced.cpp 613, 856). *)
Inductive ev : Type :=
| Stf (ants : list antenna)
| Drs (ants : list antenna) (first last : nat).
Definition step (e : est) (x : ev) : res est :=
  match x with
  | Stf ants => process_stf e ants
  | Drs ants f l => Ok (process_drs e ants f l)
  end.
Fixpoint run (e : est) (h : list ev) : res est :=
  match h with
  | [] => Ok e
  | x :: h' => do e1 <- step e x ; run e1 h'
  end.
