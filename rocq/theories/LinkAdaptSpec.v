(** What link adaptation promises, in terms of what was received and sent. *)
From Verif Require Import Base Feedback LinkAdapt.
From Coq Require Import QArith.
Open Scope N_scope.

(** The best MCS of a range at a signal-to-noise ratio: the lowest is always allowed, everything above needs its required value, and nothing
    higher would do. *)
Definition best_mcs (lo hi : N) (snr : Q) (m : N) : Prop :=
  lo <= m <= hi /\ (m = lo \/ (required m <= snr)%Q) /\ forall m', m < m' <= hi -> (snr < required m')%Q.

(** The last of a history that [f] picks. *)
Fixpoint last_of {B} (f : op -> option B) (xs : list op) : option B :=
  match xs with
  | [] => None
  | x :: xs => match last_of f xs with Some b => Some b | None => f x end
  end.
(** If it is not older than [life] at time [t]. *)
Definition fresh {B} (life t : Z) (r : option (B * Z)) (fallback : B) : B :=
  match r with Some (b, tr) => if (t - life <=? tr)%Z then b else fallback | None => fallback end.

(** The MCS that contact [k] reports: two octets, format 4 in the upper four bits, the channel quality MCS + 1 in the lower four. *)
Definition mcs_report (k : nat) (x : op) : option (N * Z) :=
  match x with
  | RxPcc k' [b0; b1] t =>
      if (k' =? k)%nat && (b0 / 16 =? 4) && (1 <=? b1 mod 16) && (b1 mod 16 <=? 12) then Some (b1 mod 16 - 1, t) else None
  | _ => None
  end.
(** What was measured on a packet from contact [k]. *)
Definition measured (k : nat) (x : op) : option (Q * Z) :=
  match x with
  | RxPdc k' snr t | RxBeacon k' _ _ snr t => if (k' =? k)%nat then Some (snr, t) else None
  | _ => None
  end.
(** The codebook index suggested for transmissions to contact [k]: by its feedback of format 5 or by the reciprocal channel of its beacon. *)
Definition suggested (k : nat) (x : op) : option (N * Z) :=
  match x with
  | RxPcc k' [b0; b1] t => if (k' =? k)%nat && (b0 / 16 =? 5) then Some (b1 mod 64, t) else None
  | RxBeacon k' _ cbr _ t => if (k' =? k)%nat then Some (cbr, t) else None
  | _ => None
  end.
(** The codebook index measured for transmissions of contact [k]. *)
Definition beamed (k : nat) (x : op) : option (N * Z) :=
  match x with RxBeacon k' cb _ _ t => if (k' =? k)%nat then Some (cb, t) else None | _ => None end.

Definition clamp (lo hi m : N) : N := N.max lo (N.min hi m).

(** How often a packet was sent to contact [k]. *)
Definition sends (k : nat) (x : op) : bool := match x with Tx k' _ Sent => (k' =? k)%nat | _ => false end.
Definition sent_to (k : nat) (xs : list op) : nat := length (filter (sends k) xs).

(** Operations of a device with [n] contacts: two octets received, codebook indices the estimator can find. *)
Definition op_ok (n : nat) (x : op) : Prop :=
  match x with
  | RxPcc k m _ => (k < n)%nat /\ exists b0 b1, m = [b0; b1] /\ b0 < 256 /\ b1 < 256
  | RxPdc k _ _ => (k < n)%nat
  | RxBeacon k cb _ _ _ => (k < n)%nat /\ cb <= 27
  | Tx k _ _ => (k < n)%nat
  end.
Definition plans_ok (plans : list (list N)) : Prop := forall p, In p plans -> p <> [] /\ forall f, In f p -> f = 4 \/ f = 5.
Definition lut_ok (l : lut) : Prop := l_min l <= l_max l <= 11 /\ (0 <= l_off l)%Q.
