(** When the datagrams of a stream are due. *)
From Coq Require Import QArith.
Open Scope nat_scope.

(** Exact time in microseconds of datagram [k] (from 0) of a stream that starts with second [sec]. *)
Definition due (period offset : Q) (reps : nat) (sec : Z) (k : nat) : Q :=
  (1000000 * (inject_Z (sec + Z.of_nat (k / reps)) + offset + inject_Z (Z.of_nat (k mod reps)) * period))%Q.

(** The arguments a stream accepts. *)
Definition accepted (period offset : Q) (reps : nat) : Prop :=
  (999 # 1000000 <= period)%Q /\ (0 <= offset)%Q /\ (offset + period <= 1)%Q /\ 1 <= reps /\
  (offset + period * inject_Z (Z.of_nat (reps - 1)) < 1)%Q.
