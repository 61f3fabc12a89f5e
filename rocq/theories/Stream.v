(** Streams of datagrams with a period: apps/stream.cpp. double is taken as the rational numbers; int64_t does not
    overflow. The identifier and the statistics are left out. *)
From Coq Require Import QArith Qround.
From Verif Require Import Base.
Open Scope nat_scope.

(** stream.hpp 35, 49-57 *)
Definition mega : Z := 1000000.
Record stream : Type := mkStream {
  period_sec : Q;
  offset_sec : Q;
  repetitions : nat;
  repetitions_cnt : nat;
  full_sec_cnt : Z
}.

(** static_cast<double> of a counter *)
Definition Qn (n : nat) : Q := inject_Z (Z.of_nat n).

Definition Qltb (a b : Q) : bool := negb (Qle_bool b a).

(** stream.cpp 29-44 constructor *)
Definition make (period offset : Q) (reps : nat) : res stream :=
  guard (Qle_bool (999 # 1000000) period)
  (guard (Qle_bool 0 offset)
  (guard (Qle_bool offset (1 - period))
  (guard (1 <=? reps)
  (guard (Qltb (offset + period * Qn (reps - 1)) 1)
  (Ok (mkStream period offset reps 0 0)))))).

(** std::round: halves away from zero *)
Definition cround (x : Q) : Z :=
  if Qle_bool 0 x then Qfloor (x + (1 # 2)) else (- Qfloor (- x + (1 # 2)))%Z.

(** stream.cpp 51-68 get_next_us *)
Definition get_next_us (s : stream) : res (stream * Z) :=
  let offset := (offset_sec s + Qn (repetitions_cnt s) * period_sec s)%Q in
  let ret := (full_sec_cnt s * mega + cround (offset * inject_Z mega))%Z in
  guard (ret <? (full_sec_cnt s + 1) * mega)%Z
    (let cnt := repetitions_cnt s + 1 in
     if cnt =? repetitions s
     then Ok (mkStream (period_sec s) (offset_sec s) (repetitions s) 0 (full_sec_cnt s + 1), ret)
     else Ok (mkStream (period_sec s) (offset_sec s) (repetitions s) cnt (full_sec_cnt s), ret)).

(** stream.cpp 46-49 set_start_full_sec *)
Definition set_start_full_sec (s : stream) (sec : Z) : res (stream * Z) :=
  get_next_us (mkStream (period_sec s) (offset_sec s) (repetitions s) (repetitions_cnt s) sec).

(** [n] times from get_next_us in a row. *)
Fixpoint nexts (s : stream) (n : nat) : res (stream * list Z) :=
  match n with
  | 0 => Ok (s, [])
  | S n' =>
      do (s1, t) <- get_next_us s ;
      do (s2, l) <- nexts s1 n' ;
      Ok (s2, t :: l)
  end.

(** A stream that is started, and [n] more times. *)
Definition schedule (period offset : Q) (reps : nat) (sec : Z) (n : nat) : res (list Z) :=
  do s <- make period offset reps ;
  do (s1, t) <- set_start_full_sec s sec ;
  do (s2, l) <- nexts s1 n ;
  Ok (t :: l).
