(** What the antenna mapper and the codebook promise. *)
From Verif Require Import Base Beamforming.
From Coq Require Import ZArith.
Open Scope nat_scope.

(** The entry of a matrix, given row by row with [n_ts] columns, for antenna [a] and transmit stream [i]. *)
Definition entry (wmat : list weight) (n_ts a i : nat) : weight := nth (a * n_ts + i) wmat (0, 0)%Z.

(** Subcarrier [k], between -occ/2 and occ/2, is bin [k] modulo the transform size and position k + occ/2 of a stream. *)
Definition subcarrier (occ : nat) (k : Z) : Prop := (- Z.of_nat (occ / 2) <= k <= Z.of_nat (occ / 2))%Z.
Definition bin (dft : nat) (k : Z) : nat := Z.to_nat (k mod Z.of_nat dft).
Definition position (occ : nat) (k : Z) : nat := Z.to_nat (k + Z.of_nat (occ / 2)).

(** One antenna at one subcarrier: the weighted samples [x 0], [x 1], ... of the streams are added in this order to what is there, [acc]; weights of 0 are
    left out and weights of 1 need no product. *)
Definition superpose {C} (add : C -> C -> C) (mulw : weight -> C -> C) (w : nat -> weight) (x : nat -> C) (n : nat) (acc : C) : C :=
  fold_left (fun acc i => if weqb (w i) (0, 0)%Z then acc else add acc (if weqb (w i) (1, 0)%Z then x i else mulw (w i) (x i))) (seq 0 n) acc.

(** Complex arithmetic on integers. *)
Definition cadd (a b : weight) : weight := (fst a + fst b, snd a + snd b)%Z.
Definition cmul (a b : weight) : weight := (fst a * fst b - snd a * snd b, fst a * snd b + snd a * fst b)%Z.
Definition conj_ (a : weight) : weight := (fst a, - snd a)%Z.
Definition norm2 (a : weight) : Z := (fst a * fst a + snd a * snd a)%Z.
Definition sumZ (l : list Z) : Z := fold_right Z.add 0%Z l.
Definition sumC (l : list weight) : weight := fold_right cadd (0, 0)%Z l.
(** The output of antenna [a]. *)
Definition output (wmat : list weight) (n_ts : nat) (x : nat -> weight) (a : nat) : weight :=
  sumC (map (fun i => cmul (entry wmat n_ts a i) (x i)) (seq 0 n_ts)).

(** The pairs of streams and antennas of the transmission modes. *)
Definition pairs : list (nat * nat) := [(1, 1); (1, 2); (1, 4); (2, 2); (2, 4); (4, 4); (8, 8)].
