(** What a gain table and a radio built on it promise. Only the types of the model are used. *)
From Verif Require Import Base GainLut.
From Coq Require Import QArith Qabs.
Open Scope Q_scope.

(** A row can be searched: two elements or more, the first not above the last. *)
Definition searchable (l : list Q) : Prop := (2 <= length l)%nat /\ nth 0 l 0 <= nth (length l - 1) l 0.
(** A complete table: a row of powers for every frequency, and at least as many gains in each row. *)
Definition complete (freqs : list Q) (gains powers : list (list Q)) : Prop :=
  searchable freqs /\ (length freqs <= length powers)%nat /\ (length freqs <= length gains)%nat /\
  forall i, (i < length freqs)%nat ->
    searchable (nth i powers []) /\ (length (nth i powers []) <= length (nth i gains []))%nat.
(** The value within the ends of a row that is closest to the wanted one. *)
Definition is_closest (l : list Q) (v c : Q) : Prop :=
  let lo := nth 0 l 0 in
  let hi := nth (length l - 1) l 0 in
  (v < lo /\ c == lo) \/ (lo <= v <= hi /\ c == v) \/ (hi < v /\ c == hi).
(** A point between two neighbours of a row, [w] being the share of the left one; its value in this row or another. *)
Definition at_point (l : list Q) (i : nat) (w : Q) : Q := w * nth i l 0 + (1 - w) * nth (S i) l 0.
Definition is_point (l : list Q) (i : nat) (w : Q) : Prop := (S i < length l)%nat /\ 0 <= w <= 1.
(** The closest value is found at a point between an element that is not above it and the next, first, larger one (or at the end). *)
Definition finds (l : list Q) (v : Q) (i : nat) (w : Q) : Prop :=
  is_point l i w /\ is_closest l v (at_point l i w) /\
  (forall j, (j <= i)%nat -> nth j l 0 <= at_point l i w) /\
  (at_point l i w < nth (S i) l 0 \/ S (S i) = length l).
(** Every element larger than the one before. *)
Definition ascending (l : list Q) : Prop := forall i, (S i < length l)%nat -> nth i l 0 < nth (S i) l 0.
(** The powers of a direction of a table; one power for each gain. *)
Definition powers_of (t : table) (x : direction) := match x with TX => t_powers_tx t | RX => t_powers_rx t end.
Definition gains_of (t : table) (x : direction) := match x with TX => t_gains_tx t | RX => t_gains_rx t end.
Definition complete_table (t : table) : Prop :=
  forall x, complete (t_freqs t) (gains_of t x) (powers_of t x).
(** A transmitter where one dB of gain is one dB of power; a receiver where one dB of gain lowers the power at full scale by
    one dB. [c i] is the constant of the frequency [i]. *)
Definition transmitter (freqs : list Q) (gains powers : list (list Q)) (c : nat -> Q) : Prop :=
  forall i j, (i < length freqs)%nat -> (j < length (nth i powers []))%nat -> nth j (nth i powers []) 0 == c i + nth j (nth i gains []) 0.
Definition receiver (freqs : list Q) (gains powers : list (list Q)) (c : nat -> Q) : Prop :=
  forall i j, (i < length freqs)%nat -> (j < length (nth i powers []))%nat -> nth j (nth i powers []) 0 == c i - nth j (nth i gains []) 0.
(** Frequencies commanded so far, the default one included. *)
Definition tuned (cs : list cmd) (f : Q) : Prop := f = 100 \/ In (Tune f) cs.
