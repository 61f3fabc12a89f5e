(** What the moving sums are supposed to be: sums over the most recent values. *)
From Coq Require Import Ring_theory.
From Verif Require Import Base MovSum.

(** f 0 + f 1 + ... + f (n-1) *)
Fixpoint sumf {V} (O : ops V) (n : nat) (f : nat -> V) : V :=
  match n with 0 => zero O | S k => add O (sumf O k f) (f k) end.

(** Values pushed since the beginning or the last reset, oldest first. *)
Definition history {V} (os : list (op (V := V))) : list V :=
  fold_left (fun h o => match o with Push v => h ++ [v] | Resum => h | Reset => [] end) os [].

(** The window of the n most recent values of h, position 0 the oldest, position n-1 the newest; zeros stand for
    values not pushed yet. *)
Definition recent {V} (O : ops V) (n : nat) (h : list V) (i : nat) : V :=
  nth (length h + i) (repeat (zero O) n ++ h) (zero O).

(** Block i of the window has r values, all weighted by the i-th number of u. *)
Definition weighted {V} (O : ops V) (u : list Z) (r : nat) (w : nat -> V) : V :=
  sumf O (length u) (fun i => scale O (nth i u 0%Z) (sumf O r (fun t => w (i * r + t)))).

(** Arithmetic without rounding: addition and subtraction of some commutative ring, exact doubling and change of
    sign, and an accumulator that adds up all values. *)
Record exact {V} (O : ops V) : Prop := Exact {
  ex_ring : exists one mul opp, ring_theory (zero O) one (add O) mul (sub O) opp eq;
  ex_one : forall v, scale O 1 v = v;
  ex_neg : forall v, scale O (-1) v = sub O (zero O) v;
  ex_two : forall v, scale O 2 v = add O v v;
  ex_acc : forall l, acc O l = sumf O (length l) (fun i => nth i l (zero O)) }.

(** All values are plus or minus one, the last one is one. *)
Definition signs (u : list Z) : Prop := u <> [] /\ Forall (fun x => x = 1 \/ x = -1)%Z u /\ last u 0%Z = 1%Z.

(** Real numbers as integers (fixed point), complex numbers as pairs of integers. *)
Definition Zops : ops Z :=
  Ops Z 0%Z Z.add Z.sub Z.mul (fold_right Z.add 0%Z).
Definition C : Type := (Z * Z)%type.
Definition cadd (a b : C) : C := (fst a + fst b, snd a + snd b)%Z.
Definition csub (a b : C) : C := (fst a - fst b, snd a - snd b)%Z.
Definition cscale (c : Z) (a : C) : C := (c * fst a, c * snd a)%Z.
Definition cmul (a b : C) : C := (fst a * fst b - snd a * snd b, fst a * snd b + snd a * fst b)%Z.
Definition conj (a : C) : C := (fst a, - snd a)%Z.
Definition norm2 (a : C) : Z := (fst a * fst a + snd a * snd a)%Z.
Definition Cops : ops C := Ops C (0, 0)%Z cadd csub cscale (fold_right cadd (0, 0)%Z).
