(** What a user of the JSON export relies on, in terms of what was appended and which files appeared. *)
From Verif Require Import Base JsonExport.
Open Scope nat_scope.

Section Spec.
Context {J : Type}.

(** The entries accepted, in order. *)
Fixpoint appended (l : list (event (J := J))) : list J :=
  match l with
  | [] => []
  | Appended j :: l' => j :: appended l'
  | _ :: l' => appended l'
  end.

(** The files written, in order. *)
Fixpoint files (l : list (event (J := J))) : list (list Z * list (nat * J)) :=
  match l with
  | [] => []
  | File n c :: l' => (n, c) :: files l'
  | _ :: l' => files l'
  end.

(** How many calls that wrote a file have returned. *)
Fixpoint done (l : list (event (J := J))) : nat :=
  match l with
  | [] => 0
  | Done :: l' => S (done l')
  | _ :: l' => done l'
  end.

(** [c] holds the entries with the numbers from [a] to [a + n - 1] of [h], each under its number. *)
Definition holds (h : list J) (a n : nat) (c : list (nat * J)) : Prop :=
  length c = n /\
  forall i, i < n -> exists j, nth_error h (a + i) = Some j /\ nth_error c i = Some (a + i, j).

(** The number a string of decimal digits stands for. *)
Fixpoint number (d : list Z) : Z :=
  match d with
  | [] => 0
  | x :: d' => x * 10 ^ Z.of_nat (length d') + number d'
  end%Z.

(** Alphabetical order of names. *)
Fixpoint before (a b : list Z) : Prop :=
  match a, b with
  | x :: a', y :: b' => (x < y)%Z \/ x = y /\ before a' b'
  | [], _ :: _ => True
  | _, [] => False
  end.

End Spec.
