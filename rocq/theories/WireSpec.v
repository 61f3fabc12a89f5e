(** Specification vocabulary for wire formats: a format is a sequence of bit fields, most significant
    bit first, as the tables of ETSI TS 103 636-4 draw them. *)
From Verif Require Import Base.
Open Scope N_scope.

(** The number a byte string spells, first byte most significant. *)
Definition be_number (l : list N) : N := fold_left (fun acc b => N.lor (N.shiftl acc 8) b) l 0.

(** Concatenation of bit fields (width, value), first field most significant. *)
Definition cat_fields (l : list (N * N)) : N :=
  fold_left (fun acc f => N.lor (N.shiftl acc (fst f)) (snd f)) l 0.

(** Every field fits its width. *)
Definition fields_fit (l : list (N * N)) : Prop := Forall (fun f => snd f < 2 ^ fst f) l.

(** Every element is a byte. *)
Definition bytes (l : list N) : Prop := Forall (fun b => b < 256) l.

Definition width (l : list (N * N)) : N := fold_left (fun acc f => acc + fst f) l 0.

(** The first [n] bytes of memory [m] spell the bit fields [l]. *)
Definition spells (n : nat) (m : list N) (l : list (N * N)) : Prop :=
  (n <= length m)%nat /\ width l = 8 * N.of_nat n /\ fields_fit l /\ be_number (firstn n m) = cat_fields l.

(** [m'] is [m] with only its first [n] bytes changed, to bytes spelling [l]. *)
Definition writes (n : nat) (m m' : list N) (l : list (N * N)) : Prop :=
  length m' = length m /\ skipn n m' = skipn n m /\ bytes (firstn n m') /\ spells n m' l.
