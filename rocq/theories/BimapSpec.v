(** The abstract value of a bidirectional map: a partial function from keys to values. *)
From Verif Require Import Base Bimap.
Open Scope Z_scope.

Definition fn := Z -> option Z.
Definition fempty : fn := fun _ => None.
Definition fset (f : fn) (k : Z) (o : option Z) : fn := fun x => if x =? k then o else f x.

(** Is some key mapped to v? *)
Definition has_value (f : fn) (v : Z) : Prop := exists k, f k = Some v.

(** What each operation requires and does. *)
Definition allowed (u : bool) (f : fn) (o : op) : Prop :=
  match o with
  | Insert k v => f k = None /\ (u = true -> ~ has_value f v)
  | Erase k => f k <> None
  | SetV k v => f k <> None /\ (u = true -> ~ has_value f v)
  end.
Definition effect (f : fn) (o : op) : fn :=
  match o with
  | Insert k v | SetV k v => fset f k (Some v)
  | Erase k => fset f k None
  end.
Definition effects (os : list op) : fn := fold_left effect os fempty.

(** Every operation of the history is allowed when it is made. *)
Fixpoint all_allowed (u : bool) (f : fn) (os : list op) : Prop :=
  match os with
  | [] => True
  | o :: r => allowed u f o /\ all_allowed u (effect f o) r
  end.

(** Number of keys with a value. *)
Definition size_is (f : fn) (n : nat) : Prop :=
  exists ks, NoDup ks /\ length ks = n /\ forall k, In k ks <-> f k <> None.
