(** Loops over fields in the message models, and std::set. *)
From Verif Require Import Base Bytes IeBase.
Open Scope N_scope.

(** for (x : l) { write at &mac_pdu_offset[offset]; offset += k; } *)
Fixpoint put_all {A} (l : list A) (w : A -> list N -> nat -> res (list N)) (k : nat) (s : list N * nat) : res (list N * nat) :=
  match l with
  | [] => Ok s
  | x :: l => do m <- w x (fst s) (snd s) ; put_all l w k (m, (snd s + k)%nat)
  end.
(** for (n = 0; n < count; ++n) { read at &mac_pdu_offset[offset]; offset += k; } *)
Fixpoint get_all {A} (count : nat) (r : list N -> nat -> res A) (k : nat) (m : list N) (off : nat) : res (list A * nat) :=
  match count with
  | O => Ok ([], off)
  | S n => do x <- r m off ; do (l, off) <- get_all n r k m (off + k) ; Ok (x :: l, off)
  end.

(** std::set with the order of a key: the elements in ascending order. insert() keeps an element that is already there. *)
Fixpoint set_insert {A} (key : A -> N) (x : A) (l : list A) : list A :=
  match l with
  | [] => [x]
  | y :: t => if key x <? key y then x :: l else if key y <? key x then y :: set_insert key x t else l
  end.
(** the set after a sequence of insertions *)
Definition set_of {A} (key : A -> N) (l : list A) : list A := fold_left (fun s x => set_insert key x s) l [].
