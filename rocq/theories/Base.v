(** Shared conventions of the model: outcomes, arrays, byte buffers. *)
From Coq Require Export List Arith NArith ZArith Lia Bool.
From Coq Require Export ZifyBool ZifyNat ZifyN.
Export ListNotations.

Global Arguments N.add : simpl never.
Global Arguments N.mul : simpl never.
Global Arguments N.sub : simpl never.
Global Arguments N.div : simpl never.
Global Arguments N.modulo : simpl never.
Global Arguments N.pow : simpl never.
Global Arguments N.shiftl : simpl never.
Global Arguments N.shiftr : simpl never.
Global Arguments N.land : simpl never.
Global Arguments N.lor : simpl never.
Global Arguments Z.add : simpl never.
Global Arguments Z.mul : simpl never.
Global Arguments Z.sub : simpl never.
Global Arguments Z.div : simpl never.
Global Arguments Z.modulo : simpl never.
Global Arguments Z.quot : simpl never.
Global Arguments Z.rem : simpl never.
Global Arguments Z.pow : simpl never.
Global Arguments Nat.div : simpl never.
Global Arguments Nat.modulo : simpl never.

(** Outcome of a C++ call.
    [Ok]    the call returns.
    [Abort] a dectnrp_assert / dectnrp_assert_failure fires
            (lib/include/dectnrp/common/prog/assert.hpp, ENABLE_ASSERT taken as defined).
    [Throw] std::bad_optional_access or vector::at out_of_range is thrown.
    [Oob]   the code would touch a byte or array element that does not exist (undefined behaviour). *)
Inductive res (A : Type) : Type :=
| Ok : A -> res A
| Abort : res A
| Throw : res A
| Oob : res A.
Arguments Ok {A} _.
Arguments Abort {A}.
Arguments Throw {A}.
Arguments Oob {A}.

Definition bind {A B : Type} (x : res A) (f : A -> res B) : res B :=
  match x with
  | Ok a => f a
  | Abort => Abort
  | Throw => Throw
  | Oob => Oob
  end.

Declare Scope res_scope.
Delimit Scope res_scope with res.
Notation "'do' x <- e ; k" := (bind e (fun x => k))
  (at level 200, x pattern, e at level 100, k at level 200, right associativity) : res_scope.
Open Scope res_scope.

(** dectnrp_assert(cond, ...): lib/include/dectnrp/common/prog/assert.hpp *)
Definition guard {A : Type} (c : bool) (k : res A) : res A := if c then k else Abort.

Definition is_ok {A : Type} (x : res A) : bool :=
  match x with Ok _ => true | _ => false end.

(** Array element update; out-of-range positions leave the list unchanged, every use is
    guarded by a bounds-checked read in the model. *)
Fixpoint upd {A : Type} (l : list A) (i : nat) (x : A) : list A :=
  match l, i with
  | [], _ => []
  | _ :: t, O => x :: t
  | h :: t, S j => h :: upd t j x
  end.

(** Bounds-checked array read. *)
Definition rd {A : Type} (l : list A) (i : nat) : res A :=
  match nth_error l i with
  | Some x => Ok x
  | None => Oob
  end.

Lemma upd_length {A} (l : list A) i x : length (upd l i x) = length l.
Proof. revert i; induction l as [|h t IH]; intros [|i]; cbn; auto. Qed.

Lemma nth_error_upd_same {A} (l : list A) i x :
  i < length l -> nth_error (upd l i x) i = Some x.
Proof.
  revert i; induction l as [|h t IH]; intros [|i] H; cbn in *; try lia; auto.
  apply IH; lia.
Qed.

Lemma nth_error_upd_other {A} (l : list A) i j x :
  i <> j -> nth_error (upd l i x) j = nth_error l j.
Proof.
  revert i j; induction l as [|h t IH]; intros [|i] [|j] H; cbn in *; try congruence; auto.
Qed.

Lemma nth_upd_same {A} (l : list A) i x d :
  i < length l -> nth i (upd l i x) d = x.
Proof.
  intros H. apply nth_error_nth. apply nth_error_upd_same; exact H.
Qed.

Lemma nth_upd_other {A} (l : list A) i j x d :
  i <> j -> nth j (upd l i x) d = nth j l d.
Proof.
  revert i j; induction l as [|h t IH]; intros [|i] [|j] H; cbn in *; try congruence; auto.
Qed.

Lemma rd_ok {A} (l : list A) i d : i < length l -> rd l i = Ok (nth i l d).
Proof.
  intros H. unfold rd. rewrite (nth_error_nth' l d H). reflexivity.
Qed.

Lemma rd_Ok_inv {A} (l : list A) i x : rd l i = Ok x -> i < length l /\ nth_error l i = Some x.
Proof.
  unfold rd. destruct (nth_error l i) eqn:E; intros H; inversion H; subst.
  split; [apply nth_error_Some; congruence | reflexivity].
Qed.

Lemma bind_ok_inv {A B} (x : res A) (f : A -> res B) b :
  bind x f = Ok b -> exists a, x = Ok a /\ f a = Ok b.
Proof. destruct x; cbn; intros H; try discriminate. eauto. Qed.

Lemma bind_assoc {A B C} (x : res A) (f : A -> res B) (g : B -> res C) :
  bind (bind x f) g = bind x (fun a => bind (f a) g).
Proof. destruct x; reflexivity. Qed.

Ltac Zify.zify_post_hook ::= Z.div_mod_to_equations.
