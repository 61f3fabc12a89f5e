(** Energy and noise of what is received. *)
From Coq Require Import QArith.
From Verif Require Import Base SnrEst.
Open Scope nat_scope.

Definition qsum {A} (f : A -> Q) (l : list A) : Q := fold_right (fun x s => (f x + s)%Q) 0%Q l.
Definition mag (z : cplx) : Q := (fst z * fst z + snd z * snd z)%Q.

(** A received vector of pilots: pilot number to value. *)
Definition vec : Type := nat -> cplx.
(** Sum of the powers of [n] pilots. *)
Definition energy (n : nat) (v : vec) : Q := qsum (fun i => mag (v i)) (seq 0 n).
(** Half the sum of the powers of the differences of neighbours. *)
Definition roughness (n : nat) (v : vec) : Q :=
  ((1 # 2) * qsum (fun i => mag (fst (v (S i)) - fst (v i), snd (v (S i)) - snd (v i)))%Q (seq 0 (n - 1)))%Q.

(** The vectors of the STF and of the DRS in a history: of the DRS, transmit streams 0 to 7 count. *)
Definition stf_vecs (h : list ev) : list vec :=
  flat_map (fun x => match x with Stf ants => map (fun a : antenna => a 0) ants | Drs _ _ _ => [] end) h.
Definition drs_vecs (h : list ev) : list vec :=
  flat_map (fun x => match x with
                     | Stf _ => []
                     | Drs ants f l =>
                         flat_map (fun a : antenna => map a (filter (fun ts => (f <=? ts) && (ts <=? l)) (seq 0 8))) ants
                     end) h.

(** Multiplication of complex numbers, of all that is received. *)
Definition cmul (c z : cplx) : cplx := (fst c * fst z - snd c * snd z, fst c * snd z + snd c * fst z)%Q.
Definition scaled (c : cplx) (h : list ev) : list ev :=
  map (fun x => match x with
                | Stf ants => Stf (map (fun (a : antenna) ts i => cmul c (a ts i)) ants)
                | Drs ants f l => Drs (map (fun (a : antenna) ts i => cmul c (a ts i)) ants) f l
                end) h.

(** The same channel for all pilots of every vector. *)
Definition flat (n : nat) (v : vec) : Prop :=
  forall i, i < n -> (fst (v i) == fst (v 0%nat))%Q /\ (snd (v i) == snd (v 0%nat))%Q.
