(** Specification vocabulary for the simulator: what each radio wrote and read, with the times. *)
From Verif Require Import Base Vspace.
Open Scope Z_scope.

Section spec.
Variable data : Type.

(** Times and packets radio [i] wrote, in order. *)
Fixpoint writes_of (i : nat) (tr : list (event data)) : list (Z * data) :=
  match tr with
  | [] => []
  | EWrite _ j t d :: r => if Nat.eqb i j then (t, d) :: writes_of i r else writes_of i r
  | _ :: r => writes_of i r
  end.
(** Times and sets of packets radio [i] received, in order. *)
Fixpoint reads_of (i : nat) (tr : list (event data)) : list (Z * list data) :=
  match tr with
  | [] => []
  | ERead _ j t l :: r => if Nat.eqb i j then (t, l) :: reads_of i r else reads_of i r
  | _ :: r => reads_of i r
  end.

(** The first [k] points of the common time grid. *)
Definition grid (t0 spp : Z) (k : nat) : list Z := map (fun j => t0 + Z.of_nat j * spp) (seq 0 k).

(** All radios are configured alike. *)
Definition alike (rate spp t0 : Z) (cfg : list radio) : Prop :=
  Forall (fun c => samp_rate c = rate /\ spp_size c = spp /\ start c = t0) cfg.
End spec.
Arguments writes_of {data}.
Arguments reads_of {data}.
