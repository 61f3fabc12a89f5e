(** The correlation and the power of a possible synchronisation training field (STF). *)
From Verif Require Import Base MovSum MovSumSpec.

(** Sample i of a signal. *)
Definition smp (x : list C) (i : nat) : C := nth i x (0, 0)%Z.

(** The signs of the patterns of an STF, TS 103 636-3. *)
Definition cover (j : nat) : Z := nth j [1; -1; 1; 1; -1; -1; -1; -1; -1]%Z 0%Z.

(** Power of the N*P samples from position a. *)
Definition stf_power (x : list C) (a N P : nat) : Z := sumf Zops (N * P) (fun i => norm2 (smp x (a + i))).

(** Every pattern of P samples correlated with the next one, the signs of the two patterns removed. *)
Definition stf_corr (x : list C) (a N P : nat) : C :=
  sumf Cops (N - 1) (fun j => cscale (cover j * cover (j + 1))
    (sumf Cops P (fun t => cmul (smp x (a + j * P + t)) (conj (smp x (a + (j + 1) * P + t)))))).

(** The samples from position a are an STF made of the pattern p, rotated by w from each pattern to the next (the
    frequency offset). *)
Fixpoint cpow (w : C) (n : nat) : C := match n with 0 => (1, 0)%Z | S k => cmul w (cpow w k) end.
Definition is_stf (x : list C) (a N P : nat) (p : nat -> C) (w : C) : Prop :=
  forall j t, j < N -> t < P -> smp x (a + j * P + t) = cscale (cover j) (cmul (cpow w j) (p t)).

(** Energy of one pattern. *)
Definition energy (p : nat -> C) (P : nat) : Z := sumf Zops P (fun t => norm2 (p t)).
