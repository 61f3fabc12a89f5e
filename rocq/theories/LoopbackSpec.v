(** Specification for C75: what a series of loopback measurements consists of. *)
From Coq Require Import QArith.
From Verif Require Import Base Loopback.
Open Scope nat_scope.

(** ** The plan of a series *)
(** Every parameter in turn; for it every SNR in turn; for it [n] experiments, each with new fading; then one
    result is stored. *)
Inductive act := Tune (snr : Z) | Fade | Try (p : Z) | Store (row column : nat) | Next.
Definition indexed {A : Type} (l : list A) : list (nat * A) := combine (seq 0 (length l)) l.
Definition experiments (n : nat) (p : Z) : list act := concat (repeat [Fade; Try p] n).
Definition measure (n i : nat) (p : Z) (js : nat * Z) : list act :=
  Tune (snd js) :: experiments n p ++ [Store i (fst js); Next].
Definition per_parameter (n : nat) (snrs : list Z) (ip : nat * Z) : list act :=
  flat_map (measure n (fst ip) (snd ip)) (indexed snrs).
Definition plan (c : config) : list act :=
  flat_map (per_parameter (n_exp c) (snrs c)) (indexed (params c)).

(** The packets one experiment with parameter [p] wants to send from time [t] on: time, sender, MCS, amplitude
    in dB, information element. *)
Definition wanted (c : config) (p t : Z) : list (Z * N * Z * Z * option Z) :=
  match kd c with
  | Snr => [(t, id_a c, p, 0%Z, None)]
  | Ratio => [(t, id_a c, 1%Z, p, None); ((t + plen c)%Z, id_b c, 1%Z, 0%Z, None)]
  | Mmie => [(t, id_a c, 1%Z, 0%Z, Some p)]
  end.
Definition facts_of (k : packet) := (k_time k, k_from k, k_mcs k, k_gain k, k_mmie k).
(** Those for which there is a HARQ process *)
Definition permitted {A : Type} (l : list A) (free : list bool) : list A := map fst (filter snd (combine l free)).

(** A call did what the plan says *)
Definition fits (c : config) (o : entry) (x : act) : Prop :=
  match fst (fst o), snd (fst o), x with
  | Call _ _ _ _, Tuned v, Tune v' => v = v'
  | Call _ _ _ _, Faded, Fade => True
  | Call now _ a b, Sent l, Try p =>
      exists t, (now + turn c <= t <= now + turn c + Z.of_N (jit c))%Z /\
                map facts_of l = permitted (wanted c p t) [a; b]
  | Call _ _ _ _, Stored i j, Store i' j' => i = i' /\ j = j'
  | Call _ _ _ _, Moved, Next => True
  | _, _, _ => False
  end.

(** ** Reading a history *)
Definition is_call (o : entry) : bool := match fst (fst o) with Call _ _ _ _ => true | _ => false end.
Definition calls (tr : list entry) : list entry := filter is_call tr.
Definition sent (o : entry) : list packet := match snd (fst o) with Sent l => l | _ => [] end.
Definition all_sent (tr : list entry) : list packet := flat_map sent tr.
Definition tunes (o : entry) : bool := match snd (fst o) with Tuned _ => true | _ => false end.
Definition stores (i j : nat) (o : entry) : bool :=
  match snd (fst o) with Stored i' j' => (i =? i') && (j =? j') | _ => false end.
Definition hears (o : entry) : bool := match snd (fst o) with Heard _ => true | _ => false end.
Definition hears_ours (o : entry) : bool := match snd (fst o) with Heard b => b | _ => false end.
Definition decodes (o : entry) : bool := match snd (fst o) with Decoded _ => true | _ => false end.
Definition tries (o : entry) : bool := match snd (fst o) with Sent _ => true | _ => false end.
Definition count (f : entry -> bool) (tr : list entry) : nat := length (filter f tr).
(** The share of [n] experiments that did not succeed [k] times *)
Definition lost (k n : nat) : Q := (1 - inject_Z (Z.of_nat k) / inject_Z (Z.of_nat n))%Q.
(** The element of a table, row by row *)
Definition element (t : table) (i j : nat) : option Q :=
  match nth_error t i with Some r => nth_error r j | None => None end.
(** The request the last call made, or the one made at the start *)
Fixpoint pending (first : option Z) (tr : list entry) : option Z :=
  match tr with [] => first | o :: tr => pending (if is_call o then snd o else first) tr end.
(** A call that comes although nothing is requested, or before the requested time *)
Definition premature (p : option Z) (e : event) : Prop :=
  match e, p with Call now _ _ _, Some t => (now < t)%Z | Call _ _ _ _, None => True | _, _ => False end.

(** Constructors: at least one parameter, one SNR, one experiment; waiting times are not negative. *)
Definition sound (c : config) : Prop :=
  params c <> [] /\ snrs c <> [] /\ 1 <= n_exp c /\
  (0 <= A_to_B c)%Z /\ (0 <= B_to_C c)%Z /\ (0 <= C_to_B c)%Z /\ (0 <= C_to_D c)%Z.
(** The waiting times leave room for the packets of an experiment. *)
Definition roomy (c : config) : Prop :=
  (0 <= plen c)%Z /\
  (Z.of_N (jit c) + 2 * plen c <= C_to_B c + B_to_C c)%Z /\
  (Z.of_N (jit c) + 2 * plen c <= C_to_D c + A_to_B c + B_to_C c)%Z.
