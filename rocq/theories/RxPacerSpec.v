(** What the local buffers of a receiver shall hold. *)
From Verif Require Import Base Cells RxRing RxRingSpec Resampler ResamplerSpec RxPacer.
Open Scope N_scope.

Section spec.
Context {smp coef : Type}.
Variables (s0 : smp) (f0 : coef) (dot : list smp -> list coef -> smp).

(** The number of a sample is its time. [n] numbers from [t] on. *)
Definition times (t : Z) (n : N) : list Z := map (fun i => (t + Z.of_N i)%Z) (upto n).
(** What the ring buffer of a radio [c] has for sample [t] of antenna [a]: position t mod L. *)
Definition ring_at (c : cfg) (o : ring smp) (a : nat) (t : Z) : smp :=
  nth (Z.to_nat (t mod Z.of_nat (cL c))) (nth a (mem o) []) s0.
(** What an antenna heard in units of [unit] samples, each taken from the ring buffer as it was at that moment. *)
Definition heard (c : cfg) (unit : N) (l : list (Z * ring smp)) (a : nat) : list smp :=
  flat_map (fun e => map (ring_at c (snd e) a) (times (fst e) unit)) l.
(** Units follow each other without gap from time [t] on, ... *)
Fixpoint consecutive (unit : N) (t : Z) (l : list (Z * ring smp)) : Prop :=
  match l with
  | [] => True
  | (u, _) :: l => u = t /\ consecutive unit (t + Z.of_N unit) l
  end.
(** ... and each of them was complete when it was taken. *)
Definition complete (unit : N) (l : list (Z * ring smp)) : Prop :=
  Forall (fun e => (fst e + Z.of_N unit <= rxt (snd e))%Z) l.
(** The clock of the radio does not go back. *)
Definition rising (obs : list (ring smp)) : Prop := ForallOrdPairs (fun o o' => (rxt o <= rxt o')%Z) obs.
(** The memory of the ring buffer of a radio [c] has its size. *)
Definition ring_ok (c : cfg) (o : ring smp) : Prop :=
  length (mem o) = cant c /\ Forall (fun m => length m = (cL c + cM c)%nat) (mem o).

(** A state in which another thread can meet the ring buffer of a radio [c] that delivered the blocks [bs]: after
    the last of them, or while the hardware writes [k] samples of the next one. *)
Definition seen (c : cfg) (zero : smp) (bs : list (block smp)) (o : ring smp) : Prop :=
  Forall (block_ok c) bs /\
  exists o0 o1, init c zero = Ok o0 /\ RxRing.run c o0 bs = Ok o1 /\
    (o = o1 \/ exists b k, block_ok c b /\ (k <= cM c)%nat /\ hw_write c o1 b k = Ok o).
(** The unit of antenna [a] at time [t] is kept: nothing was lost since, and it is not older than the ring buffer
    without the block the hardware is writing. [x] is the signal. *)
Definition kept (c : cfg) (unit : N) (bs : list (block smp)) (a : nat) (x : Z -> smp) (t : Z) : Prop :=
  let '(from, n, good) := timeline 0 0 [] bs in
  (from <= t)%Z /\ (n - Z.of_nat (cL c) + Z.of_nat (cM c) <= t)%Z /\
  forall t', (t <= t' < t + Z.of_N unit)%Z -> (t' < n)%Z -> RxRingSpec.sample_at from good a t' = Some (x t').

(** What calls asking for at least these numbers of samples return if the buffer holds [have]: the next full unit. *)
Fixpoint filter_returns (unit have : N) (mins : list N) : list N :=
  match mins with
  | [] => []
  | m :: mins => let n := N.max have ((m + unit - 1) / unit * unit) in n :: filter_returns unit n mins
  end.

(** A signal resampled by L/M with the filter [h]: output [k] from the samples before and at its position (as in
    ResamplerSpec.v, for a signal that is nothing before 0). With L = M = 1 it is the signal. *)
Variables (L M : N) (h : list coef).
Definition before0 (x : N -> smp) (i : Z) : smp := if (i <? 0)%Z then s0 else x (Z.to_N i).
Definition resampled (x : N -> smp) (k : N) : smp :=
  if (L =? 1) && (M =? 1) then x k else
  let t := position M h k in
  let ms := rev (upto (sub_taps L h)) in
  dot (map (fun m => before0 x (Z.of_N (t / L) - Z.of_N m)) ms) (map (fun m => tap f0 h (t mod L + m * L)) ms).
(** Output [k] can be computed when [n] samples are there: its position is before the next one. *)
Definition computable (n k : N) : Prop :=
  if (L =? 1) && (M =? 1) then k < n else position M h k < n * L.

(** A local buffer of the size of [b], whatever is in it, and a resampler with history buffers for [ant] antennas,
    whatever is in them *)
Definition usable (rc : config coef) (ant : nat) (b : lbuf smp) (s : st smp) : Prop :=
  map len (b_mem _ (fst s)) = map len (b_mem _ b) /\
  (c_L _ rc = 1 /\ c_M _ rc = 1 \/
   (ant <= length (r_hist _ (snd s)))%nat /\ Forall (fun v => len v = 2 * c_hist _ rc) (r_hist _ (snd s))).

(** The number of these outputs *)
Definition avail (n : N) : N := if (L =? 1) && (M =? 1) then n else (n * L - (len h - 1) / 2 + (M - 1)) / M.

(** A list as a signal *)
Definition sig (x : list smp) (k : N) : smp := nth (N.to_nat k) x s0.

(** Calls of the resampling side. [j] units were read, the buffer starts with output [d]. A call reads units until
    the buffer has enough outputs, but not one unit more; after rewinding the buffer starts with the next output. *)
Fixpoint served (unit j d : N) (cs : list call) (ns : list N) (j' d' : N) : Prop :=
  match cs with
  | [] => ns = [] /\ j' = j /\ d' = d
  | Rewind :: cs => served unit j (avail (j * unit)) cs ns j' d'
  | Until m :: cs => exists i ns',
      ns = avail (i * unit) - d :: ns' /\ j <= i /\ m <= avail (i * unit) - d /\
      (j < i -> avail ((i - 1) * unit) - d < m) /\ served unit i d cs ns' j' d'
  end.

(** Cutting a signal into symbols of given lengths from position [pos], mixed with a phase that advances with
    every sample and is changed before every symbol. *)
Context {phase : Type}.
Variables (rot : phase -> smp -> smp) (adv : phase -> phase).
Definition phase_after (n : N) (ph : phase) : phase := N.iter n adv ph.
Fixpoint cut (y : N -> smp) (pos : N) (ph : phase) (ns : list (N * (phase -> phase))) : list (list smp) :=
  match ns with
  | [] => []
  | (n, adj) :: ns =>
      map (fun i => rot (phase_after i (adj ph)) (y (pos + i))) (upto n) ::
      cut y (pos + n) (phase_after n (adj ph)) ns
  end.
End spec.
