(** Which packets the search within a chunk is supposed to report, without buffers, requests and states. *)
From Verif Require Import Base MovSum MovSumSpec ChunkSearch.

(** The parameters of sync_param.hpp: 7 or 9 patterns, 0.3 STFs from the detection back to the peak (as an integer,
    rounded to either side), a positive minimum of the metric. *)
Definition good_cfg (c : scfg) : Prop :=
  (gN c = 7 \/ gN c = 9) /\ 0 < gbos c /\ 3 * gstf c <= 10 * gback c + 10 /\ 10 * gback c <= 3 * gstf c + 9 /\ (0 < gmin c)%Z.

(** Metrics are squares, hence not negative. *)
Definition good_sig (sg : sig) : Prop := forall a i, (0 <= met sg a i)%Z.

(** There is one streak per antenna. *)
Definition good_dst (c : scfg) (d : dst) : Prop := length (d_streak d) = gant c.

(** Positions at which the chunk is examined: every quarter of a pattern after the first pattern, until the end of
    the chunk and of the overlap with the next chunk (four STFs) is reached. *)
Definition quarter (c : scfg) : nat := 4 * gbos c.
Definition stf (c : scfg) : nat := gN c * (16 * gbos c).
Definition chunk_end (c : scfg) : nat := gA c + 4 * stf c.
Definition positions (c : scfg) : list nat :=
  map (fun k => 16 * gbos c + quarter c * (k + 1))
      (seq 0 ((chunk_end c - 16 * gbos c + quarter c - 1) / quarter c)).

(** Detection: the first antenna whose metric exceeds the minimum, but not the maximum. *)
Definition detects (c : scfg) (sg : sig) (r : nat) : option (nat * Z) :=
  match find (fun a => match obs sg r a with Some m => Z.ltb (gmin c) m && Z.leb m (gmax c) | None => false end)
             (seq 0 (gant c)) with
  | Some a => match obs sg r a with Some m => Some (a, m) | None => None end
  | None => None
  end.

(** The smoothed metric at sample i of a peak search that starts at sample b: the sum over the last 2*bos+1 samples,
    those before b counting zero. *)
Definition smoothed (c : scfg) (sg : sig) (b a i : nat) : Z :=
  sumf Zops (2 * gbos c + 1) (fun t =>
    if Nat.leb (b + (2 * gbos c + 1)) (i + 1 + t) then met sg a (i + 1 + t - (2 * gbos c + 1)) else 0%Z).

(** The last sample among the n ones from b on at which f is largest. *)
Fixpoint last_max (f : nat -> Z) (b n : nat) : nat :=
  match n with
  | 0 => b
  | S k => let j := last_max f b k in if Z.leb (f j) (f (b + k)) then b + k else j
  end.

(** The peak of antenna a after a detection at r: its height, and the center of the window of the smoother. *)
Definition peak_of (c : scfg) (sg : sig) (r a : nat) : Z * nat :=
  let b := r - 16 * gbos c in
  let i := last_max (smoothed c sg b a) b (stf c) in (smoothed c sg b a i, i - gbos c).

(** The peaks high enough in comparison with the metric at the detection (the mean of 2*bos+1 values is compared). The
    code also asks for a minimum distance from the detection; no peak fails that. *)
Definition peaks (c : scfg) (sg : sig) (r : nat) (m : Z) : list (Z * nat) :=
  filter (fun x => Z.ltb (Z.of_nat (2 * gbos c + 1) * (m + gthr c)) (fst x) && Z.ltb 0 (fst x))
         (map (peak_of c sg r) (seq 0 (gant c))).

(** The beginning of the packet: an STF before the weighted average of the peaks. *)
Definition coarse (c : scfg) (sg : sig) (r : nat) (m : Z) : option nat :=
  match peaks c sg r m with
  | [] => None
  | l => Some (Z.to_nat (round_div (weighted_index l) (metric_sum l)) - (stf c - 1))
  end.

(** The packets: at the first position, not to be ignored, with a detection and a peak, then two STFs after the
    beginning of that packet, and so on. *)
Fixpoint scan (c : scfg) (sg : sig) (pos : list nat) (ignore : nat) : list (nat * nat) :=
  match pos with
  | [] => []
  | r :: t =>
      match (if Nat.leb ignore r then detects c sg r else None) with
      | Some (_, m) =>
          match coarse c sg r m with
          | Some s => (r, s) :: scan c sg t (s + 2 * stf c)
          | None => scan c sg t ignore
          end
      | None => scan c sg t ignore
      end
  end.

(** All packets of a chunk; an STF and the jump back by one pattern must fit before the first detection. *)
Definition packets (c : scfg) (sg : sig) : list (nat * nat) :=
  scan c sg (positions c) (stf c + 16 * gbos c).

(** The packets among the events. *)
Definition reported (ev : list event) : list (nat * nat) :=
  flat_map (fun e => match e with Packet r s => [(r, s)] | Callback _ => [] end) ev.
