(** The search for packets within one chunk: sync_chunk_t::search() with the flow of both autocorrelators.
    Models lib/src/phy/rx/sync/sync_chunk.cpp 63-69, 146-310, lib/src/phy/rx/sync/autocorrelator_detection.cpp,
    lib/src/phy/rx/sync/autocorrelator_peak.cpp and lib/src/phy/rx/rx_pacer.cpp 265-325, with
    SECTIONS_PART_3_STF_COVER_SEQUENCE_ACTIVE as in stf_param.hpp.
    Left open are the values derived from the samples at a position (they are the subject of C55) and how many
    samples the pacer delivers beyond those asked for. Metrics are integers (fixed point). A loop that outran its fuel
    would end in [Throw]; the code throws nowhere here. *)
From Verif Require Import Base MovSum MovSumSpec.

(** gN = stf_nof_pattern, gbos = bos_fac, gA = A (sync_chunk.cpp 56-64), gback = -detection2peak_samples_64, the integer
    part of 0.3 STFs (autocorrelator_peak.cpp 63-65), gthr = PEAK_METRIC_ABOVE_DETECTION_THRESHOLD_SP,
    gmin, gmax = DETECTION_METRIC_THRESHOLD_MIN_SP and _MAX_SP, gant = nof_antennas_limited *)
Record scfg := Scfg { gN : nat; gbos : nat; gA : nat; gback : nat; gthr : Z; gmin : Z; gmax : Z; gant : nat }.

(** What the samples of the chunk yield. [obs r a]: nothing if the RMS at position r of antenna a is outside of its
    limits or falls, otherwise the metric (autocorrelator_detection.cpp 193-243). [met a i]: the metric pushed into
    the smoother for sample i of antenna a (autocorrelator_peak.cpp 170-177). *)
Record sig := Sig { obs : nat -> nat -> option Z; met : nat -> nat -> Z }.

Section Search.
Variable c : scfg.

(** C, and the lengths in samples after resampling: sync_chunk.cpp 59-69; a pattern has 16 samples (constants.hpp) *)
Definition gP : nat := 16 * gbos c.
Definition gstf : nat := gN c * gP.
Definition gB : nat := 4 * gstf.
Definition gD : nat := gstf.
(** search_length_samples of the detection: sync_chunk.cpp 81; length of the local buffer: 73-74 *)
Definition gslen : nat := gA c + gB.
Definition gcap : nat := gA c + gB + gP + gD.
(** search_step_samples, search_jump_back_samples, search_start_samples, skip_after_peak_samples:
    autocorrelator_detection.cpp 48-54, 70-72 *)
Definition gstep : nat := gP / 4.
Definition gjump : nat := gP.
Definition gstart : nat := gstf + gjump.
Definition gskip : nat := 2 * gstf.
(** metric_smoother_bos_offset_to_center_samples and the length of the smoother: autocorrelator_peak.cpp 68-69, 91-93 *)
Definition goff : nat := gbos c.
Definition gsm : nat := gbos c + 1 + goff.

(** streak_t: autocorrelator_detection.cpp 303-328; the goal is 1, the multiplier 0, the start gmin *)
Record streak := Streak { s_val : Z; s_cnt : nat }.
Definition streak_reset : streak := Streak (gmin c) 0.
Definition streak_check (v : Z) (s : streak) : bool * streak :=
  if Z.ltb (s_val s) v then
    let s' := Streak (Z.max (v * 0) (gmin c)) (S (s_cnt s)) in (Nat.leb 1 (s_cnt s'), s')
  else (false, streak_reset).

(** localbuffer_cnt_r, ignore_before_index, metric_streak_vec *)
Record dst := Dst { d_r : nat; d_ign : nat; d_streak : list streak }.

(** the loop over the antennas: autocorrelator_detection.cpp 192-273; k antennas left, the next one is a *)
Fixpoint ants_loop (o : nat -> option Z) (k a : nat) (ss : list streak) : res (option (nat * Z) * list streak) :=
  match k with
  | 0 => Ok (None, ss)
  | S k' =>
      match o a with
      | None => ants_loop o k' (S a) ss
      | Some m =>
          do s <- rd ss a;
          if Z.ltb m (gmin c) || Z.ltb (gmax c) m then ants_loop o k' (S a) (upd ss a streak_reset)
          else let bs := streak_check m s in
               if fst bs then Ok (Some (a, m), upd ss a (snd bs))
               else ants_loop o k' (S a) (upd ss a (snd bs))
      end
  end.

(** detection_ant_idx, detection_metric, detection_time_local *)
Record hit := Hit { h_ant : nat; h_metric : Z; h_r : nat }.

(** autocorrelator_detection_t::search_by_correlation(): autocorrelator_detection.cpp 152-283. The samples read are
    those from localbuffer_cnt_r - stf_bos_pattern_length_samples on, up to localbuffer_cnt_r + search_step_samples. *)
Fixpoint det_search (fuel : nat) (sg : sig) (w : nat) (d : dst) : res (option hit * dst) :=
  match fuel with
  | 0 => Throw
  | S f =>
      if Nat.leb (d_r d + gstep) w then
        if Nat.ltb (d_r d) gP then Oob else
        let r := d_r d + gstep in
        do hs <- (if Nat.leb (d_ign d) r then ants_loop (obs sg r) (gant c) 0 (d_streak d) else Ok (None, d_streak d));
        let d' := Dst r (d_ign d) (snd hs) in
        match fst hs with
        | Some (a, m) => Ok (Some (Hit a m r), d')
        | None => if Nat.leb gslen r then Ok (None, d') else det_search f sg w d'
        end
      else Ok (None, d)
  end.

(** skip_after_peak(): autocorrelator_detection.cpp 137-146 *)
Definition skip_after_peak (t : nat) (d : dst) : res dst :=
  guard (Nat.ltb (d_ign d) (t + gskip)) (Ok (Dst (d_r d) (t + gskip) (map (fun _ => streak_reset) (d_streak d)))).

(** localbuffer_cnt_w and the number of calls so far. *)
Record buf := Buf { b_w : nat; b_n : nat }.

(** resample_until_nto(): rx_pacer.cpp 265-295. More than cnt_w_min samples are delivered if a unit yields more:
    extra i more in the i-th call. Asking for more samples than the local buffer was created for may write beyond
    its end. *)
Definition resample (extra : nat -> nat) (req : nat) (b : buf) : res buf :=
  if Nat.ltb gcap req then Oob
  else Ok (Buf (if Nat.leb req (b_w b) then b_w b else req + extra (b_n b)) (S (b_n b))).

(** localbuffer_cnt_r, localbuffer_cnt_r_max, and for every antenna peak_t (metric, index) with metric_smoother. The metric
    is the sum of the smoother rather than its mean; the mean is that sum divided by the constant length. *)
Record pkst := Pkst { p_r : nat; p_max : nat; p_ants : list ((Z * nat) * ms Z) }.

(** set_initial_state(): autocorrelator_peak.cpp 107-122; it reads an STF before the position *)
Definition peak_init (jb : nat) : res pkst :=
  guard (Nat.leb gstf jb) (Ok (Pkst jb (jb + gD) (repeat ((0%Z, 0), make Zops gsm) (gant c)))).

(** get_nof_samples_required(): autocorrelator_peak.cpp 138-143 *)
Definition peak_required (p : pkst) : nat := Nat.min (p_r p + gP) (p_max p).

(** update_if_metric_is_larger(): autocorrelator_peak.hpp 122-127 *)
Definition peak_update (m : Z) (i : nat) (pk : Z * nat) : Z * nat :=
  if Z.leb (fst pk) m then (m, i) else pk.

(** the inner loop of search_by_correlation(): autocorrelator_peak.cpp 168-203; k samples left, the next one is i. The
    index is not below goff since i is at least an STF. Summing anew (197-202) changes nothing without rounding. *)
Fixpoint push_loop (m : nat -> Z) (k i : nat) (x : (Z * nat) * ms Z) : res ((Z * nat) * ms Z) :=
  match k with
  | 0 => Ok x
  | S k' =>
      do sm <- pop_push Zops (m i) (snd x);
      push_loop m k' (S i) (peak_update (sum sm) (i - goff) (fst x), sm)
  end.

(** the loop over the antennas: autocorrelator_peak.cpp 153-204 *)
Fixpoint all_ants (sg : sig) (k i a : nat) (l : list ((Z * nat) * ms Z)) : res (list ((Z * nat) * ms Z)) :=
  match l with
  | [] => Ok []
  | x :: t => do x' <- push_loop (met sg a) k i x; do t' <- all_ants sg k i (S a) t; Ok (x' :: t')
  end.

(** post_processing_validity(), the loop: autocorrelator_peak.cpp 287-315. For every valid antenna its metric and its
    index, zeros for the others. *)
Definition ant_valid (h : hit) (pk : Z * nat) : Z * nat :=
  if Z.leb (fst pk) (Z.of_nat gsm * (h_metric h + gthr c)) then (0%Z, 0)
  else if Z.leb (Z.of_nat (snd pk)) (Z.of_nat (h_r h) - Z.of_nat (gback c)) then (0%Z, 0)
  else pk.

(** metric_weighted_index, coarse_peak_array.get_sum() *)
Definition weighted_index (l : list (Z * nat)) : Z := fold_right Z.add 0%Z (map (fun x => fst x * Z.of_nat (snd x))%Z l).
Definition metric_sum (l : list (Z * nat)) : Z := fold_right Z.add 0%Z (map fst l).

(** std::round of a quotient of natural numbers *)
Definition round_div (n d : Z) : Z := ((2 * n + d) / (2 * d))%Z.

(** post_processing_validity() and the samples read by post_processing_at_coarse_peak(): autocorrelator_peak.cpp
    279-346, 350, 238-277. Division by zero cannot happen as an antenna with a positive metric exists. *)
Definition post_processing (h : hit) (p : pkst) : res (option nat) :=
  let l := map (ant_valid h) (map fst (p_ants p)) in
  if existsb (fun x => Z.ltb 0 (fst x)) l then
    let t := Z.to_nat (round_div (weighted_index l) (metric_sum l)) in
    guard (Nat.leb (gstf - 1) t)
      (let t' := t - (gstf - 1) in if Nat.ltb (p_max p) (t' + gstf) then Oob else Ok (Some t'))
  else Ok None.

(** autocorrelator_peak_t::search_by_correlation(): autocorrelator_peak.cpp 145-220. If the limit were smaller than
    localbuffer_cnt_r, consumable would wrap and fail the assertion. The result is None while the search is not
    complete. *)
Definition peak_search (sg : sig) (h : hit) (w : nat) (p : pkst) : res (option (option nat) * pkst) :=
  let limit := Nat.min (p_max p) w in
  if Nat.ltb limit (p_r p) then Abort else
  let consumable := limit - p_r p in
  guard (Nat.leb consumable gD)
    (do l <- all_ants sg consumable (p_r p) 0 (p_ants p);
     let p' := Pkst limit (p_max p) l in
     if Nat.eqb limit (p_max p) then do o <- post_processing h p'; Ok (Some o, p') else Ok (None, p')).

(** the loop of the peak search: sync_chunk.cpp 182-189 *)
Fixpoint peak_loop (fuel : nat) (sg : sig) (extra : nat -> nat) (h : hit) (p : pkst) (b : buf) : res (option nat * pkst * buf) :=
  match fuel with
  | 0 => Throw
  | S f =>
      do b' <- resample extra (peak_required p) b;
      do op <- peak_search sg h (b_w b') p;
      match fst op with
      | Some o => Ok (o, snd op, b')
      | None => peak_loop f sg extra h (snd op) b'
      end
  end.

(** What happens in the course of a search: the callback for irregular jobs with the given number of samples after
    the beginning of the chunk, or a packet: detection_time_local and coarse_peak_time_local. *)
Inductive event := Callback (t : nat) | Packet (det coarse : nat).

(** search(), the loop and what follows a detection: sync_chunk.cpp 160-278. The fine search of the crosscorrelator
    (234-257) works on another buffer and does not influence this one. *)
Fixpoint search (fuel : nat) (sg : sig) (extra : nat -> nat) (d : dst) (b : buf) : res (bool * dst * buf * list event) :=
  match fuel with
  | 0 => Throw
  | S f =>
      if Nat.ltb (d_r d) gslen then
        do b1 <- resample extra (d_r d + gstep) b;
        do hd <- det_search (S (b_w b1)) sg (b_w b1) d;
        let d1 := snd hd in
        match fst hd with
        | Some h =>
            guard (Nat.leb gstf (h_r h - gjump))
              (do p <- peak_init (h_r h - gjump);
               do x <- peak_loop (S gD) sg extra h p b1;
               let '(o, p', b2) := x in
               guard (Nat.leb (p_r p') (gslen + gP + gstf))
                 match o with
                 | Some t => do d2 <- skip_after_peak t d1; Ok (true, d2, b2, [Packet (h_r h) t])
                 | None =>
                     do y <- search f sg extra d1 b2;
                     let '(found, d3, b3, ev) := y in Ok (found, d3, b3, Callback (d_r d1) :: ev)
                 end)
        | None =>
            do y <- search f sg extra d1 b1;
            let '(found, d3, b3, ev) := y in Ok (found, d3, b3, Callback (d_r d1) :: ev)
        end
      else Ok (false, d, b, [])
  end.

(** wait_for_chunk_nto(): sync_chunk.cpp 299-310, with reset() and set_power_of_first_stf_pattern():
    autocorrelator_detection.cpp 96-135. [d] is the state left by the chunk before. *)
Definition start_chunk (extra : nat -> nat) (d : dst) : res (dst * buf) :=
  do b <- resample extra gP (Buf 0 0);
  guard (Nat.leb gP (b_w b)) (Ok (Dst gP gstart (map (fun _ => streak_reset) (d_streak d)), b)).

(** The calls of search() by worker_sync_t until is_chunk_completely_processed() (sync_chunk.cpp 280-283), when the
    next call would proceed to the next chunk (154-157). *)
Fixpoint calls (fuel : nat) (sg : sig) (extra : nat -> nat) (d : dst) (b : buf) : res (list event) :=
  match fuel with
  | 0 => Throw
  | S f =>
      if Nat.leb gslen (d_r d) then Ok [] else
      do x <- search (S gslen) sg extra d b;
      let '(_, d', b', ev) := x in
      do ev' <- calls f sg extra d' b';
      Ok (ev ++ ev')
  end.

Definition chunk (sg : sig) (extra : nat -> nat) (d : dst) : res (list event) :=
  do x <- start_chunk extra d; calls (S gslen) sg extra (fst x) (snd x).

End Search.

(** convert_length_resampled_to_global(): rx_pacer.cpp 306-313; the resampler of the receiver has M = rL and L = rM of
    resampler_param (sync_chunk.cpp 44-46). Doubles are exact enough for lengths below 2^32. *)
Record rscfg := Rscfg { rL : Z; rM : Z }.
Definition to_global (rs : rscfg) (n : nat) : Z := round_div (Z.of_nat n * rL rs) (rM rs).

(** search_length_l, which equals search_length_r: crosscorrelator.cpp 53-56, 16 samples *)
Definition search_l (c : scfg) (rs : rscfg) : Z := (16 * Z.of_nat (gbos c) * rL rs / rM rs)%Z.

(** coarse_peak_time_64 and fine_peak_time_64: sync_chunk.cpp 206-207, 254-257; [fine] is fine_peak_time_local *)
Definition fine_time (c : scfg) (rs : rscfg) (chunk_start : Z) (coarse : nat) (fine : Z) : Z :=
  (chunk_start + to_global rs coarse - search_l c rs + fine)%Z.

(** get_sync_time_unique_limit(): worker_pool.cpp 299-324 *)
Definition unique_limit (c : scfg) : Z := Z.of_nat (gP c).
