(** The autocorrelators of the packet detector on one antenna: what is pushed into the moving sums, and when.
    Models lib/src/phy/rx/sync/autocorrelator_detection.cpp and lib/src/phy/rx/sync/autocorrelator_peak.cpp.
    Samples are pairs of integers (fixed point): rounding of floats is not modelled. The antennas do not interact
    in these functions, so that one is modelled; the conditions on the metric are left out (they are comparisons
    of get_sum() with thresholds), except for the comparison of front and back power. *)
From Verif Require Import Base MovSum MovSumSpec.

(** stf_nof_pattern, stf_bos_pattern_length_samples and RX_SYNC_PARAM_AUTOCORRELATOR_DETECTION_STEP_DIVIDER:
    autocorrelator_detection.cpp 44-49, sync_param.hpp; stf_bos_length_samples is aN * aP *)
Record acfg := Acfg { aN : nat; aP : nat; adiv : nat }.

(** search_step_samples: autocorrelator_detection.cpp 48-49 *)
Definition astep (c : acfg) : nat := aP c / adiv c.

(** volk_32fc_x2_multiply_conjugate_32fc: products of n samples from position a with the conjugates of n samples
    from position b of the local buffer *)
Definition products (x : list C) (a b n : nat) : res (list C) :=
  do la <- slice x a n;
  do lb <- slice x b n;
  Ok (map (fun p => cmul (fst p) (conj (snd p))) (combine la lb)).

(** volk_32fc_x2_conjugate_dot_prod_32fc: their sum *)
Definition dotprod (x : list C) (a b n : nat) : res C := do l <- products x a b n; Ok (acc Cops l).

(** localbuffer_cnt_r, movsums_correlation, movsums_power, resum_cnt: autocorrelator_detection.hpp *)
Record det := Det { d_r : nat; d_corr : ms C; d_pow : ms Z; d_cnt : nat }.

(** constructor: autocorrelator_detection.cpp 80-93 *)
Definition det_make (c : acfg) : res (ucfg * det) :=
  do pp <- pairwise_product (equivalent_u (aN c));
  do um <- make_uw Cops pp (adiv c);
  Ok (fst um, Det 0 (snd um) (make Zops (aN c * adiv c)) 0).

(** reset(): autocorrelator_detection.cpp 96-114 *)
Definition det_reset (d : det) : det := Det 0 (reset Cops (d_corr d)) (reset Zops (d_pow d)) 0.

(** the inner loop of set_power_of_first_stf_pattern(): autocorrelator_detection.cpp 123-131 *)
Fixpoint first_loop (c : acfg) (x : list C) (k i : nat) (m : ms Z) : res (ms Z) :=
  match k with
  | 0 => Ok m
  | S k' =>
      do v <- dotprod x (i * astep c) (i * astep c) (astep c);
      do m' <- pop_push Zops (fst v) m;
      first_loop c x k' (S i) m'
  end.

(** set_power_of_first_stf_pattern(): autocorrelator_detection.cpp 116-135 *)
Definition first_pattern (c : acfg) (x : list C) (cnt_w : nat) (d : det) : res det :=
  guard (Nat.eqb (d_r d) 0) (guard (Nat.leb (aP c) cnt_w)
    (do m <- first_loop c x (adiv c) 0 (d_pow d); Ok (Det (aP c) (d_corr d) m (d_cnt d)))).

(** one round of the loop of search_by_correlation() up to the check of the metric:
    autocorrelator_detection.cpp 159-184, RESUM_PERIODICITY_IN_STEPS is 16 *)
Definition det_step (c : acfg) (u : ucfg) (x : list C) (d : det) : res det :=
  do v <- dotprod x (d_r d - aP c) (d_r d) (astep c);
  do mc <- pop_push_uw Cops u v (d_corr d);
  do w <- dotprod x (d_r d) (d_r d) (astep c);
  do mp <- pop_push Zops (fst w) (d_pow d);
  if Nat.eqb (d_cnt d) 16 then
    do mc' <- resum_uw Cops u mc; Ok (Det (d_r d + astep c) mc' (resum Zops mp) 0)
  else Ok (Det (d_r d + astep c) mc mp (d_cnt d + 1)).

Fixpoint det_steps (c : acfg) (u : ucfg) (x : list C) (k : nat) (d : det) : res det :=
  match k with 0 => Ok d | S k' => do d' <- det_step c u x d; det_steps c u x k' d' end.

(** the comparison of the front with the back of the window: autocorrelator_detection.cpp 217-229. The code
    compares roots: 0.5 * sqrt(back) >= sqrt(front), that is back >= 4 * front. FRONT_STEPS and BACK_STEPS are 2.
    True if the step is skipped. *)
Definition power_falls (m : ms Z) : res bool :=
  do back <- sum_back Zops m 2;
  do front <- sum_front Zops m 2;
  Ok (Z.leb (4 * front) back).

(** movsums_correlation and movsums_power of autocorrelator_peak_t *)
Record pk := Pk { p_corr : ms C; p_pow : ms Z }.

(** constructor: autocorrelator_peak.cpp 83-89 *)
Definition pk_make (c : acfg) : res (ucfg * pk) :=
  do pp <- pairwise_product (equivalent_u (aN c));
  do um <- make_uw Cops pp (aP c);
  Ok (fst um, Pk (snd um) (make Zops (aN c * aP c))).

(** set_initial_movsums(): autocorrelator_peak.cpp 238-277 *)
Definition pk_initial (c : acfg) (u : ucfg) (x : list C) (start : nat) (p : pk) : res pk :=
  do l <- products x start (start + aP c) (len (p_corr p));
  do mc <- resum_uw Cops u (fill l (p_corr p));
  do l2 <- products x start start (aN c * aP c);
  Ok (Pk mc (resum Zops (fill (map fst l2) (p_pow p)))).

(** one round of the inner loop of search_by_correlation(): autocorrelator_peak.cpp 158-171 and 198-201, r is
    localbuffer_cnt_r + consumed. The counter that decides about the summation anew runs over the samples of all
    antennas: [again] says whether it is due after this sample. *)
Definition pk_step (c : acfg) (u : ucfg) (x : list C) (r : nat) (again : bool) (p : pk) : res pk :=
  do l <- products x (r - aP c) r 1;
  do mc <- pop_push_uw Cops u (hd (0, 0)%Z l) (p_corr p);
  do l2 <- products x r r 1;
  do mp <- pop_push Zops (fst (hd (0, 0)%Z l2)) (p_pow p);
  if again then do mc' <- resum_uw Cops u mc; Ok (Pk mc' (resum Zops mp)) else Ok (Pk mc mp).

Fixpoint pk_steps (c : acfg) (u : ucfg) (x : list C) (r : nat) (agains : list bool) (p : pk) : res pk :=
  match agains with [] => Ok p | b :: bs => do p' <- pk_step c u x r b p; pk_steps c u x (S r) bs p' end.
