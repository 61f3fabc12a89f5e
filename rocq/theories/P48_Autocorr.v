(** C55. The packet detector correlates and measures exactly the last STF-long piece of the signal. *)
From Verif Require Import Base MovSum MovSumSpec MovSumFacts Autocorr AutocorrSpec AutocorrFacts.

(** Whatever is pushed, summed anew or reset, in any order: no access outside the register, and without rounding
    the sum is the sum of the n most recent values. *)
Theorem C55_sum : forall V (O : ops V), exact O -> forall n os, 0 < n ->
  exists m, run O os (make O n) = Ok m /\ sum m = sumf O n (recent O n (history os)).
Proof.
  intros V O [(one & mul & opp & RT) E1 En E2 Ea] n os N.
  destruct (inv_run O one mul opp RT E1 En E2 Ea n os (make O n) [] (inv_make O one mul opp RT E1 En E2 Ea n _ N eq_refl) N) as (m & R & [_ S]).
  exists m. split; [exact R|exact S].
Qed.
Print Assumptions C55_sum.

(** The same with signs: the window is cut into blocks of r values, block i is weighted with the i-th sign. The
    constructor accepts every sequence of signs that ends with plus one. *)
Theorem C55_weighted_sum : forall V (O : ops V), exact O -> forall u r os, signs u -> 0 < r ->
  exists c m0 m, make_uw O u r = Ok (c, m0) /\ run_uw O c os m0 = Ok m /\
    sum m = weighted O u r (recent O (length u * r) (history os)).
Proof.
  intros V O [(one & mul & opp & RT) E1 En E2 Ea] u r os Su Hr.
  pose proof (make_uw_ok O one mul opp RT E1 En E2 Ea u r Su Hr) as M.
  destruct (invw_run O one mul opp RT E1 En E2 Ea u r Su Hr os (make O (length u * r)) []) as (m & R & [_ S]).
  { apply (invw_make O one mul opp RT E1 En E2 Ea u r Su Hr). reflexivity. }
  do 3 eexists. split; [exact M|]. split; [exact R|exact S].
Qed.
Print Assumptions C55_weighted_sum.

(** Rounding: a sum computed anew depends on the window only. For any arithmetic whatsoever, two histories with the
    same n most recent values (and the same position of the pointer) end in the same state once summed anew, so
    rounding errors never survive the next summation. *)
Theorem C55_resum_forgets : forall V (O : ops V) n os1 os2 m1 m2, 0 < n ->
  run O os1 (make O n) = Ok m1 -> run O os2 (make O n) = Ok m2 ->
  length (history os1) mod n = length (history os2) mod n ->
  (forall i, i < n -> recent O n (history os1) i = recent O n (history os2) i) ->
  resum O m1 = resum O m2.
Proof.
  intros V O n os1 os2 m1 m2 N R1 R2 EL ER.
  pose proof (kept_run O n N os1 _ [] _ (kept_zero O n _ N) R1) as K1. pose proof (kept_run O n N os2 _ [] _ (kept_zero O n _ N) R2) as K2.
  destruct (kept_same O n m1 m2 _ _ K1 K2 EL ER) as [E P]. unfold resum. rewrite E, P. reflexivity.
Qed.
Print Assumptions C55_resum_forgets.

Theorem C55_resum_forgets_weighted : forall V (O : ops V), (forall v, scale O 1 v = v) ->
  forall u r c m0 os1 os2 m1 m2, signs u -> 0 < r -> make_uw O u r = Ok (c, m0) ->
  run_uw O c os1 m0 = Ok m1 -> run_uw O c os2 m0 = Ok m2 ->
  length (history os1) mod (length u * r) = length (history os2) mod (length u * r) ->
  (forall i, i < length u * r -> recent O (length u * r) (history os1) i = recent O (length u * r) (history os2) i) ->
  resum_uw O c m1 = resum_uw O c m2.
Proof.
  intros V O E1 u r c m0 os1 os2 m1 m2 Su Hr M R1 R2 EL ER.
  assert (N : 0 < length u * r) by (destruct Su as [NE _]; destruct u; [congruence|cbn [length]; nia]).
  assert (CM : uw c = u /\ m0 = make O (length u * r)).
  { unfold make_uw in M. destruct u as [|a t]; [discriminate|]. apply bind_ok_inv in M as (pn & _ & M). apply bind_ok_inv in M as (np & _ & M).
    unfold guard in M. destruct (Z.eqb (last (a :: t) 0%Z) 1); [|discriminate]. destruct (Z.eqb (Z.abs (hd 0%Z (a :: t))) 1); [|discriminate].
    injection M as <- <-. split; reflexivity. }
  destruct CM as [CU ->].
  assert (S1 : forall v, scale O (last (uw c) 0%Z) v = v) by (intros v; rewrite CU; destruct Su as [_ [_ ->]]; apply E1).
  pose proof (kept_run_uw O _ c N S1 os1 _ [] _ (kept_zero O _ _ N) R1) as K1.
  pose proof (kept_run_uw O _ c N S1 os2 _ [] _ (kept_zero O _ _ N) R2) as K2.
  destruct (kept_same O _ m1 m2 _ _ K1 K2 EL ER) as [E P]. unfold resum_uw. rewrite E, P.
  assert (X : forall k i s, resum_loop O c m1 k i s = resum_loop O c m2 k i s).
  { induction k as [|k IH]; intros i s; [reflexivity|]. cbn [resum_loop]. unfold front_idx, len. rewrite E, P.
    destruct (Nat.eqb (length (reg m2)) 0); [reflexivity|]. cbn [bind].
    match goal with |- bind ?a _ = bind ?a _ => destruct a; cbn [bind]; auto end. }
  rewrite X. reflexivity.
Qed.
Print Assumptions C55_resum_forgets_weighted.

(** What get_sum_front(k) and get_sum_back(k) deliver: the front is the oldest value and the k-1 newest ones, the
    back starts with the second oldest value. *)
Theorem C55_front_back : forall V (O : ops V), exact O -> forall n os m, 0 < n -> run O os (make O n) = Ok m ->
  (forall k, 1 <= k <= n -> sum_front O m k =
     Ok (add O (recent O n (history os) 0) (sumf O (k - 1) (fun t => recent O n (history os) (n - 1 - t))))) /\
  (forall k, k < n -> sum_back O m k = Ok (sumf O k (fun t => recent O n (history os) (1 + t)))).
Proof.
  intros V O [(one & mul & opp & RT) E1 En E2 Ea] n os m N R.
  destruct (inv_run O one mul opp RT E1 En E2 Ea n os (make O n) [] (inv_make O one mul opp RT E1 En E2 Ea n _ N eq_refl) N) as (m' & R' & [H _]).
  rewrite R in R'. injection R' as <-. split; intros k Hk.
  - apply (sum_front_ok O one mul opp RT E1 En E2 Ea n m _ k H Hk).
  - apply (sum_back_ok O one mul opp RT E1 En E2 Ea n m _ k H Hk).
Qed.
Print Assumptions C55_front_back.

(** Finding: the front is meant to be the k newest values and the back the k oldest ones. With a strong packet
    leaving the window (oldest value 100, all others 1) the newest two values sum up to 2 and the oldest two to
    101, yet the check "the power must not fall" sees 101 at the front and 2 at the back and lets it pass. *)
Theorem C55_front_back_shifted_refuted :
  ~ (forall os m, run Zops os (make Zops 28) = Ok m ->
       power_falls m = Ok (Z.leb (4 * (recent Zops 28 (history os) 27 + recent Zops 28 (history os) 26))
                                 (recent Zops 28 (history os) 0 + recent Zops 28 (history os) 1))).
Proof.
  intros H. specialize (H (map Push (100%Z :: repeat 1%Z 27))).
  destruct (run Zops (map Push (100%Z :: repeat 1%Z 27)) (make Zops 28)) as [m| | |] eqn:E; vm_compute in E; try discriminate.
  injection E as <-. specialize (H _ eq_refl). vm_compute in H. discriminate.
Qed.
Print Assumptions C55_front_back_shifted_refuted.

(** Detection. For 7 or 9 patterns of P samples (P a multiple of the step divider), every signal and every number k
    of steps that fits into the signal: construction, reading the first pattern and the k steps succeed, the
    detector has consumed P + k * step samples, and once an STF fits before its position, its two sums are the
    correlation and the power of the STF-long piece of signal right before that position, with or without a
    summation anew in between. *)
Theorem C55_detection : forall N P div x cnt_w k,
  (N = 7 \/ N = 9) -> 0 < div -> 0 < P -> P mod div = 0 -> P <= cnt_w ->
  P + k * (P / div) <= length x ->
  let c := Acfg N P div in
  exists u d0 d1 d, det_make c = Ok (u, d0) /\ first_pattern c x cnt_w d0 = Ok d1 /\ det_steps c u x k d1 = Ok d /\
    d_r d = P + k * (P / div) /\
    (N * P <= d_r d -> sum (d_corr d) = stf_corr x (d_r d - N * P) N P /\ sum (d_pow d) = stf_power x (d_r d - N * P) N P).
Proof.
  intros N P div x cnt_w k HN Hd HP HM HW HL c. set (s := P / div) in *.
  assert (PS : P = div * s).
  { pose proof (Nat.div_mod P div ltac:(lia)) as DM. rewrite HM, Nat.add_0_r in DM. exact DM. }
  clearbody s.
  assert (Hs : 0 < s) by nia.
  pose proof (det_make_ok c HN Hd) as E0.
  destruct (first_ok c HN s Hs Hd PS x cnt_w HW) as (d1 & E1 & I1); [cbn [aP c]; lia|].
  destruct (steps_ok c HN s Hs Hd PS x k 0 d1 I1) as (d & E2 & I2); [exact HL|].
  do 4 eexists. split; [exact E0|]. split; [exact E1|]. split; [exact E2|]. split; [apply I2|]. intros Hr.
  split; [apply (dinv_corr c HN s Hs Hd PS x k d I2 Hr)|apply (dinv_pow c HN s Hs Hd PS x k d I2 Hr)].
Qed.
Print Assumptions C55_detection.

(** Peak search. From any position a, after consuming any number of further samples one by one and whichever
    samples are followed by a summation anew, the two sums are again the correlation and the power of the last
    STF-long piece, now starting at a plus the number of samples consumed. *)
Theorem C55_peak : forall N P div x a agains,
  (N = 7 \/ N = 9) -> 0 < P -> a + N * P + length agains <= length x ->
  let c := Acfg N P div in
  exists u p0, pk_make c = Ok (u, p0) /\
    forall p, len (p_corr p) = len (p_corr p0) ->
    exists p1 p2, pk_initial c u x a p = Ok p1 /\ pk_steps c u x (a + N * P) agains p1 = Ok p2 /\
      sum (p_corr p2) = stf_corr x (a + length agains) N P /\ sum (p_pow p2) = stf_power x (a + length agains) N P.
Proof.
  intros N P div x a agains HN HP HL c. pose proof (pk_make_ok c HN HP) as E0. do 2 eexists. split; [exact E0|].
  intros p Hp. cbn [p_corr] in Hp. unfold make, len in Hp. cbn [reg] in Hp. rewrite repeat_length in Hp.
  destruct (initial_ok c HN HP x a p) as (p1 & E1 & I1); [exact Hp|cbn [aN aP c]; lia|].
  destruct (psteps_ok c HN HP x a agains 0 p1 I1) as (p2 & E2 & I2); [cbn [aN aP c]; lia|]. rewrite Nat.add_0_r in E2.
  exists p1, p2. split; [exact E1|]. split; [exact E2|].
  split; [apply (pinv_corr c HN HP x a _ p2 I2)|apply (pinv_pow c HN HP x a _ p2 I2)].
Qed.
Print Assumptions C55_peak.

(** The metric (N/(N-1) * |correlation| / power)^2 never exceeds 1.5, so without rounding the upper threshold of
    1.50 rejects nothing. *)
Theorem C55_metric_below_threshold : forall N P x a, (N = 7 \/ N = 9) -> 0 < P ->
  (2 * (Z.of_nat N * Z.of_nat N) * norm2 (stf_corr x a N P) <=
   3 * (Z.of_nat (N - 1) * Z.of_nat (N - 1)) * (stf_power x a N P * stf_power x a N P))%Z.
Proof.
  intros N P x a HN HP. assert (R : 1 <= N <= 9) by lia. pose proof (stf_corr_bound x a N P R HP) as B.
  pose proof (Z.square_nonneg (stf_power x a N P)) as S. set (p2 := (stf_power x a N P * stf_power x a N P)%Z) in *.
  destruct HN as [-> | ->]; cbn [Nat.sub]; lia.
Qed.
Print Assumptions C55_metric_below_threshold.

(** Finding: the metric is not "normalized to the range 0 to 1.0" (autocorrelator_detection.cpp 241): a signal with
    fading edges exceeds 1. *)
Theorem C55_metric_above_one_refuted :
  ~ (forall N P x a, (N = 7 \/ N = 9) -> 0 < P ->
      (Z.of_nat N * Z.of_nat N * norm2 (stf_corr x a N P) <=
       Z.of_nat (N - 1) * Z.of_nat (N - 1) * (stf_power x a N P * stf_power x a N P))%Z).
Proof.
  intros H. specialize (H 7 1 [(1, 0); (-2, 0); (2, 0); (2, 0); (-2, 0); (-2, 0); (-1, 0)]%Z 0 (or_introl eq_refl) (le_n 1)).
  vm_compute in H. apply H. reflexivity.
Qed.
Print Assumptions C55_metric_above_one_refuted.

(** An undisturbed STF, with any pattern and rotated by w from each pattern to the next: at its position the power is
    N times and the correlation N-1 times the energy of the pattern, rotated by the conjugate of w. The metric is
    exactly 1 and the phase of the correlation is the frequency offset. *)
Theorem C55_clean_packet : forall N P x a p w, (N = 7 \/ N = 9) -> norm2 w = 1%Z -> is_stf x a N P p w ->
  stf_power x a N P = (Z.of_nat N * energy p P)%Z /\
  stf_corr x a N P = cscale (Z.of_nat (N - 1) * energy p P) (conj w) /\
  (Z.of_nat N * Z.of_nat N * norm2 (stf_corr x a N P) =
   Z.of_nat (N - 1) * Z.of_nat (N - 1) * (stf_power x a N P * stf_power x a N P))%Z.
Proof.
  intros N P x a p w HN Hw H. assert (R : 1 <= N <= 9) by lia.
  rewrite (clean_power x a N P p w (proj2 R) Hw H), (clean_corr x a N P p w R Hw H). split; [reflexivity|]. split; [reflexivity|].
  set (E := energy p P). destruct w as [w1 w2]. csimp.
  transitivity (Z.of_nat N * Z.of_nat N * (Z.of_nat (N - 1) * Z.of_nat (N - 1) * (E * E)) * (w1 * w1 + w2 * w2))%Z; [ring|].
  rewrite Hw. ring.
Qed.
Print Assumptions C55_clean_packet.

(** * The hypotheses are met *)
Example exact_Z : exact Zops. Proof. exact Z_exact. Qed.
Example exact_C : exact Cops. Proof. exact C_exact. Qed.
Example signs_cover : pairwise_product 1 = Ok [-1; -1; 1; -1; 1; 1]%Z /\ signs [-1; -1; 1; -1; 1; 1]%Z.
Proof. split; [reflexivity|]. apply (pp_signs 7). auto. Qed.

(** An STF of 7 patterns of 4 samples, rotated by i from pattern to pattern, after 9 other samples. *)
Definition ex_pattern (t : nat) : C := nth t [(3, 1); (-2, 0); (0, 5); (1, -1)]%Z (0, 0)%Z.
Definition ex_signal : list C :=
  repeat (1, 2)%Z 9 ++
  map (fun i => cscale (cover (i / 4)) (cmul (cpow (0, 1)%Z (i / 4)) (ex_pattern (i mod 4)))) (seq 0 28) ++ repeat (2, 0)%Z 12.

Example ex_is_stf : is_stf ex_signal 9 7 4 ex_pattern (0, 1)%Z.
Proof.
  intros j t Hj Ht. do 7 (destruct j as [|j]; [do 4 (destruct t as [|t]; [reflexivity|]); lia|]). lia.
Qed.

(** The peak search started at 2 finds the same sums 7 samples later; the energy of the pattern is 41. *)
Example ex_peak :
  match pk_make (Acfg 7 4 4) with
  | Ok (u, p0) =>
      match (do p1 <- pk_initial (Acfg 7 4 4) u ex_signal 2 p0;
             pk_steps (Acfg 7 4 4) u ex_signal 30 [false; true; false; false; true; false; false] p1) with
      | Ok p => (sum (p_corr p), sum (p_pow p)) = ((0, -246), 287)%Z
      | _ => False
      end
  | _ => False
  end.
Proof. vm_compute. reflexivity. Qed.

(** Two different histories with the same window: a large value has left it. *)
Example ex_forgets :
  let os1 := map Push [1; 2; 3]%Z in let os2 := map Push [7; 8; 9; 1; 2; 3]%Z in
  length (history os1) mod 3 = length (history os2) mod 3 /\
  (forall i, i < 3 -> recent Zops 3 (history os1) i = recent Zops 3 (history os2) i).
Proof. split; [reflexivity|]. intros i Hi. do 3 (destruct i as [|i]; [reflexivity|]). lia. Qed.
