(** C33: durations convert without loss. *)
From Verif Require Import Base IntHelpers IntHelpersSpec IntHelpersFacts Duration DurationSpec.

Lemma divisor_per_second ec : samp_rate_divisor ec = per_second ec.
Proof. destruct ec; reflexivity. Qed.
Lemma divisor_pos ec : (0 < samp_rate_divisor ec)%N.
Proof. destruct ec; reflexivity. Qed.
Lemma duration_val sr ec mult : (0 < sr)%N -> (0 < mult)%N -> (sr mod samp_rate_divisor ec = 0)%N ->
  (sr / samp_rate_divisor ec * mult <= 2147483647)%N ->
  duration_new sr ec mult = Ok (mkDur sr ec mult (sr / samp_rate_divisor ec * mult)).
Proof.
  intros H1 H2 H3 H4. unfold duration_new. pose proof (divisor_pos ec).
  assert (sr = samp_rate_divisor ec * (sr / samp_rate_divisor ec))%N by (apply N.div_exact; lia).
  replace (0 <? sr)%N with true by lia. replace (0 <? mult)%N with true by lia. cbn [guard].
  rewrite H3. cbn [N.eqb]. replace (0 <? sr / samp_rate_divisor ec)%N with true by (symmetry; apply N.ltb_lt; nia).
  cbn [guard]. replace (sr / samp_rate_divisor ec * mult <=? 2147483647)%N with true by lia. cbn [guard].
  rewrite N.mod_small; [reflexivity|]. change (2 ^ 32)%N with 4294967296%N. lia.
Qed.

(** A duration object is created exactly if the sample rate is positive and a multiple of the number of durations
    per second, the multiplier positive and the result at most 2^31 - 1 samples; it then lasts exactly that long.
    Every other request aborts. *)
Theorem C33_duration_exact : forall sr ec mult,
  let good := (0 < sr)%N /\ (0 < mult)%N /\ (per_second ec | sr)%N /\ (sr / per_second ec * mult < 2 ^ 31)%N in
  (good -> exists d, duration_new sr ec mult = Ok d /\ du_samp_rate d = sr /\ lasts sr ec mult (du_N d)) /\
  (~ good -> duration_new sr ec mult = Abort).
Proof.
  intros sr ec mult good. subst good. pose proof (divisor_pos ec) as P. rewrite <- !divisor_per_second. split.
  - intros (H1 & H2 & H3 & H4). apply N.mod_divide in H3; [|lia]. change (2 ^ 31)%N with 2147483648%N in H4.
    rewrite duration_val by (auto; lia). eexists. split; [reflexivity|]. split; [reflexivity|]. unfold lasts. cbn [du_N].
    rewrite <- (divisor_per_second ec). apply N.div_exact in H3; [|lia]. nia.
  - intros H. unfold duration_new. destruct (N.ltb_spec 0 sr); [|reflexivity]. destruct (N.ltb_spec 0 mult); [|reflexivity]. cbn [guard].
    destruct (sr mod samp_rate_divisor ec =? 0)%N eqn:E; [|reflexivity]. cbn [guard].
    destruct (0 <? sr / samp_rate_divisor ec)%N; [|reflexivity]. cbn [guard].
    destruct (sr / samp_rate_divisor ec * mult <=? 2147483647)%N eqn:F; [|reflexivity]. exfalso. apply H.
    split; [auto|]. split; [auto|]. split; [apply N.mod_divide; lia|]. change (2 ^ 31)%N with 2147483648%N. lia.
Qed.

(** The lookup table is created exactly for positive multiples of 192000 below 2^31; it aborts for all other rates. *)
Theorem C33_lookup_table : forall sr,
  let good := (0 < sr < 2 ^ 31)%N /\ (192000 | sr)%N in
  (good -> exists l, lut_new sr = Ok l /\ lut_rate l = sr) /\ (~ good -> lut_new sr = Abort).
Proof.
  intros sr good.
  assert (G : good <-> forallb (fun ec => is_ok (duration_new sr ec 1)) all_ec = true).
  { subst good. rewrite forallb_forall. split.
    - intros ((H1 & H2) & (k & ->)) ec _.
      rewrite duration_val; [reflexivity|lia|lia| |].
      + destruct ec; cbn [samp_rate_divisor]; apply N.mod_divide; try lia;
          [exists (k * 192)%N|exists (k * 192000)%N|exists (k * 80)%N|exists (k * 40)%N|exists (k * 20)%N|exists (k * 10)%N|exists (k * 5)%N]; lia.
      + rewrite N.mul_1_r. change (2 ^ 31)%N with 2147483648%N in H2.
        assert (k * 192000 / samp_rate_divisor ec <= k * 192000 / 1)%N by (apply N.div_le_compat_l; pose proof (divisor_pos ec); lia).
        rewrite N.div_1_r in H. lia.
    - intros H. assert (K : forall ec, (0 < sr)%N /\ (per_second ec | sr)%N /\ (sr / per_second ec < 2 ^ 31)%N).
      { intros ec. specialize (H ec). assert (I : In ec all_ec) by (destruct ec; cbn; tauto). specialize (H I).
        destruct (C33_duration_exact sr ec 1) as (_ & N).
        destruct (N.ltb_spec 0 sr) as [A|A]; [|rewrite N in H by (intros Q; lia); discriminate].
        destruct (N.eq_dec (sr mod per_second ec) 0) as [B|B].
        - assert (D : (per_second ec | sr)%N) by (apply N.mod_divide; [destruct ec; discriminate|exact B]).
          destruct (N.ltb_spec (sr / per_second ec) (2 ^ 31)) as [C|C]; [auto|].
          rewrite N in H; [discriminate|]. rewrite N.mul_1_r. intros Q. lia.
        - rewrite N in H; [discriminate|]. intros (_ & _ & D & _). apply N.mod_divide in D; [contradiction|destruct ec; discriminate]. }
      destruct (K s001) as (K1 & _ & K2). destruct (K ms001) as (_ & (a & A) & _). destruct (K subslot_u8_001) as (_ & (b & B) & _).
      cbn [per_second] in *. rewrite N.div_1_r in K2. split; [lia|].
      change (16 * 2400)%N with 38400%N in B. rewrite A in B.
      (* a * 1000 = b * 38400, so 5 a = 192 b and 192 divides a *)
      assert (D : (192 | a)%N). { apply N.gauss with (m := 5%N); [exists b; lia|reflexivity]. }
      destruct D as (c & ->). exists c. lia. }
  split.
  - intros H. apply G in H. unfold lut_new. rewrite H. eexists. split; reflexivity.
  - intros H. unfold lut_new. destruct forallb; [exfalso; tauto|reflexivity].
Qed.

(** Conversions with the table are exact for every multiplier, without overflow. *)
Theorem C33_conversion_exact : forall sr l ec mult, lut_new sr = Ok l -> (mult < 2 ^ 32)%N ->
  exists n, get_N_samples_from_duration l ec mult = Ok (Z.of_N n) /\ lasts sr ec mult n.
Proof.
  intros sr l ec mult H M. unfold lut_new in H. destruct (forallb _ _) eqn:F; [|discriminate]. injection H as <-.
  rewrite forallb_forall in F. assert (I : In ec all_ec) by (destruct ec; cbn; tauto). specialize (F ec I).
  unfold get_N_samples_from_duration. cbn [lut_vec]. unfold lut_entry.
  destruct (C33_duration_exact sr ec 1) as (_ & N).
  destruct (duration_new sr ec 1) as [d| | |] eqn:E; try discriminate.
  assert (D : duration_new sr ec 1 = Ok d -> lasts sr ec 1 (du_N d) /\ (du_N d < 2 ^ 31)%N).
  { intros _. unfold duration_new in E. repeat (destruct (_ <? _)%N in E; [|discriminate]; cbn [guard] in E).
    destruct (sr mod samp_rate_divisor ec =? 0)%N eqn:E1; [|discriminate]. cbn [guard] in E.
    destruct (0 <? sr / samp_rate_divisor ec)%N eqn:E2; [|discriminate]. cbn [guard] in E.
    destruct (sr / samp_rate_divisor ec * 1 <=? 2147483647)%N eqn:E3; [|discriminate]. injection E as <-. cbn [du_N].
    rewrite N.mod_small by (change (2 ^ 32)%N with 4294967296%N; lia).
    unfold lasts. change (per_second ec) with (samp_rate_divisor ec) || replace (per_second ec) with (samp_rate_divisor ec) by apply divisor_per_second. pose proof (divisor_pos ec).
    assert (K : (sr mod samp_rate_divisor ec = 0)%N) by lia. apply N.div_exact in K; [|lia].
    change (2 ^ 31)%N with 2147483648%N. nia. }
  destruct (D E) as (L & B). exists (du_N d * mult)%N. split.
  - rewrite <- N2Z.inj_mul. apply sgn_ok, in_signed_iff. change (2 ^ (Z.of_N 64 - 1))%Z with 9223372036854775808%Z.
    change (2 ^ 31)%N with 2147483648%N in B. change (2 ^ 32)%N with 4294967296%N in M. nia.
  - unfold lasts in *. nia.
Qed.
Theorem C33_subslots_exact : forall sr l u mult, lut_new sr = Ok l -> (mult < 2 ^ 32)%N -> In u [1; 2; 4; 8]%N ->
  exists n, get_N_samples_from_subslots l u mult = Ok (Z.of_N n) /\ (n * (4800 * u) = sr * mult)%N.
Proof.
  intros sr l u mult H M U. unfold get_N_samples_from_subslots.
  cbn [In] in U. destruct U as [<-|[<-|[<-|[<-|[]]]]]; cbn [get_duration_ec_depending_on_mu bind];
    match goal with |- context [get_N_samples_from_duration l ?ec mult] => destruct (C33_conversion_exact sr l ec mult H M) as (n & E & L) end;
    exists n; (split; [exact E|]); unfold lasts in L; cbn [per_second] in L; lia.
Qed.

(** The last and the next full second bracket every non-negative time: multiples of the sample rate, the closest ones. *)
Theorem C33_full_seconds : forall sr l t, lut_new sr = Ok l -> (0 <= t < 2 ^ 63 - 2 ^ 31)%Z ->
  exists a b, get_N_samples_at_last_full_second l t = Ok a /\ get_N_samples_at_next_full_second l t = Ok b /\
    is_mult_below t (Z.of_N sr) a /\ is_mult_above t (Z.of_N sr) b /\ (a <= t <= b)%Z /\ (b - a = 0 \/ b - a = Z.of_N sr)%Z.
Proof.
  intros sr l t H T. change (2 ^ 63)%Z with 9223372036854775808%Z in T. change (2 ^ 31)%Z with 2147483648%Z in T.
  assert (R : (0 < lut_rate l < 2147483648)%N /\ lut_rate l = sr).
  { destruct (C33_lookup_table sr) as (A & B). destruct (N.ltb_spec 0 sr) as [P|P]; [|rewrite B in H by (intros (Q & _); lia); discriminate].
    destruct (N.ltb_spec sr (2 ^ 31)) as [Q|Q]; [|rewrite B in H by (intros (Q' & _); lia); discriminate].
    unfold lut_new in H. destruct forallb; [|discriminate]. injection H as <-. cbn [lut_rate].
    change (2 ^ 31)%N with 2147483648%N in Q. lia. }
  destruct R as (R & E). unfold get_N_samples_at_last_full_second, get_N_samples_at_next_full_second. rewrite E in *.
  assert (S : in_signed 64 t = true) by (apply in_signed_iff; change (2 ^ (Z.of_N 64 - 1))%Z with 9223372036854775808%Z; lia).
  rewrite mult_leq_val by (auto; lia).
  destruct (mult_geq_val 64 t (Z.of_N sr) S) as (b & Eb & Hb); [lia| |].
  { intros _. apply in_signed_iff. change (2 ^ (Z.of_N 64 - 1))%Z with 9223372036854775808%Z. lia. }
  exists (Z.quot t (Z.of_N sr) * Z.of_N sr)%Z, b. split; [reflexivity|]. split; [exact Eb|].
  pose proof (quot_below t (Z.of_N sr) ltac:(lia) ltac:(lia)) as Ha. set (a := (_ * _)%Z) in *. split; [exact Ha|]. split; [exact Hb|].
  destruct Ha as ((p & Pa) & La & Ma), Hb as ((q & Qb) & Lb & Mb). split; [lia|].
  pose proof (Ma (a + Z.of_N sr)%Z) as M1. pose proof (Mb (a + Z.of_N sr)%Z) as M2.
  assert (D : (Z.of_N sr | a + Z.of_N sr)%Z) by (exists (p + 1)%Z; lia).
  assert (t < a + Z.of_N sr)%Z by (destruct (Z_lt_le_dec t (a + Z.of_N sr)); [auto|specialize (M1 D l0); lia]).
  specialize (M2 D ltac:(lia)). assert (q = p \/ q = p + 1)%Z by nia. destruct H1; subst q; nia.
Qed.

(** Nanoseconds are the exact time rounded towards zero as long as they fit 64 bits; so the conversion is monotone and
    exact on full seconds, and microseconds likewise. *)
Lemma ns_val sr l t : lut_new sr = Ok l -> (Z.abs t * 1000000000 < 2 ^ 62 * Z.of_N sr)%Z ->
  get_N_ns_from_samples l t = Ok (Z.quot (t * 1000000000) (Z.of_N sr)).
Proof.
  intros H T. change (2 ^ 62)%Z with 4611686018427387904%Z in T.
  assert (R : (0 < lut_rate l < 2147483648)%N /\ lut_rate l = sr).
  { destruct (C33_lookup_table sr) as (A & B). destruct (N.ltb_spec 0 sr) as [P|P]; [|rewrite B in H by (intros (Q & _); lia); discriminate].
    destruct (N.ltb_spec sr (2 ^ 31)) as [Q|Q]; [|rewrite B in H by (intros (Q' & _); lia); discriminate].
    unfold lut_new in H. destruct forallb; [|discriminate]. injection H as <-. cbn [lut_rate].
    change (2 ^ 31)%N with 2147483648%N in Q. lia. }
  destruct R as (R & E). unfold get_N_ns_from_samples. rewrite E in *. destruct (Z.of_N sr =? 0)%Z eqn:Z0; [lia|].
  set (s := Z.of_N sr) in *. assert (Hs : (0 < s < 2147483648)%Z) by lia.
  pose proof (Z.quot_rem' t s) as Q. pose proof (Z.rem_bound_abs t s ltac:(lia)) as B.
  set (a := Z.quot t s) in *. set (b := Z.rem t s) in *.
  assert (Sg : (0 <= t /\ 0 <= b /\ 0 <= a \/ t < 0 /\ b <= 0 /\ a <= 0)%Z).
  { destruct (Z_le_gt_dec 0 t).
    - left. split; [auto|]. split; [apply Z.rem_nonneg; lia|apply Z.quot_pos; lia].
    - right. split; [lia|]. assert (b <= 0)%Z by (apply Z.rem_nonpos; lia). split; [auto|]. nia. }
  assert (A1 : (Z.abs a * 1000000000 <= 4611686018427387904)%Z) by nia.
  assert (B1 : (Z.abs b < 2147483648)%Z) by lia.
  rewrite sgn_ok by (apply in_signed_iff; change (2 ^ (Z.of_N 64 - 1))%Z with 9223372036854775808%Z; lia). cbn [bind].
  rewrite sgn_ok by (apply in_signed_iff; change (2 ^ (Z.of_N 64 - 1))%Z with 9223372036854775808%Z; lia). cbn [bind].
  assert (B2 : (Z.abs (Z.quot (b * 1000000000) s) <= 1000000000)%Z).
  { rewrite <- Z.quot_abs by lia. rewrite Z.quot_div_nonneg by lia. apply Z.div_le_upper_bound; nia. }
  rewrite sgn_ok by (apply in_signed_iff; change (2 ^ (Z.of_N 64 - 1))%Z with 9223372036854775808%Z; lia). f_equal.
  replace (t * 1000000000)%Z with (a * 1000000000 * s + b * 1000000000)%Z by (rewrite Q; ring).
  destruct Sg as [(S1 & S2 & S3)|(S1 & S2 & S3)].
  - assert (0 <= a * 1000000000 * s)%Z by (apply Z.mul_nonneg_nonneg; lia).
    rewrite (Z.quot_div_nonneg (b * 1000000000) s) by lia.
    rewrite (Z.quot_div_nonneg (a * 1000000000 * s + b * 1000000000) s) by lia.
    rewrite Z.div_add_l by lia. reflexivity.
  - replace (b * 1000000000)%Z with (- (- b * 1000000000))%Z by ring.
    replace (a * 1000000000 * s + - (- b * 1000000000))%Z with (- ((- a) * 1000000000 * s + (- b) * 1000000000))%Z by ring.
    rewrite !Z.quot_opp_l by lia.
    assert (0 <= - a * 1000000000 * s)%Z by (apply Z.mul_nonneg_nonneg; lia).
    rewrite (Z.quot_div_nonneg (- b * 1000000000) s) by lia.
    rewrite (Z.quot_div_nonneg (- a * 1000000000 * s + - b * 1000000000) s) by lia.
    rewrite Z.div_add_l by lia. ring.
Qed.
Lemma quot_le_mono a b s : (0 < s)%Z -> (a <= b)%Z -> (Z.quot a s <= Z.quot b s)%Z.
Proof. intros. apply Z.quot_le_mono; lia. Qed.

Theorem C33_nanoseconds : forall sr l t t', lut_new sr = Ok l ->
  (Z.abs t * 1000000000 < 2 ^ 62 * Z.of_N sr)%Z -> (Z.abs t' * 1000000000 < 2 ^ 62 * Z.of_N sr)%Z ->
  exists n n', get_N_ns_from_samples l t = Ok n /\ get_N_ns_from_samples l t' = Ok n' /\
    get_N_us_from_samples l t = Ok (Z.quot (t * 1000000) (Z.of_N sr)) /\
    (Z.abs (n * Z.of_N sr) <= Z.abs (t * 1000000000) < Z.abs (n * Z.of_N sr) + Z.of_N sr)%Z /\
    (t <= t' -> n <= n')%Z /\
    (forall k, t = k * Z.of_N sr -> n = k * 1000000000)%Z.
Proof.
  intros sr l t t' H T T'. pose proof (ns_val sr l t H T) as E. pose proof (ns_val sr l t' H T') as E'.
  assert (S : (0 < Z.of_N sr)%Z) by (destruct sr; lia).
  eexists. eexists. split; [exact E|]. split; [exact E'|]. split; [|split; [|split]].
  - unfold get_N_us_from_samples. rewrite E. cbn [bind]. f_equal. rewrite Z.quot_quot by lia.
    replace (t * 1000000000)%Z with (t * 1000000 * 1000)%Z by ring. apply Z.quot_mul_cancel_r; lia.
  - pose proof (Z.quot_rem' (t * 1000000000) (Z.of_N sr)) as Q. pose proof (Z.rem_bound_abs (t * 1000000000) (Z.of_N sr) ltac:(lia)) as B.
    destruct (Z_le_gt_dec 0 t).
    + pose proof (Z.rem_nonneg (t * 1000000000) (Z.of_N sr) ltac:(lia) ltac:(lia)). pose proof (Z.quot_pos (t * 1000000000) (Z.of_N sr) ltac:(lia) ltac:(lia)). nia.
    + pose proof (Z.rem_nonpos (t * 1000000000) (Z.of_N sr) ltac:(lia) ltac:(lia)). 
      assert (Z.quot (t * 1000000000) (Z.of_N sr) <= 0)%Z by nia. nia.
  - intros L. apply quot_le_mono; lia.
  - intros k ->. replace (k * Z.of_N sr * 1000000000)%Z with (k * 1000000000 * Z.of_N sr)%Z by ring. apply Z.quot_mul. lia.
Qed.

(** How often a duration fits into a second. *)
Theorem C33_durations_per_second : forall sr l d, lut_new sr = Ok l -> (0 < du_N d)%N ->
  (forall k, get_N_duration_in_second l d = Ok k <-> k * du_N d = sr)%N /\
  (get_N_duration_in_second l d = Abort <-> ~ (du_N d | sr)%N).
Proof.
  intros sr l d H D. assert (E : lut_rate l = sr) by (unfold lut_new in H; destruct forallb; [|discriminate]; now injection H as <-).
  unfold get_N_duration_in_second. rewrite E. replace (du_N d =? 0)%N with false by lia.
  destruct (sr mod du_N d =? 0)%N eqn:M; cbn [guard].
  - assert (K : (sr mod du_N d = 0)%N) by lia. pose proof K as K2. apply N.div_exact in K; [|lia]. split.
    + intros k. split; intros Q; [injection Q as <-; lia|]. f_equal. nia.
    + split; [discriminate|]. intros Q. exfalso. apply Q. apply N.mod_divide; lia.
  - split.
    + intros k. split; [discriminate|]. intros Q. exfalso. rewrite <- Q in M. rewrite N.mod_mul in M by lia. discriminate.
    + split; [|auto]. intros _ Q. apply N.mod_divide in Q; lia.
Qed.

Example C33_hypotheses_met : exists l, lut_new 1728000 = Ok l /\
  get_N_samples_from_duration l slot001 24 = Ok 17280%Z /\ lasts 1728000 slot001 24 17280 /\
  get_N_samples_at_last_full_second l 2000000 = Ok 1728000%Z /\ get_N_samples_at_next_full_second l 2000000 = Ok 3456000%Z /\
  get_N_ns_from_samples l 864000 = Ok 500000000%Z /\ lut_new 1000000 = Abort.
Proof.
  assert (F : forallb (fun ec => is_ok (duration_new 1728000 ec 1)) all_ec = true) by (vm_compute; reflexivity).
  exists (mkLut 1728000 (lut_entry 1728000)). split; [unfold lut_new; rewrite F; reflexivity|].
  repeat split; vm_compute; reflexivity.
Qed.

Print Assumptions C33_duration_exact.
Print Assumptions C33_lookup_table.
Print Assumptions C33_conversion_exact.
Print Assumptions C33_subslots_exact.
Print Assumptions C33_full_seconds.
Print Assumptions C33_nanoseconds.
Print Assumptions C33_durations_per_second.
