(** C42: resampling a stream in pieces gives the outputs of rational resampling of the whole stream. *)
From Verif Require Import Base IntHelpers Cells CellsFacts Resampler ResamplerSpec ResamplerFacts ResamplerStream ResamplerMeaning ResamplerSum.
Open Scope N_scope.

(** Which ratios and filters the constructor accepts: an odd number of coefficients, at most twice as many
    inputs as outputs, and a delay whose last part is shorter than M. All others end the program. *)
Theorem C42_accepted : forall smp coef (s0 : smp) (f0 : coef) L M h junk,
  (L =? 1) && (M =? 1) = false -> 1 <= L -> L < 2 ^ 31 -> M < 2 ^ 31 -> len h + L <= 2 ^ 32 ->
  (len h mod 2 = 1 /\ 1 <= M /\ M <= 2 * L /\ (len h - 1) / 2 mod L < M <->
   exists c s, create smp coef s0 f0 L M h junk = Ok (c, s)) /\
  (~ (len h mod 2 = 1 /\ 1 <= M /\ M <= 2 * L /\ (len h - 1) / 2 mod L < M) <->
   create smp coef s0 f0 L M h junk = Abort).
Proof.
  intros smp coef s0 f0 L M h junk N1 HL BL BM BF. rewrite (create_eq smp coef s0 f0 (fun _ _ => s0) L M h N1 BL BM BF).
  replace (L =? 0) with false by (symmetry; apply N.eqb_neq; lia).
  assert (X : (len h mod 2 =? 1) && (1 <=? M) && (M <=? 2 * L) && ((len h - 1) / 2 mod L <? M) = true <->
          len h mod 2 = 1 /\ 1 <= M /\ M <= 2 * L /\ (len h - 1) / 2 mod L < M).
  { rewrite !andb_true_iff, N.eqb_eq, !N.leb_le, N.ltb_lt. tauto. }
  destruct ((len h mod 2 =? 1) && (1 <=? M) && (M <=? 2 * L) && ((len h - 1) / 2 mod L <? M)).
  - split; split; intros Y.
    + eexists _, _. reflexivity.
    + apply X. reflexivity.
    + exfalso. apply Y. apply X. reflexivity.
    + discriminate.
  - split; split; intros Y.
    + apply X in Y. discriminate.
    + destruct Y as (? & ? & Y). discriminate.
    + reflexivity.
    + intros C. apply X in C. discriminate.
Qed.

(** For every earlier use of the resampler, every division of the streams of any number of antennas into pieces
    not shorter than the announced minimum: after a reset, all calls succeed without touching memory outside of
    the buffers, and what is written for an antenna is, piece by piece and including the final call, the sequence
    of outputs of the whole stream of this antenna. *)
Theorem C42_stream : forall smp coef (s0 : smp) (f0 : coef) dot L M h junk c s past ys s1 nant chs,
  (L =? 1) && (M =? 1) = false -> L < 2 ^ 31 -> M < 2 ^ 31 -> len h + L <= 2 ^ 32 ->
  create smp coef s0 f0 L M h junk = Ok (c, s) ->
  Forall (fun v => len v = 2 * c_hist _ c) junk ->
  run smp coef s0 dot c s past = Ok (ys, s1) ->
  (1 <= nant <= length junk)%nat -> chs <> [] ->
  Forall (fun ch => length (snd ch) = nant /\ Forall (fun x => len x = fst ch) (snd ch) /\
                    get_minimum_nof_input_samples _ c <= fst ch) chs ->
  exists outs s2,
    run smp coef s0 dot c s1 (Reset _ :: map (fun ch => Resample _ (snd ch) (fst ch)) chs ++ [Final _ nant]) = Ok ([] :: outs, s2) /\
    forall a, (a < nant)%nat ->
      let x := concat (map (fun ch => nth a (snd ch) []) chs) in
      concat (map (fun o => nth a o []) outs) =
      map (out_sample s0 f0 dot L M h x) (upto (out_count L M h (len x))).
Proof.
  intros smp coef s0 f0 dot L M h junk c s past ys s1 nant chs N1 BL BM BF E J R Na NE F.
  destruct (stream_all smp coef s0 f0 dot L M h junk c s past ys s1 nant chs N1 BL BM BF E J R Na NE F)
    as (outs & fin & s2 & E1 & _ & _ & E2). exists (outs ++ [fin]), s2. split; assumption.
Qed.

(** The announced number of outputs for [n] samples is the number there is. *)
Theorem C42_announced : forall smp coef (s0 : smp) (f0 : coef) L M h junk c s n,
  (L =? 1) && (M =? 1) = false -> L < 2 ^ 31 -> M < 2 ^ 31 -> len h + L <= 2 ^ 32 ->
  create smp coef s0 f0 L M h junk = Ok (c, s) ->
  n + get_minimum_nof_input_samples _ c < 2 ^ 32 -> out_count L M h n < 2 ^ 32 ->
  get_N_samples_after_resampling coef c n = Ok (out_count L M h n).
Proof.
  intros smp coef s0 f0 L M h junk c s n N1 BL BM BF E B C.
  destruct (create_inv smp coef s0 f0 (fun _ _ => s0) L M h N1 BL BM BF junk c s E) as (A & -> & _).
  exact (announced_ok smp coef f0 (fun _ _ => s0) L M h N1 BL BM BF A n B C).
Qed.

(** It is at least what a signal of [n] samples is worth at the new rate, if the filter is not shorter than two
    intervals of the upsampled signal. *)
Theorem C42_enough : forall coef L M (h : list coef) n, 1 <= L -> 1 <= M -> 2 * L <= len h + 1 ->
  n * L <= M * out_count L M h n.
Proof.
  intros coef L M h n HL HM B. unfold out_count, sub_taps.
  pose proof (N.div_mod (len h + L - 1) L ltac:(lia)) as E. pose proof (N.mod_lt (len h + L - 1) L ltac:(lia)) as U.
  set (q := (len h + L - 1) / L) in *. set (m := (len h + L - 1) mod L) in *. clearbody q m.
  set (F := len h) in *. clearbody F.
  assert (D1 : 2 * ((F - 1) / 2) <= F - 1) by (apply N.mul_div_le; lia).
  set (d := (F - 1) / 2) in *. clearbody d.
  assert (Q1 : 1 <= q) by (destruct q; lia).
  replace (L * (n + (q - 1))) with (n * L + (L * q - L)) by nia.
  set (Lq := L * q) in *. set (nL := n * L) in *. clearbody Lq nL.
  set (a := nL + (Lq - L) - d + (M - 1)). assert (A : nL + (M - 1) <= a) by (subst a; lia). clearbody a.
  pose proof (N.div_mod a M ltac:(lia)) as E2. pose proof (N.mod_lt a M ltac:(lia)) as U2.
  set (z := a / M) in *. set (y := a mod M) in *. clearbody z y. lia.
Qed.

(** One call writes the same number of samples for each antenna, and not more than the receiver reserves for
    it: L for each begun group of M samples. *)
Theorem C42_call : forall smp coef (s0 : smp) (f0 : coef) dot L M h junk c s past ys s1 nant chs,
  (L =? 1) && (M =? 1) = false -> L < 2 ^ 31 -> M < 2 ^ 31 -> len h + L <= 2 ^ 32 ->
  create smp coef s0 f0 L M h junk = Ok (c, s) ->
  Forall (fun v => len v = 2 * c_hist _ c) junk ->
  run smp coef s0 dot c s past = Ok (ys, s1) ->
  (1 <= nant <= length junk)%nat -> chs <> [] ->
  Forall (fun ch => length (snd ch) = nant /\ Forall (fun x => len x = fst ch) (snd ch) /\
                    get_minimum_nof_input_samples _ c <= fst ch) chs ->
  exists outs fin s2,
    run smp coef s0 dot c s1 (Reset _ :: map (fun ch => Resample _ (snd ch) (fst ch)) chs ++ [Final _ nant]) = Ok ([] :: outs ++ [fin], s2) /\
    Forall2 (fun ch o => length o = nant /\ exists k, Forall (fun y => len y = k) o /\
      forall b, fst ch + M <= 2 ^ 32 -> (fst ch + M - 1) / M * L < 2 ^ 32 -> pacer_bound (fst ch) L M = Ok b -> k <= b) chs outs /\
    length fin = nant.
Proof.
  intros smp coef s0 f0 dot L M h junk c s past ys s1 nant chs N1 BL BM BF E J R Na NE F.
  destruct (stream_all smp coef s0 f0 dot L M h junk c s past ys s1 nant chs N1 BL BM BF E J R Na NE F)
    as (outs & fin & s2 & E1 & E2 & E3 & _). exists outs, fin, s2. split; [exact E1|]. split; [|exact E3].
  destruct (create_inv smp coef s0 f0 dot L M h N1 BL BM BF junk c s E) as (A & _ & _).
  pose proof (aM coef L M h A) as HM. clear - E2 HM Na.
  induction E2 as [|ch o chs outs (L1 & (k & K1) & K2) _ IH]; constructor; [|exact IH].
  split; [exact L1|]. exists k. split; [exact K1|]. intros b B1 B2 PB.
  unfold pacer_bound, ceil_divide_integer in PB. replace (M =? 0) with false in PB by (symmetry; apply N.eqb_neq; lia). cbn [bind] in PB.
  replace ((fst ch + M + (2 ^ 32 - 1)) mod 2 ^ 32) with (fst ch + M - 1) in PB.
  2:{ replace (fst ch + M + (2 ^ 32 - 1)) with (fst ch + M - 1 + 1 * 2 ^ 32) by lia. rewrite N.mod_add by lia. symmetry. apply N.mod_small. lia. }
  rewrite w32_id in PB by exact B2. injection PB as <-.
  destruct o as [|y o]; [cbn in L1; lia|]. inversion K1 as [|? ? Y1 _]; subst.
  assert (Q : fst ch <= (fst ch + M - 1) / M * M).
  { pose proof (N.div_mod (fst ch + M - 1) M ltac:(lia)) as E. pose proof (N.mod_lt (fst ch + M - 1) M ltac:(lia)) as U.
    set (q := (fst ch + M - 1) / M) in *. set (m := (fst ch + M - 1) mod M) in *. clearbody q m. rewrite (N.mul_comm q). clear - E U. lia. }
  specialize (K2 _ Q). inversion K2; subst. assumption.
Qed.

(** With exact arithmetic, each output is the sum of all samples, each weighted with the coefficient at its
    distance from the output in the upsampled signal: upsampling by L, filtering and downsampling by M with the
    delay of the filter removed. *)
Theorem C42_convolution : forall L M h x k, 1 <= L ->
  out_sample 0%Z 0%Z zdot L M h x k = convolution L M h x k.
Proof. intros. apply out_is_convolution. assumption. Qed.

(** Without a change of the rate the samples are copied. *)
Theorem C42_unit : forall smp coef (s0 : smp) (f0 : coef) dot h junk,
  exists c s, create smp coef s0 f0 1 1 h junk = Ok (c, s) /\
    get_minimum_nof_input_samples _ c = 0 /\
    (forall n, n < 2 ^ 32 -> get_N_samples_after_resampling coef c n = Ok n) /\
    forall s1 xs n k, Forall (fun x => len x = n) xs ->
      resample smp coef dot c s1 xs n = Ok (xs, s1) /\
      resample_final_samples smp coef s0 dot c s1 k = Ok (repeat [] k, s1).
Proof.
  intros. eexists _, _. split; [reflexivity|]. split; [reflexivity|]. split.
  - intros n B. unfold get_N_samples_after_resampling. cbn [c_hist c_skip c_M c_L c_tab].
    replace ((0 + n + (2 ^ 32 - 0)) mod 2 ^ 32) with n.
    2:{ replace (0 + n + (2 ^ 32 - 0)) with (n + 1 * 2 ^ 32) by lia. rewrite N.mod_add by lia. symmetry. apply N.mod_small. exact B. }
    rewrite N.div_1_r, !N.mul_1_r. rewrite N.sub_diag. cbn [upto N.to_nat nseq mapM bind fold_left]. rewrite w32_id by exact B. reflexivity.
  - intros s1 xs n k F. split; [|reflexivity]. unfold resample. cbn [c_L c_M N.eqb Pos.eqb andb].
    assert (X : mapM (fun x => slice smp x 0 n) xs = Ok xs).
    { induction F as [|x xs Hx F IH]; cbn [mapM]; [reflexivity|].
      rewrite slice_ok by lia. cbn [bind N.to_nat skipn]. rewrite firstn_all2 by (unfold len in Hx; lia). rewrite IH. reflexivity. }
    rewrite X. reflexivity.
Qed.

(** Converted sample rates are exact, although the product needs more than 32 bits. *)
Theorem C42_rate : forall rate L M, rate < 2 ^ 32 -> L < 2 ^ 32 -> 1 <= M ->
  (forall x, get_samp_rate_converted rate L M = Ok x -> x * M = rate * L /\ x < 2 ^ 32) /\
  (rate mod M = 0 -> rate * L / M < 2 ^ 32 -> get_samp_rate_converted rate L M = Ok (rate * L / M)).
Proof.
  intros rate L M BR BL HM. unfold get_samp_rate_converted, guard. replace (M =? 0) with false by (symmetry; apply N.eqb_neq; lia).
  assert (W : (rate * L) mod 2 ^ 64 = rate * L).
  { apply N.mod_small. change (2 ^ 64) with (2 ^ 32 * 2 ^ 32). apply N.mul_lt_mono; assumption. }
  rewrite W. split.
  - intros x. destruct (N.eqb_spec (rate mod M) 0) as [Z|Z]; [|discriminate].
    destruct (N.leb_spec (rate * L / M) (2 ^ 32 - 1)) as [B|B]; [|discriminate]. intros X. injection X as <-.
    split; [|lia]. apply N.div_exact in Z; [|lia]. rewrite Z. rewrite <- N.mul_assoc, (N.mul_comm M), N.div_mul by lia. lia.
  - intros Z B. rewrite Z. replace (rate * L / M <=? 2 ^ 32 - 1) with true by (symmetry; apply N.leb_le; lia). reflexivity.
Qed.

(** Without a single sample before it, the final call returns more outputs than announced: the samples skipped
    for the delay of the filter are skipped by the next call with samples only. *)
Theorem C42_flush_alone_refuted : exists L M (h : list Z) c s o s' n,
  create Z Z 0%Z 0%Z L M h [repeat 0%Z 8] = Ok (c, s) /\ Forall (fun v => len v = 2 * c_hist _ c) [repeat 0%Z 8] /\
  resample_final_samples Z Z 0%Z zdot c s 1 = Ok (o, s') /\ get_N_samples_after_resampling Z c 0 = Ok n /\
  exists y, o = [y] /\ n < len y.
Proof.
  exists 1, 2, [1; 2; 3; 2; 1]%Z.
  eexists _, _, _, _, _. split; [vm_compute; reflexivity|]. split; [repeat constructor|].
  split; [vm_compute; reflexivity|]. split; [vm_compute; reflexivity|]. eexists. split; [reflexivity|]. vm_compute. reflexivity.
Qed.

(** The hypotheses can be met: 10/9 with 45 coefficients, the manually unrolled loop, two antennas, pieces of 4
    and 31 samples after other use. *)
Definition ex_h : list Z := map (fun i => Z.of_N (i mod 7)) (upto 45).
Definition ex_x (a n : N) : list Z := map (fun i => Z.of_N ((i * 5 + a) mod 11)) (upto n).
Definition ex_junk : list (list Z) := repeat (repeat 99%Z 8) 3.
Example C42_nonvacuous : exists c s ys s1 outs s2,
  create Z Z 0%Z 0%Z 10 9 ex_h ex_junk = Ok (c, s) /\
  c_impl _ c = Unrolled body_L10M9_45 5 /\ get_minimum_nof_input_samples _ c = 4 /\
  Forall (fun v => len v = 2 * c_hist _ c) ex_junk /\
  run Z Z 0%Z zdot c s [Resample _ [ex_x 3 20] 20; Final _ 3] = Ok (ys, s1) /\
  run Z Z 0%Z zdot c s1 (Reset _ :: map (fun ch => Resample _ (snd ch) (fst ch))
     [(4, [ex_x 0 4; ex_x 1 4]); (31, [ex_x 2 31; ex_x 3 31])] ++ [Final _ 2]) = Ok ([] :: outs, s2) /\
  get_N_samples_after_resampling Z c 35 = Ok (len (concat (map (fun o => nth 1 o []) outs))) /\
  nth 0 (concat (map (fun o => nth 1 o []) outs)) 0%Z = convolution 10 9 ex_h (ex_x 1 4 ++ ex_x 3 31) 0 /\
  (0 < nth 7 (concat (map (fun o => nth 1 o []) outs)) 0)%Z.
Proof.
  eexists _, _, _, _, _, _. split; [vm_compute; reflexivity|]. split; [reflexivity|]. split; [reflexivity|].
  split; [repeat constructor|]. split; [vm_compute; reflexivity|]. split; [vm_compute; reflexivity|].
  split; [vm_compute; reflexivity|]. split; vm_compute; reflexivity.
Qed.

Print Assumptions C42_accepted.
Print Assumptions C42_stream.
Print Assumptions C42_announced.
Print Assumptions C42_enough.
Print Assumptions C42_call.
Print Assumptions C42_convolution.
Print Assumptions C42_unit.
Print Assumptions C42_rate.
Print Assumptions C42_flush_alone_refuted.
