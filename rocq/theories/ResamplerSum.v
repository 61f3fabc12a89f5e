From Verif Require Import Base IntHelpers Cells CellsFacts Resampler ResamplerSpec ResamplerFacts ResamplerStream ResamplerMeaning.
Local Open Scope Z_scope.

(** Sums over intervals of integers. *)
Fixpoint zsum (g : Z -> Z) (a : Z) (n : nat) : Z := match n with O => 0 | S n => g a + zsum g (a + 1) n end.
Lemma zsum_app g m n : forall a, zsum g a (m + n) = zsum g a m + zsum g (a + Z.of_nat m) n.
Proof.
  induction m; intros; cbn [zsum Nat.add].
  - replace (a + Z.of_nat 0) with a by lia. lia.
  - rewrite IHm. replace (a + 1 + Z.of_nat m) with (a + Z.of_nat (S m)) by lia. lia.
Qed.
Lemma zsum_shift g a n : forall z, zsum (fun j => g (a + j)) z n = zsum g (a + z) n.
Proof. induction n; intros z; cbn [zsum]; [reflexivity|]. rewrite IHn. do 2 f_equal. lia. Qed.
Lemma zsum_zero g n : forall a, (forall i, a <= i < a + Z.of_nat n -> g i = 0) -> zsum g a n = 0.
Proof.
  induction n; intros a G; cbn [zsum]; [reflexivity|]. rewrite G by lia. rewrite IHn; [reflexivity|]. intros; apply G; lia.
Qed.
Lemma zsum_in g a n b m : b <= a -> a + Z.of_nat n <= b + Z.of_nat m ->
  (forall i, b <= i < b + Z.of_nat m -> ~ (a <= i < a + Z.of_nat n) -> g i = 0) -> zsum g b m = zsum g a n.
Proof.
  intros A B G. replace m with (Z.to_nat (a - b) + (n + Z.to_nat (b + Z.of_nat m - a - Z.of_nat n)))%nat by lia.
  rewrite !zsum_app. replace (b + Z.of_nat (Z.to_nat (a - b))) with a by lia.
  rewrite zsum_zero by (intros; apply G; lia).
  rewrite (zsum_zero g (Z.to_nat (b + _ - _ - _))) by (intros; apply G; lia). lia.
Qed.
Lemma zsum_same g a n b m : (forall i, g i <> 0 -> a <= i < a + Z.of_nat n) -> (forall i, g i <> 0 -> b <= i < b + Z.of_nat m) ->
  zsum g a n = zsum g b m.
Proof.
  intros A B. set (lo := Z.min a b). set (hi := Z.max (a + Z.of_nat n) (b + Z.of_nat m)).
  assert (Z : forall i, g i = 0 \/ g i <> 0) by (intros; lia).
  rewrite <- (zsum_in g a n lo (Z.to_nat (hi - lo))), <- (zsum_in g b m lo (Z.to_nat (hi - lo))); try lia.
  - intros i _ I. destruct (Z i) as [?|W]; [assumption|]. apply B in W. lia.
  - intros i _ I. destruct (Z i) as [?|W]; [assumption|]. apply A in W. lia.
Qed.

Lemma zdot_map {A} (f g : A -> Z) l : zdot (map f l) (map g l) = fold_right Z.add 0 (map (fun m => f m * g m) l).
Proof. unfold zdot. induction l; cbn [map combine fold_right fst snd]; [reflexivity|]. now rewrite IHl. Qed.
Lemma fold_seq (g : Z -> Z) n : forall a, fold_right Z.add 0 (map (fun i => g (Z.of_nat i)) (seq a n)) = zsum g (Z.of_nat a) n.
Proof.
  induction n; intros; cbn [seq map fold_right zsum]; [reflexivity|]. rewrite IHn. do 2 f_equal. lia.
Qed.
Lemma fold_nseq (g : Z -> Z) n : forall a, fold_right Z.add 0 (map (fun i => g (Z.of_N i)) (nseq a n)) = zsum g (Z.of_N a) n.
Proof.
  induction n; intros; cbn [nseq map fold_right zsum]; [reflexivity|]. rewrite IHn. do 2 f_equal. lia.
Qed.
Lemma tap_N h j : tap 0 h j = tap_z h (Z.of_N j).
Proof.
  unfold tap, tap_z. destruct (Z.ltb_spec (Z.of_N j) 0); [lia|]. f_equal. lia.
Qed.
Lemma tap_range h j : tap_z h j <> 0 -> 0 <= j < Z.of_nat (length h).
Proof.
  unfold tap_z. destruct (Z.ltb_spec j 0); [lia|]. intros Hn. split; [lia|].
  destruct (Z.lt_ge_cases j (Z.of_nat (length h))); [assumption|]. rewrite nth_overflow in Hn by lia. lia.
Qed.
Lemma sample_range x i : sample_at 0 x i <> 0 -> 0 <= i < Z.of_nat (length x).
Proof. apply (tap_range x i). Qed.

Lemma out_is_convolution L M h x k : (1 <= L)%N ->
  out_sample 0 0 zdot L M h x k = convolution L M h x k.
Proof.
  intros HL. unfold out_sample, convolution. fold (position M h k). set (t := position M h k). clearbody t.
  rewrite zdot_map. rewrite rev_upto, map_map.
  set (q := (t / L)%N). set (p := (t mod L)%N). set (K := sub_taps L h).
  assert (T : Z.of_N t = Z.of_N L * Z.of_N q + Z.of_N p).
  { subst q p. rewrite (N.div_mod t L) at 1 by lia. rewrite N2Z.inj_add, N2Z.inj_mul. reflexivity. }
  assert (P : (p < L)%N) by (apply N.mod_lt; lia).
  assert (KB : (len h <= K * L)%N).
  { subst K. unfold sub_taps. pose proof (N.div_mod (len h + L - 1) L ltac:(lia)) as E.
    pose proof (N.mod_lt (len h + L - 1) L ltac:(lia)) as U.
    set (a := ((len h + L - 1) / L)%N) in *. set (b := ((len h + L - 1) mod L)%N) in *. clearbody a b.
    rewrite (N.mul_comm a). lia. }
  clearbody q p K.
  set (g := fun i => sample_at 0 x i * tap_z h (Z.of_N t - Z.of_N L * i)).
  transitivity (zsum g (Z.of_N q - Z.of_N K + 1) (N.to_nat K)).
  - transitivity (zsum (fun j => g (Z.of_N q - Z.of_N K + 1 + j)) (Z.of_N 0) (N.to_nat K)).
    + unfold upto. rewrite <- fold_nseq. f_equal. apply map_ext_in. intros j J. apply nseq_in in J. subst g. cbv beta.
      f_equal; [f_equal; lia|]. rewrite tap_N. f_equal. rewrite T.
      replace (Z.of_N (p + (K - 1 - j) * L)) with (Z.of_N p + (Z.of_N K - 1 - Z.of_N j) * Z.of_N L).
      2:{ rewrite N2Z.inj_add, N2Z.inj_mul. f_equal. f_equal. lia. }
      ring.
    + rewrite zsum_shift. f_equal. change (Z.of_N 0) with 0. lia.
  - assert (G : forall i, g i <> 0 -> sample_at 0 x i <> 0 /\ tap_z h (Z.of_N t - Z.of_N L * i) <> 0).
    { intros i I. subst g. cbv beta in I. split; intros C; rewrite C in I; lia. }
    rewrite (zsum_same g _ _ 0 (length x)).
    + change 0 with (Z.of_nat 0) at 1. rewrite <- fold_seq. f_equal. apply map_ext_in. intros i J. subst g. cbv beta.
      f_equal. unfold sample_at. destruct (Z.ltb_spec (Z.of_nat i) 0); [lia|]. f_equal. lia.
    + intros i I. apply G in I as [_ I]. apply tap_range in I. unfold len in KB.
      assert (B1 : Z.of_N t - Z.of_N L * i < Z.of_N K * Z.of_N L) by lia.
      rewrite T in *. destruct I as [I _]. clear -B1 I P. 
      assert (A1 : Z.of_N L * i < Z.of_N L * (Z.of_N q + 1)) by lia.
      assert (A2 : Z.of_N L * (Z.of_N q - Z.of_N K) < Z.of_N L * i) by lia.
      apply Z.mul_lt_mono_pos_l in A1; [|lia]. apply Z.mul_lt_mono_pos_l in A2; [|lia]. lia.
    + intros i I. apply G in I as [I _]. apply sample_range in I. lia.
Qed.

(** ** Everything together *)
Open Scope N_scope.
Lemma stream_all smp coef (s0 : smp) (f0 : coef) dot L M h junk c s past ys s1 nant chs :
  (L =? 1) && (M =? 1) = false -> L < 2 ^ 31 -> M < 2 ^ 31 -> len h + L <= 2 ^ 32 ->
  create smp coef s0 f0 L M h junk = Ok (c, s) ->
  Forall (fun v => len v = 2 * c_hist _ c) junk ->
  run smp coef s0 dot c s past = Ok (ys, s1) ->
  (1 <= nant <= length junk)%nat -> chs <> [] ->
  Forall (fun ch => length (snd ch) = nant /\ Forall (fun x => len x = fst ch) (snd ch) /\ c_hist _ c <= fst ch) chs ->
  exists outs fin s2,
    run smp coef s0 dot c s1 (Reset _ :: map (fun ch => Resample _ (snd ch) (fst ch)) chs ++ [Final _ nant]) = Ok ([] :: outs ++ [fin], s2) /\
    Forall2 (call_ok smp L M nant) chs outs /\ length fin = nant /\
    forall a, (a < nant)%nat ->
      let x := concat (map (fun ch => nth a (snd ch) []) chs) in
      concat (map (fun o => nth a o []) (outs ++ [fin])) =
      map (out_sample s0 f0 dot L M h x) (upto (out_count L M h (len x))).
Proof.
  intros N1 BL BM BF E J R Na NE F.
  destruct (create_inv smp coef s0 f0 dot L M h N1 BL BM BF junk c s E) as (A & -> & ->).
  pose proof (aL coef L M h A) as HL. pose proof (aM coef L M h A) as HM. pose proof (ar coef L M h A) as Hr.
  destruct (K_props smp coef dot L M h N1 BL BM BF HL (aO coef L M h A)) as (K1 & _ & _ & KS).
  pose proof (cfg_sub smp coef f0 dot L M h N1 BL BM BF) as CS.
  pose proof (cfg_tab smp coef f0 dot L M h N1 BL BM BF A) as CT.
  assert (SH : shape smp (sub_taps L h) (mkSt _ junk 0 0) (length junk)).
  { split; [reflexivity|]. cbn [r_hist]. eapply Forall_impl; [|exact J]. intros v V. cbv beta in V.
    change (c_hist coef (cfg coef f0 L M h)) with (sub_taps L h - 1) in V. clear -V. lia. }
  assert (S1 : shape smp (sub_taps L h) s1 (length junk)).
  { refine (run_shape smp coef s0 dot L M _ (sub_taps L h) _ _ (cfg coef f0 L M h) HL HM K1 Hr eq_refl eq_refl eq_refl eq_refl CS CT
      eq_refl KS N1 nant (proj1 Na) _ past _ ys s1 _ R).
    exact (reset_shape smp coef s0 dot L M _ (sub_taps L h) _ _ (cfg coef f0 L M h) HL HM K1 Hr eq_refl eq_refl eq_refl eq_refl CS CT
      eq_refl KS N1 nant (proj1 Na) _ _ SH). }
  destruct (whole_ok smp coef s0 dot L M _ (sub_taps L h) _ _ (cfg coef f0 L M h) HL HM K1 Hr eq_refl eq_refl eq_refl eq_refl CS CT
      (dispatch_ok smp coef dot L M h) eq_refl KS N1 nant (proj1 Na) s1 (length junk) chs S1 (proj2 Na) NE F)
     as (os & fin & s2 & E1 & E3 & E4 & E2).
  exists os, fin, s2. split; [|split; [exact E3|split; [exact E4|]]].
  - cbn [run step bind]. unfold chunk_op, chunk in E1. rewrite E1. reflexivity.
  - intros a Aa x. rewrite E2 by exact Aa. change (joined smp chs a) with x.
    change (c_skip coef (cfg coef f0 L M h)) with ((len h - 1) / 2 / L).
    pose proof (blk_spec smp coef s0 f0 dot L M h N1 BL BM BF A x (N.to_nat (len x + (sub_taps L h - 1) - (len h - 1) / 2 / L)) 0) as B.
    rewrite N.add_0_r in B. rewrite B; clear B.
    + rewrite kc_0 by assumption. rewrite N2Nat.id, N.add_0_l, N.sub_0_r.
      rewrite (count_spec smp coef dot L M h N1 BL BM BF A). reflexivity.
    + rewrite N2Nat.id. revert KS. generalize ((len h - 1) / 2 / L) as sk. generalize (sub_taps L h) as K. clear. intros. lia.
Qed.
