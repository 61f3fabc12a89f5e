From Verif Require Import Base IntHelpers Cells CellsFacts RxRing Resampler ResamplerSpec ResamplerFacts ResamplerStream ResamplerMeaning RxPacer RxPacerSpec RxPacerFacts.
Open Scope N_scope.

Lemma win_front {smp} K (b b' : list smp) p : p + K <= len b -> win smp K (b ++ b') p = win smp K b p.
Proof.
  intros H. unfold win, len in *. rewrite skipn_app, firstn_app, skipn_length.
  replace (N.to_nat K - (length b - N.to_nat p))%nat with O by lia. rewrite firstn_O. apply app_nil_r.
Qed.

(** ** The resampler, one unit after the other *)
Section resampler.
Variables (smp coef : Type) (s0 : smp) (f0 : coef) (dot : list smp -> list coef -> smp).
Variables (L M : N) (h : list coef) (rc : config coef) (nant : nat).
Hypothesis (BL : L < 2 ^ 31) (BM : M < 2 ^ 31) (BF : len h + L <= 2 ^ 32) (NA : (1 <= nant)%nat).
Notation one := ((L =? 1) && (M =? 1)).
(** What create returned *)
Hypothesis (OK1 : one = true -> rc = mkCfg _ 1 1 0 [] 0 [] 0 Generic).
Hypothesis (OK2 : one = false -> accepted coef L M h /\ rc = cfg coef f0 L M h).
Notation D := ((len h - 1) / 2).
Notation K := (sub_taps L h).
Notation rsd := (resampled s0 f0 dot L M h).

Notation ready := (avail L M h).

Lemma cas : one = true \/ one = false.
Proof. destruct one; auto. Qed.
Lemma rc_L : c_L _ rc = L /\ c_M _ rc = M /\ 1 <= L /\ 1 <= M.
Proof.
  destruct cas as [E|E].
  - rewrite OK1 by exact E. cbn. rewrite andb_true_iff, !N.eqb_eq in E. lia.
  - destruct (OK2 E) as (A & ->). cbn. pose proof (aL coef L M h A). pose proof (aM coef L M h A). auto.
Qed.
Lemma ready_iff n k : k < ready n <-> computable L M h n k.
Proof.
  unfold avail, computable. destruct cas as [E|E]; rewrite E; [reflexivity|]. destruct rc_L as (_ & _ & HL & HM).
  unfold position. set (d := D). set (x := n * L).
  pose proof (N.div_mod (x - d + (M - 1)) M ltac:(lia)) as E1. pose proof (N.mod_lt (x - d + (M - 1)) M ltac:(lia)) as E2.
  set (q := (x - d + (M - 1)) / M) in *. set (m := (x - d + (M - 1)) mod M) in *. clearbody q m x d.
  split; intros H.
  - assert (M * (k + 1) <= M * q) by (apply N.mul_le_mono_l; lia). lia.
  - destruct (N.lt_ge_cases k q) as [|C]; [assumption|]. assert (M * q <= M * k) by (apply N.mul_le_mono_l; lia). lia.
Qed.
Lemma ready_mono n m : n <= m -> ready n <= ready m.
Proof.
  intros H. destruct (N.le_gt_cases (ready n) (ready m)) as [|C]; [assumption|]. exfalso.
  apply ready_iff in C. assert (X : computable L M h m (ready m)).
  { unfold computable in C |- *. destruct cas as [E|E]; rewrite E in C |- *; [lia|]. assert (n * L <= m * L) by (apply N.mul_le_mono_r; exact H). lia. }
  apply ready_iff in X. lia.
Qed.
Lemma ready_0 : ready 0 = 0.
Proof. unfold avail. destruct cas as [E|E]; rewrite E; [reflexivity|]. destruct rc_L as (_ & _ & _ & HM). rewrite N.mul_0_l, N.sub_0_l. apply N.div_small. lia. Qed.
(** [n] samples bring at most L outputs for every begun group of M. *)
Lemma ready_step n u q : u <= q * M -> ready (n + u) <= ready n + q * L.
Proof.
  intros H. destruct rc_L as (_ & _ & HL & HM). destruct (N.le_gt_cases (ready (n + u)) (ready n + q * L)) as [|C]; [assumption|]. exfalso.
  apply ready_iff in C. assert (X : computable L M h n (ready n)).
  { unfold computable in C |- *. destruct cas as [E|E]; rewrite E in C |- *.
    - unfold avail in *. rewrite E in C |- *. rewrite andb_true_iff, !N.eqb_eq in E. nia.
    - unfold position in *. assert (u * L <= q * M * L) by (apply N.mul_le_mono_r; exact H). lia. }
  apply ready_iff in X. lia.
Qed.
(** And at least one, if they are worth one, once the delay of the filter is over. *)
Lemma ready_grow n u : M <= u * L -> (one = true \/ D <= n * L) -> ready n + 1 <= ready (n + u).
Proof.
  intros H B. destruct rc_L as (_ & _ & HL & HM). destruct (N.le_gt_cases (ready n + 1) (ready (n + u))) as [|C]; [assumption|]. exfalso.
  unfold avail in *. destruct cas as [E|E]; rewrite E in C.
  - rewrite andb_true_iff, !N.eqb_eq in E. nia.
  - destruct B as [B|B]; [congruence|].
    assert (X : (n * L - D + (M - 1)) / M + 1 <= ((n + u) * L - D + (M - 1)) / M).
    { replace ((n * L - D + (M - 1)) / M + 1) with ((n * L - D + (M - 1) + 1 * M) / M) by (rewrite N.div_add by lia; reflexivity).
      apply N.div_le_mono; lia. }
    lia.
Qed.

Lemma resampled_ext x y n k : (forall i, i < n -> x i = y i) -> computable L M h n k -> rsd x k = rsd y k.
Proof.
  intros E C. unfold resampled. unfold computable in C. destruct cas as [O|O]; rewrite O in C |- *; [apply E; exact C|]. destruct rc_L as (_ & _ & HL & HM).
  f_equal. apply map_ext_in. intros m _. unfold before0. destruct (Z.ltb_spec (Z.of_N (position M h k / L) - Z.of_N m) 0); [reflexivity|].
  apply E. assert (position M h k / L < n) by (apply N.div_lt_upper_bound; lia). lia.
Qed.
Lemma resampled_app x y n : len x = n -> map (rsd (sig s0 (x ++ y))) (upto (ready n)) = map (rsd (sig s0 x)) (upto (ready n)).
Proof.
  intros E. apply map_ext_in. intros k I. apply upto_in in I. apply resampled_ext with (n := n).
  - intros i Hi. unfold sig. apply app_nth1. unfold len in E. lia.
  - apply ready_iff. exact I.
Qed.
Lemma out_sample_sig x k : one = false -> out_sample s0 f0 dot L M h x k = rsd (sig s0 x) k.
Proof. intros E. unfold out_sample, resampled. rewrite E. cbv zeta. f_equal. apply map_ext. intros m. unfold sample_at, before0, sig.
  destruct (_ <? 0)%Z; [reflexivity|]. f_equal. lia. Qed.

(** The state of the resampler after it was given [X a] of each antenna since the reset *)
Definition rinv (s : state smp) (X : nat -> list smp) (n : N) : Prop :=
  if one then forall a, (a < nant)%nat -> len (X a) = n
  else inv smp s0 M K (D / L) nant s X n.

Lemma rinv_len s X n a : rinv s X n -> (a < nant)%nat -> len (X a) = n.
Proof. unfold rinv. destruct cas as [E|E]; rewrite E; intros H A; [apply H; exact A|]. destruct H as (_ & H & _). apply H. exact A. Qed.

Lemma unit_ok s X n xs u : rinv s X n -> length xs = nant -> Forall (fun x => len x = u) xs -> c_hist _ rc <= u ->
  exists o s', resample _ _ dot rc s xs u = Ok (o, s') /\ length o = nant /\
    rinv s' (fun a => X a ++ nth a xs []) (n + u) /\
    forall a, (a < nant)%nat -> nth a o [] =
      map (rsd (sig s0 (X a ++ nth a xs []))) (nseq (ready n) (N.to_nat (ready (n + u) - ready n))).
Proof.
  intros I LX FX HU. unfold rinv in *. destruct cas as [O|O]; rewrite O in I |- *.
  - assert (E : L = 1 /\ M = 1) by (rewrite andb_true_iff, !N.eqb_eq in O; exact O). destruct E as [EL EM].
    rewrite OK1 by exact O. exists xs, s. split.
    + unfold resample. cbn [c_L c_M N.eqb Pos.eqb andb].
      assert (X1 : mapM (fun x => slice smp x 0 u) xs = Ok xs).
      { clear -FX. induction FX as [|x xs Hx F IH]; cbn [mapM]; [reflexivity|].
        rewrite slice_ok by lia. cbn [bind N.to_nat skipn]. rewrite firstn_all2 by (unfold len in Hx; lia). rewrite IH. reflexivity. }
      rewrite X1. reflexivity.
    + split; [exact LX|]. assert (NX : forall a, (a < nant)%nat -> len (nth a xs []) = u).
      { intros a A. rewrite Forall_forall in FX. apply FX. apply nth_In. lia. }
      split; [intros a A; rewrite len_app, I, NX by exact A; reflexivity|].
      intros a A. unfold avail, resampled. rewrite O. replace (N.to_nat (n + u - n)) with (N.to_nat u) by lia.
      pose proof (I a A) as I1. pose proof (NX a A) as I2.
      rewrite map_nseq. apply nth_ext with (d := s0) (d' := s0).
      * rewrite map_length. unfold upto. rewrite nseq_length. unfold len in I2. lia.
      * intros k Hk. assert (Q : nth_error (map (fun i => sig s0 (X a ++ nth a xs []) (n + i)) (upto u)) k = Some (sig s0 (X a ++ nth a xs []) (n + N.of_nat k))).
        { refine (map_nth_error (fun i => sig s0 (X a ++ nth a xs []) (n + i)) k (upto u) _). unfold upto. rewrite nseq_nth by (unfold len in I2; lia). f_equal. }
        rewrite (nth_error_nth _ _ _ Q). unfold sig. rewrite app_nth2 by (unfold len in I1; lia). f_equal. unfold len in I1. lia.
  - destruct (OK2 O) as (A & RC). rewrite RC in HU |- *. pose proof (aL coef L M h A) as HL. pose proof (aM coef L M h A) as HM. pose proof (ar coef L M h A) as Hr.
    destruct (K_props smp coef dot L M h O BL BM BF HL (aO coef L M h A)) as (K1 & _ & _ & KS).
    pose proof (cfg_sub smp coef f0 dot L M h O BL BM BF) as CS. pose proof (cfg_tab smp coef f0 dot L M h O BL BM BF A) as CT.
    pose proof (resample_ok smp coef s0 dot L M _ K _ _ (cfg coef f0 L M h) HL HM K1 Hr eq_refl eq_refl eq_refl eq_refl CS CT
      (dispatch_ok smp coef dot L M h) eq_refl KS O nant NA s X n (u, xs) I) as R.
    destruct R as (o & s' & R1 & R2 & R3 & R4 & (R5 & _)).
    { split; [exact LX|]. split; [exact FX|]. exact HU. }
    cbn [fst snd] in *. exists o, s'. split; [exact R1|]. split; [exact R5|]. split; [exact R2|].
    assert (SF : forall s X n a, inv smp s0 M K (D / L) nant s X n -> (a < nant)%nat ->
      sofar smp coef s0 dot L M (D mod L) K (D / L) (sub_of coef f0 L h) s X n a = map (rsd (sig s0 (X a))) (upto (ready n))).
    { clear I LX FX HU R1 R2 R3 R4 R5 s X xs o s' n u. intros s X n a (I1 & I2 & I3 & _) Ha. destruct (I2 a Ha) as (LA & _). unfold sofar.
      set (w := n + r_skip smp s - D / L).
      assert (Hw : n = w + D / L \/ w = 0 /\ n = 0) by (subst w; destruct I3 as [[-> ?]|[-> ->]]; [left|right]; lia). clearbody w. clear I3.
      pose proof (blk_spec smp coef s0 f0 dot L M h O BL BM BF A (X a) (N.to_nat w) 0) as B. rewrite N.add_0_r in B.
      erewrite blk_ext.
      - rewrite B.
        + rewrite kc_0 by assumption. rewrite N2Nat.id, N.add_0_l, N.sub_0_r.
          assert (KR : kc L M (D mod L) w = ready n).
          { assert (DS : D = D / L * L + D mod L) by (rewrite (N.div_mod D L) at 1 by lia; lia).
            assert (Q : forall k, k < kc L M (D mod L) w <-> k < ready n).
            { intros k. rewrite kc_gt by assumption. rewrite ready_iff. unfold computable. rewrite O. unfold position.
              revert DS Hw. generalize (D / L) as sk. generalize (D mod L) as r. generalize D as d. clear -HL HM.
              intros d r sk DS [Hw|[-> ->]]; rewrite DS; [rewrite Hw|]; nia. }
            destruct (N.lt_trichotomy (kc L M (D mod L) w) (ready n)) as [C|[C|C]]; [|exact C|];
              [apply Q in C|apply Q in C]; lia. }
          rewrite KR. apply map_ext. intros k. apply out_sample_sig. exact O.
        + rewrite N2Nat.id. revert KS Hw. generalize (D / L) as sk. generalize K as K0. clear -LA. intros. lia.
      - intros j J. rewrite app_assoc. symmetry. apply win_front. rewrite len_app.
        assert (LZ : len (repeat s0 (N.to_nat (K - 1))) = K - 1) by (unfold len; rewrite repeat_length; apply N2Nat.id). rewrite LZ. clear LZ.
        revert KS Hw J LA K1. generalize (D / L) as sk. generalize K as K0. clear. intros. lia. }
    intros a Ha. specialize (R4 a Ha). 
    assert (Q : map (rsd (sig s0 (X a))) (upto (ready n)) ++ nth a o [] = map (rsd (sig s0 (X a ++ nth a xs []))) (upto (ready (n + u)))).
    { pose proof (SF s X n a I Ha) as S1. pose proof (SF s' _ (n + u) a R2 Ha) as S2. unfold ext in S2. cbn [snd] in S2.
      rewrite <- S1, <- S2. exact R4. }
    clear R4. rename Q into R4. pose proof (ready_mono n (n + u) ltac:(lia)) as MO.
    replace (ready (n + u)) with (ready n + (ready (n + u) - ready n)) in R4 by lia. rewrite upto_app, map_app in R4.
    rewrite resampled_app in R4 by (destruct I as (_ & I2 & _); apply I2; exact Ha).
    apply app_inv_head in R4. exact R4.
Qed.
Lemma rinv_reset s m : (one = false -> shape smp K s m) -> (nant <= m)%nat -> rinv (reset _ _ s0 rc s) (fun _ => []) 0.
Proof.
  intros S Hm. unfold rinv. destruct cas as [O|O]; rewrite O; [reflexivity|].
  destruct (OK2 O) as (A & RC). rewrite RC. pose proof (aL coef L M h A) as HL. pose proof (aM coef L M h A) as HM. pose proof (ar coef L M h A) as Hr.
  destruct (K_props smp coef dot L M h O BL BM BF HL (aO coef L M h A)) as (K1 & _ & _ & KS).
  pose proof (cfg_sub smp coef f0 dot L M h O BL BM BF) as CS. pose proof (cfg_tab smp coef f0 dot L M h O BL BM BF A) as CT.
  exact (reset_inv smp coef s0 dot L M _ K _ _ (cfg coef f0 L M h) HL HM K1 Hr eq_refl eq_refl eq_refl eq_refl CS CT
      eq_refl KS O nant NA s m (S O) Hm).
Qed.

(** The history buffers have their size. *)
Definition hist (s : state smp) : Prop := one = false -> exists m, (nant <= m)%nat /\ shape smp K s m.
Lemma rinv_start s : hist s -> rinv (reset _ _ s0 rc s) (fun _ => []) 0.
Proof.
  intros Hs. destruct cas as [O|O].
  - unfold rinv. rewrite O. reflexivity.
  - destruct (Hs O) as (m & Hm & Sh). apply rinv_reset with (m := m); [intros _; exact Sh|exact Hm].
Qed.
Lemma hist_step s o y s' : hist s -> step _ _ s0 dot rc s o = Ok (y, s') -> hist s'.
Proof.
  intros Hs E O. destruct (Hs O) as (m & Hm & Sh). exists m. split; [exact Hm|].
  destruct (OK2 O) as (A & RC). rewrite RC in E. pose proof (aL coef L M h A) as HL. pose proof (aM coef L M h A) as HM. pose proof (ar coef L M h A) as Hr.
  destruct (K_props smp coef dot L M h O BL BM BF HL (aO coef L M h A)) as (K1 & _ & _ & KS).
  pose proof (cfg_sub smp coef f0 dot L M h O BL BM BF) as CS. pose proof (cfg_tab smp coef f0 dot L M h O BL BM BF A) as CT.
  exact (step_shape smp coef s0 dot L M _ K _ _ (cfg coef f0 L M h) HL HM K1 Hr eq_refl eq_refl eq_refl eq_refl CS CT
      eq_refl KS O nant NA s m o y s' Sh E).
Qed.
End resampler.
