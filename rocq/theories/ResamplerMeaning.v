From Verif Require Import Base IntHelpers Cells CellsFacts Resampler ResamplerSpec ResamplerFacts ResamplerStream.
Open Scope N_scope.

(** ** Lists *)
Lemma rev_upto n : rev (upto n) = map (fun j => n - 1 - j) (upto n).
Proof.
  unfold upto. assert (G : forall k a, rev (nseq a k) = map (fun j => a + N.of_nat k - 1 - j) (nseq 0 k)).
  { induction k; intros a; [reflexivity|]. rewrite (nseq_snoc 0), map_app. cbn [nseq rev map].
    rewrite IHk. clear IHk. f_equal; [|f_equal; lia].
    rewrite map_ext_in with (g := fun j => a + N.of_nat (S k) - 1 - j); [reflexivity|].
    intros j J. lia. }
  rewrite G. apply map_ext. intros. lia.
Qed.
Lemma place L t d sk r w : 1 <= L -> d = sk * L + r -> w * L <= t + r < (w + 1) * L ->
  (t + d) / L = w + sk /\ (t + d) mod L = t + r - w * L.
Proof.
  intros HL DS I. replace ((w + 1) * L) with (w * L + L) in I by lia.
  assert (E : t + d = L * (w + sk) + (t + r - w * L)).
  { rewrite N.mul_add_distr_l, (N.mul_comm L w), (N.mul_comm L sk). lia. }
  split.
  - symmetry. apply N.div_unique with (r := t + r - w * L); [lia|exact E].
  - symmetry. apply N.mod_unique with (q := w + sk); [lia|exact E].
Qed.
Lemma window_nth {A} (d : A) K : forall p (b : list A), (p + K <= length b)%nat ->
  firstn K (skipn p b) = map (fun j => nth (p + N.to_nat j) b d) (nseq 0 K).
Proof.
  induction K; intros p b B; [reflexivity|].
  rewrite nseq_snoc, map_app. cbn [map]. rewrite <- IHK by lia.
  rewrite <- (firstn_skipn K (firstn (S K) (skipn p b))) at 1. rewrite firstn_firstn, Nat.min_l by lia. f_equal.
  rewrite skipn_firstn_comm. replace (S K - K)%nat with 1%nat by lia. rewrite skipn_skipn'.
  replace (N.to_nat (0 + N.of_nat K)) with K by lia.
  assert (Q : (p + K < length b)%nat) by lia. clear -Q. revert Q. generalize (p + K)%nat. clear. intros n; revert b.
  induction n; intros [|x b] Q; cbn in *; try lia; [reflexivity|]. apply IHn. lia.
Qed.
Lemma nth_pad {A} (s0 : A) H x p : (p < H + length x + H)%nat ->
  nth p (repeat s0 H ++ x ++ repeat s0 H) s0 = sample_at s0 x (Z.of_nat p - Z.of_nat H).
Proof.
  intros P. unfold sample_at. destruct (Z.ltb_spec (Z.of_nat p - Z.of_nat H) 0).
  - rewrite app_nth1 by (rewrite repeat_length; lia). apply nth_repeat.
  - rewrite app_nth2 by (rewrite repeat_length; lia). rewrite repeat_length.
    replace (Z.to_nat (Z.of_nat p - Z.of_nat H)) with (p - H)%nat by lia.
    destruct (Nat.lt_ge_cases (p - H) (length x)).
    + now rewrite app_nth1 by lia.
    + rewrite app_nth2 by lia. rewrite nth_repeat. now rewrite nth_overflow by lia.
Qed.

(** ** Construction *)
Section made.
Variables (smp coef : Type) (s0 : smp) (f0 : coef) (dot : list smp -> list coef -> smp).
Variables (L M : N) (h : list coef).
Notation D := ((len h - 1) / 2).
Notation K := (sub_taps L h).
Definition sub_of (l : N) : list coef := map (fun m => tap f0 h (l + m * L)) (rev (upto K)).

Lemma dispatch_ok : dispatch L M (len h) = Generic \/
  dispatch L M (len h) = Unrolled (concat (map row_instr (map (rowspec L M (D mod L)) (upto M)))) K.
Proof.
  unfold dispatch, sub_taps. generalize (len h) as F. intros F.
  destruct ((L =? 10) && (M =? 9) && (F =? 223)) eqn:E1; [right|].
  { assert (L = 10) by lia. assert (M = 9) by lia. assert (F = 223) by lia. subst. vm_compute. reflexivity. }
  destruct ((L =? 9) && (M =? 10) && (F =? 223)) eqn:E2; [right|].
  { assert (L = 9) by lia. assert (M = 10) by lia. assert (F = 223) by lia. subst. vm_compute. reflexivity. }
  destruct ((L =? 10) && (M =? 9) && (F =? 45)) eqn:E3; [right|].
  { assert (L = 10) by lia. assert (M = 9) by lia. assert (F = 45) by lia. subst. vm_compute. reflexivity. }
  destruct ((L =? 9) && (M =? 10) && (F =? 45)) eqn:E4; [right|left; reflexivity].
  assert (L = 9) by lia. assert (M = 10) by lia. assert (F = 45) by lia. subst. vm_compute. reflexivity.
Qed.

Hypothesis (N1 : (L =? 1) && (M =? 1) = false) (BL : L < 2 ^ 31) (BM : M < 2 ^ 31) (BF : len h + L <= 2 ^ 32).
Definition accepted : Prop := len h mod 2 = 1 /\ 1 <= L /\ 1 <= M /\ M <= 2 * L /\ D mod L < M.

Definition cfg : config coef :=
  mkCfg _ L M K (map sub_of (upto L)) (D / L) (tab_rows (N.to_nat M) L M 0 (D mod L)) (K - 1) (dispatch L M (len h)).

Lemma K_props : 1 <= L -> len h mod 2 = 1 -> 1 <= K /\ len h <= K * L /\ K * L <= len h + L - 1 /\ D / L <= K - 1.
Proof.
  intros HL O. assert (1 <= len h) by (destruct (len h); [discriminate O|lia]).
  unfold sub_taps. set (F := len h) in *. clearbody F.
  pose proof (N.div_mod (F + L - 1) L ltac:(lia)) as E. pose proof (N.mod_lt (F + L - 1) L ltac:(lia)) as U.
  set (q := (F + L - 1) / L) in *. set (m := (F + L - 1) mod L) in *. clearbody q m.
  assert (L * q = q * L) by lia. assert (1 <= q) by (destruct q; lia). 
  split; [assumption|]. split; [lia|]. split; [lia|].
  assert (X : (F - 1) / 2 < L * q) by (clear O; lia).
  apply N.div_lt_upper_bound in X; lia.
Qed.

Lemma create_eq junk : create smp coef s0 f0 L M h junk =
  if L =? 0 then (if len h mod 2 =? 0 then Abort else Oob) else
  if (len h mod 2 =? 1) && (1 <=? M) && (M <=? 2 * L) && (D mod L <? M) then Ok (cfg, reset _ _ s0 cfg (mkSt _ junk 0 0)) else Abort.
Proof.
  unfold create. rewrite N1. unfold guard. cbv zeta.
  destruct (N.eqb_spec (len h mod 2) 0) as [O|O].
  { cbn [negb]. rewrite O. destruct (L =? 0); reflexivity. }
  assert (O1 : len h mod 2 = 1) by (pose proof (N.mod_lt (len h) 2 ltac:(lia)); lia). clear O. rewrite O1. cbn [negb].
  unfold ceil_divide_integer. destruct (N.eqb_spec L 0) as [Z|Z]; [reflexivity|]. cbn [bind].
  destruct (K_props ltac:(lia) O1) as (K1 & K2 & K3 & K4).
  assert (Q : (len h + L + (2 ^ 32 - 1)) mod 2 ^ 32 / L = K).
  { unfold sub_taps. f_equal. replace (len h + L + (2 ^ 32 - 1)) with (len h + L - 1 + 1 * 2 ^ 32) by lia.
    rewrite N.mod_add by lia. apply N.mod_small. lia. }
  rewrite Q. clear Q. rewrite w32_id by lia.
  replace (len h + (K * L - len h)) with (K * L) by lia. rewrite N.div_mul by lia.
  assert (SUBS : mapM (subfilter coef (h ++ repeat f0 (N.to_nat (K * L - len h))) L K) (upto L) = Ok (map sub_of (upto L))).
  { apply mapM_map. intros l I. apply upto_in in I. unfold subfilter.
    rewrite (mapM_map _ (fun m => tap f0 h (l + m * L))).
    - cbn [bind]. unfold sub_of. rewrite map_rev. reflexivity.
    - intros m J. apply upto_in in J. unfold at_idx, tap.
      assert (B : l + m * L < K * L) by nia.
      rewrite rd_ok with (d := f0) by (rewrite app_length, repeat_length; unfold len in *; lia). f_equal.
      destruct (Nat.lt_ge_cases (N.to_nat (l + m * L)) (length h)).
      + now rewrite app_nth1 by lia.
      + rewrite app_nth2, nth_repeat by lia. now rewrite nth_overflow by lia. }
  rewrite SUBS. cbn [bind]. clear SUBS.
  destruct (N.leb_spec 1 M) as [HM|HM].
  - pose proof (tab_count_iff L M (D mod L) ltac:(lia) HM BL BM (N.mod_lt _ _ Z)) as T.
    replace (D / L <=? K - 1) with true by lia.
    destruct (N.eqb_spec (tab_count (tab_rows (N.to_nat M) L M 0 (D mod L))) L) as [E|E].
    + apply T in E. destruct E as [E1 E2]. replace (M <=? 2 * L) with true by lia.
      replace (D mod L <? M) with true by lia. cbn. reflexivity.
    + destruct (N.leb_spec M (2 * L)); cbn; [|reflexivity]. destruct (N.ltb_spec (D mod L) M); cbn; [|reflexivity]. tauto.
  - replace M with 0 by lia. cbn [N.to_nat tab_rows tab_count fold_right]. replace (0 =? L) with false by lia. reflexivity.
Qed.

Lemma create_inv junk c s : create smp coef s0 f0 L M h junk = Ok (c, s) ->
  accepted /\ c = cfg /\ s = reset _ _ s0 cfg (mkSt _ junk 0 0).
Proof.
  rewrite create_eq. unfold accepted. destruct (N.eqb_spec L 0); [destruct (_ =? 0); discriminate|].
  destruct ((len h mod 2 =? 1) && (1 <=? M) && (M <=? 2 * L) && (D mod L <? M)) eqn:E; [|discriminate].
  intros X. injection X as <- <-. rewrite !andb_true_iff in E. destruct E as [[[E1 E2] E3] E4].
  apply N.eqb_eq in E1. apply N.leb_le in E2, E3. apply N.ltb_lt in E4. split; [|auto]. split; [exact E1|]. lia.
Qed.

(** ** Meaning of the windows *)
Hypothesis (ACC : accepted).
Lemma aL : 1 <= L. Proof. destruct ACC as (_ & A & _). exact A. Qed.
Lemma aM : 1 <= M. Proof. destruct ACC as (_ & _ & A & _). exact A. Qed.
Lemma aO : len h mod 2 = 1. Proof. destruct ACC as (A & _). exact A. Qed.
Lemma ar : D mod L < M. Proof. destruct ACC as (_ & _ & _ & _ & A). exact A. Qed.
Lemma a2 : M <= 2 * L. Proof. destruct ACC as (_ & _ & _ & A & _). exact A. Qed.
Notation r := (D mod L).
Notation skip := (D / L).
Notation H := (K - 1).
Notation kc := (kc L M r).

Lemma cfg_sub l : l < L -> at_idx (c_sub _ cfg) l = Ok (sub_of l) /\ len (sub_of l) = K.
Proof.
  intros A. split.
  - cbn [cfg c_sub]. unfold at_idx, rd. unfold upto. rewrite (map_nth_error _ _ _ (nseq_nth 0 (N.to_nat L) (N.to_nat l) ltac:(lia))).
    do 2 f_equal. lia.
  - unfold sub_of, len. rewrite map_length, rev_length. apply upto_len.
Qed.
Lemma cfg_tab w : w < M -> at_idx (c_tab _ cfg) w = Ok (rowspec L M r w).
Proof.
  intros. cbn [cfg c_tab]. pose proof aL. pose proof aM.
  apply tab_rows_at; try assumption; [apply N.mod_lt; lia|apply a2].
Qed.
Lemma D_split : D = skip * L + r.
Proof. rewrite (N.div_mod D L) at 1 by (pose proof aL; lia). rewrite (N.mul_comm L). reflexivity. Qed.

Lemma window_spec x w k : In k (krange L M r w) -> w + skip < len x + H ->
  dot (win smp K (repeat s0 (N.to_nat H) ++ x ++ repeat s0 (N.to_nat H)) (skip + w)) (sub_of (k * M + r - w * L)) =
  out_sample s0 f0 dot L M h x k.
Proof.
  intros I B. apply krange_in in I; [|exact aL|exact aM]. pose proof aL as HL.
  destruct (K_props HL aO) as (K1 & _ & _ & _).
  unfold out_sample, position. pose proof D_split as DS. set (r0 := r) in *. set (sk := skip) in *.
  destruct (place L (k * M) D sk r0 w HL DS I) as [T1 T2].
  rewrite T1, T2. f_equal. unfold win. clear T1 T2 DS I ACC N1 BL BM BF. clearbody r0 sk.
  set (K0 := K) in *. clearbody K0.
  assert (LP : length (repeat s0 (N.to_nat (K0 - 1)) ++ x ++ repeat s0 (N.to_nat (K0 - 1))) = (N.to_nat (K0 - 1) + length x + N.to_nat (K0 - 1))%nat)
    by (rewrite !app_length, !repeat_length; lia).
  rewrite (window_nth s0) by (rewrite LP; unfold len in *; lia).
  rewrite rev_upto, map_map. unfold upto. apply map_ext_in. intros j J. apply nseq_in in J.
  rewrite nth_pad by (unfold len in *; lia). f_equal. lia.
Qed.
Lemma blk_spec x n : forall w, w + skip + N.of_nat n <= len x + H ->
  blk smp coef dot L M r K sub_of (repeat s0 (N.to_nat H) ++ x ++ repeat s0 (N.to_nat H)) (skip + w) w n =
  map (out_sample s0 f0 dot L M h x) (nseq (kc w) (N.to_nat (kc (w + N.of_nat n) - kc w))).
Proof.
  induction n; intros w B; cbn [blk].
  - replace (kc (w + N.of_nat 0) - kc w) with 0 by (replace (w + N.of_nat 0) with w by lia; lia). reflexivity.
  - replace (skip + w + 1) with (skip + (w + 1)) by lia. rewrite IHn by lia.
    pose proof (kc_mono L M r aL aM w (w + 1) ltac:(lia)).
    pose proof (kc_mono L M r aL aM (w + 1) (w + N.of_nat (S n)) ltac:(lia)).
    replace (w + 1 + N.of_nat n) with (w + N.of_nat (S n)) by lia.
    replace (N.to_nat (kc (w + N.of_nat (S n)) - kc w)) with
      (N.to_nat (kc (w + 1) - kc w) + N.to_nat (kc (w + N.of_nat (S n)) - kc (w + 1)))%nat by lia.
    rewrite nseq_app, map_app. f_equal.
    + unfold outs, rowspec. rewrite map_map. apply map_ext_in. intros k I. apply window_spec; [exact I|lia].
    + do 2 f_equal. lia.
Qed.
Lemma count_spec n : kc (n + H - skip) = out_count L M h n.
Proof.
  unfold ResamplerFacts.kc, out_count. pose proof aL as HL. pose proof aM as HM. destruct (K_props aL aO) as (_ & _ & _ & KS).
  pose proof ar as R. pose proof D_split as DS. pose proof (N.mod_lt D L ltac:(lia)) as RL.
  set (r0 := r) in *. set (sk := skip) in *. set (d := D) in *. set (K0 := K) in *. clearbody r0 sk d K0. clear ACC BF N1 BL BM.
  destruct (N.eq_dec (n + (K0 - 1) - sk) 0) as [Z|Z].
  - rewrite Z. replace (L * (n + (K0 - 1)) - d + (M - 1)) with (M - 1) by nia. rewrite !N.div_small; lia.
  - f_equal. replace ((n + (K0 - 1) - sk) * L) with (L * (n + (K0 - 1)) - sk * L) by nia.
    assert (sk * L + L <= L * (n + (K0 - 1))) by nia. lia.
Qed.
Lemma kc_mod w q : kc (w + q * M) = kc w + q * L.
Proof.
  pose proof aL. pose proof aM. pose proof ar. induction q using N.peano_ind.
  - rewrite !N.mul_0_l, !N.add_0_r. reflexivity.
  - replace (w + N.succ q * M) with (w + q * M + M) by lia. rewrite kc_period by assumption. rewrite IHq. lia.
Qed.
Lemma announced_ok n : n + H < 2 ^ 32 -> out_count L M h n < 2 ^ 32 ->
  get_N_samples_after_resampling coef cfg n = Ok (out_count L M h n).
Proof.
  intros B C. unfold get_N_samples_after_resampling. cbn [c_hist c_skip c_M c_L c_tab cfg].
  destruct (K_props aL aO) as (_ & _ & _ & KS). pose proof aM as HM.
  replace ((H + n + (2 ^ 32 - skip)) mod 2 ^ 32) with (n + H - skip).
  2:{ clear C. revert B KS. generalize (K - 1) as H0. generalize skip as sk. intros sk H0 B KS.
      assert (2 ^ 32 = 4294967296) as E32 by reflexivity. assert (sk < 2 ^ 32) by lia.
      replace (H0 + n + (2 ^ 32 - sk)) with (n + H0 - sk + 1 * 2 ^ 32) by lia.
      rewrite N.mod_add by lia. symmetry. apply N.mod_small. lia. }
  rewrite <- count_spec in *. set (e := n + H - skip) in *. clearbody e.
  pose proof (N.div_mod e M ltac:(lia)) as E. pose proof (N.mod_lt e M ltac:(lia)) as EL.
  set (q := e / M) in *. set (m := e mod M) in *. clearbody q m.
  replace (e - q * M) with m by lia.
  assert (KE : kc e = kc m + q * L) by (rewrite <- kc_mod; f_equal; lia).
  rewrite (mapM_map _ (rowspec L M r)).
  2:{ intros w I. apply upto_in in I. apply cfg_tab. lia. }
  cbn [bind]. f_equal. rewrite w32_id by lia. rewrite KE in *. clear E KE n B KS.
  assert (G : forall k a z, (N.of_nat a = k) -> z + kc k < 2 ^ 32 ->
     fold_left (fun n0 r0 => w32 (n0 + len r0)) (map (rowspec L M r) (nseq 0 a)) z = z + kc k).
  { intros k a; revert k. induction a; intros k z A Z.
    - cbn. assert (k = 0) by lia. subst k. rewrite kc_0 by (apply aL || apply aM). lia.
    - rewrite nseq_snoc, map_app, fold_left_app. cbn [map fold_left].
      pose proof (kc_mono L M r aL aM (N.of_nat a) (N.of_nat a + 1) ltac:(lia)).
      replace k with (N.of_nat a + 1) in * by lia.
      rewrite (IHa (N.of_nat a)) by lia. rewrite rowspec_len by (apply aL || apply aM).
      replace (0 + N.of_nat a) with (N.of_nat a) by lia. rewrite w32_id by lia. lia. }
  unfold upto. rewrite (G m) by lia. apply N.add_comm.
Qed.
End made.
