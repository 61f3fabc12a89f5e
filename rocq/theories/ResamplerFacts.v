From Verif Require Import Base IntHelpers Cells CellsFacts Resampler ResamplerSpec.
Open Scope N_scope.

Lemma w32_id x : x < 2 ^ 32 -> w32 x = x.
Proof. intros. unfold w32. apply N.mod_small; assumption. Qed.

(** ** Which outputs belong to which window *)
Section table.
Variables (L M r : N).
Hypothesis (HL : 1 <= L) (HM : 1 <= M).

Definition kc (w : N) : N := (w * L + (M - 1) - r) / M.
Lemma kc_le w k : kc w <= k <-> w * L <= k * M + r.
Proof.
  unfold kc. set (a := w * L) in *.
  assert (D := N.div_mod (a + (M - 1) - r) M ltac:(lia)).
  assert (E := N.mod_lt (a + (M - 1) - r) M ltac:(lia)).
  set (q := (a + (M - 1) - r) / M) in *. set (m := (a + (M - 1) - r) mod M) in *. clearbody q m.
  split; intros H.
  - assert (M * q <= M * k) by (apply N.mul_le_mono_l; lia). lia.
  - destruct (N.le_gt_cases q k); [assumption|].
    assert (M * (k + 1) <= M * q) by (apply N.mul_le_mono_l; lia). lia.
Qed.
Lemma kc_gt w k : k < kc w <-> k * M + r < w * L.
Proof. pose proof (kc_le w k). lia. Qed.
Lemma kc_mono w v : w <= v -> kc w <= kc v.
Proof.
  intros. apply kc_le. pose proof (proj1 (kc_le v (kc v)) ltac:(lia)).
  assert (w * L <= v * L) by (apply N.mul_le_mono_r; lia). lia.
Qed.
Lemma kc_0 : kc 0 = 0.
Proof. pose proof (proj2 (kc_le 0 0)). lia. Qed.
Lemma kc_period w : r < M -> kc (w + M) = kc w + L.
Proof.
  intros. unfold kc. replace ((w + M) * L + (M - 1) - r) with ((w * L + (M - 1) - r) + L * M) by nia.
  rewrite N.div_add by lia. reflexivity.
Qed.

Definition krange (w : N) : list N := nseq (kc w) (N.to_nat (kc (w + 1) - kc w)).
Definition rowspec (w : N) : list N := map (fun k => k * M + r - w * L) (krange w).
Lemma krange_in w k : In k (krange w) <-> w * L <= k * M + r < (w + 1) * L.
Proof.
  unfold krange. rewrite nseq_in. pose proof (kc_le w k). pose proof (kc_gt (w + 1) k).
  pose proof (kc_mono w (w + 1) ltac:(lia)). lia.
Qed.
Lemma krange_len w : len (krange w) = kc (w + 1) - kc w.
Proof. unfold len, krange. rewrite nseq_length. lia. Qed.
Lemma rowspec_len w : len (rowspec w) = kc (w + 1) - kc w.
Proof. unfold rowspec, len. rewrite map_length. apply krange_len. Qed.
Lemma nseq_shift a n d : nseq (a + d) n = map (fun k => k + d) (nseq a n).
Proof.
  revert a; induction n; intros; cbn; [reflexivity|]. f_equal. rewrite <- IHn. f_equal. lia.
Qed.
Lemma rowspec_period w : r < M -> rowspec (w + M) = rowspec w.
Proof.
  intros. unfold rowspec, krange.
  replace (w + M + 1) with (w + 1 + M) by lia. rewrite !kc_period by assumption.
  replace (kc (w + 1) + L - (kc w + L)) with (kc (w + 1) - kc w) by lia.
  rewrite nseq_shift, map_map. apply map_ext. intros. nia.
Qed.
Lemma rowspec_mod w : r < M -> rowspec (w mod M) = rowspec w.
Proof.
  intros. rewrite (N.div_mod w M) at 2 by lia. generalize (w mod M) as a. generalize (w / M) as q. clear w.
  intros q. induction q using N.peano_ind; intros.
  - f_equal. lia.
  - rewrite IHq. rewrite <- rowspec_period by assumption. f_equal. nia.
Qed.
Lemma rowspec_lt w l : In l (rowspec w) -> l < L.
Proof.
  unfold rowspec. rewrite in_map_iff. intros (k & <- & K). apply krange_in in K. nia.
Qed.

Hypothesis (BL : L < 2 ^ 31) (BM : M < 2 ^ 31) (Hr : r < L).

Lemma tab_row_ok w : forall fuel k, w * L <= k * M + r -> (N.to_nat ((w + 1) * L - (k * M + r)) < fuel)%nat ->
  tab_row fuel L M (k * M + r - w * L) =
  (map (fun k => k * M + r - w * L) (nseq k (N.to_nat (kc (w + 1) - k))), N.max k (kc (w + 1)) * M + r - w * L).
Proof.
  induction fuel as [|fuel IH]; intros k K F; [lia|]. cbn [tab_row].
  replace ((w + 1) * L) with (w * L + L) in * by lia.
  set (a := w * L) in *. assert (HA : kc (w + 1) <= k <-> a + L <= k * M + r).
  { rewrite kc_le. subst a. lia. }
  destruct (N.ltb_spec (k * M + r - a) L) as [C|C].
  - rewrite w32_id by lia.
    replace (k * M + r - a + M) with ((k + 1) * M + r - a) by lia.
    rewrite IH; [|lia|lia].
    replace (N.to_nat (kc (w + 1) - k)) with (S (N.to_nat (kc (w + 1) - (k + 1)))) by lia.
    cbn [nseq map]. f_equal. f_equal. f_equal. f_equal. lia.
  - replace (N.to_nat (kc (w + 1) - k)) with O by lia. cbn [nseq map].
    replace (N.max k (kc (w + 1))) with k by lia. reflexivity.
Qed.

Lemma tab_rows_step w fuel : M <= 2 * L -> kc w * M + r - w * L < L -> w < M ->
  let i := kc (w + 1) * M + r in
  tab_rows (S fuel) L M w (kc w * M + r - w * L) =
  (if (w + 2) * L <=? i
   then rowspec w :: [] :: tab_rows fuel L M (w + 2) (kc (w + 2) * M + r - (w + 2) * L)
   else rowspec w :: tab_rows fuel L M (w + 1) (kc (w + 1) * M + r - (w + 1) * L)) /\
  (if (w + 2) * L <=? i then kc (w + 2) = kc (w + 1) /\ kc (w + 2) * M + r - (w + 2) * L < L
   else kc (w + 1) * M + r - (w + 1) * L < L).
Proof.
  intros ML I W i. cbn [tab_rows]. replace (w <? M) with true by lia.
  pose proof (proj1 (kc_le w (kc w)) ltac:(lia)) as A.
  pose proof (proj1 (kc_le (w + 1) (kc (w + 1))) ltac:(lia)) as B.
  pose proof (kc_mono w (w + 1) ltac:(lia)) as C.
  rewrite tab_row_ok; [|lia|lia].
  replace (N.max (kc w) (kc (w + 1))) with (kc (w + 1)) by lia. fold i.
  fold (krange w). fold (rowspec w). rewrite w32_id by lia.
  assert (U : i < (w + 1) * L + M).
  { subst i. destruct (N.eq_dec (kc (w + 1)) 0) as [Z|Z]; [nia|].
    pose proof (proj1 (kc_gt (w + 1) (kc (w + 1) - 1)) ltac:(lia)). nia. }
  replace ((w + 1) * L) with (w * L + L) in * by lia.
  replace ((w + 2) * L) with (w * L + 2 * L) in * by lia.
  set (a := w * L) in *.
  replace (2 * L <=? i - a) with (a + 2 * L <=? i) by lia.
  destruct (N.leb_spec (a + 2 * L) i) as [D|D].
  - assert (E : kc (w + 2) = kc (w + 1)).
    { apply N.le_antisymm; [|apply kc_mono; lia]. apply kc_le.
      replace ((w + 2) * L) with (a + 2 * L) by (subst a; lia). exact D. }
    rewrite E. fold i. split; [|split; [reflexivity|lia]].
    do 3 f_equal. rewrite <- (N.mod_small (i - (a + 2 * L)) L) by lia.
    rewrite <- (N.mod_add (i - (a + 2 * L)) 2 L) by lia. f_equal. lia.
  - fold i. split; [|lia]. do 2 f_equal.
    rewrite <- (N.mod_small (i - (a + L)) L) by lia.
    rewrite <- (N.mod_add (i - (a + L)) 1 L) by lia. f_equal. lia.
Qed.

Lemma tab_rows_end fuel w idx : M <= w -> tab_rows fuel L M w idx = [].
Proof. intros. destruct fuel; cbn [tab_rows]; [reflexivity|]. replace (w <? M) with false by lia. reflexivity. Qed.

Lemma tab_rows_ok : M <= 2 * L -> forall fuel w j, kc w * M + r - w * L < L -> M <= w + N.of_nat fuel ->
  w + N.of_nat j < M -> nth_error (tab_rows fuel L M w (kc w * M + r - w * L)) j = Some (rowspec (w + N.of_nat j)).
Proof.
  intros ML. induction fuel as [fuel IH] using lt_wf_ind. intros w j I F J.
  destruct fuel as [|fuel]; [lia|].
  destruct (tab_rows_step w fuel ML I ltac:(lia)) as [T R]. cbv zeta in T, R. rewrite T. clear T.
  destruct ((w + 2) * L <=? kc (w + 1) * M + r).
  - destruct R as [E R]. destruct j as [|[|j]].
    + cbn. do 2 f_equal. lia.
    + cbn [nth_error]. f_equal. unfold rowspec, krange.
      replace (w + N.of_nat 1 + 1) with (w + 2) by lia. replace (w + N.of_nat 1) with (w + 1) by lia.
      rewrite E. replace (kc (w + 1) - kc (w + 1)) with 0 by lia. reflexivity.
    + cbn [nth_error]. rewrite IH; [do 2 f_equal; lia|lia|exact R|lia|lia].
  - destruct j as [|j].
    + cbn. do 2 f_equal. lia.
    + cbn [nth_error]. rewrite IH; [do 2 f_equal; lia|lia|exact R|lia|lia].
Qed.
Lemma tab_rows_count : M <= 2 * L -> forall fuel w, kc w * M + r - w * L < L -> M <= w + N.of_nat fuel -> w <= M ->
  tab_count (tab_rows fuel L M w (kc w * M + r - w * L)) = kc M - kc w.
Proof.
  intros ML. induction fuel as [fuel IH] using lt_wf_ind. intros w I F W.
  destruct (N.eq_dec w M) as [->|NE].
  { rewrite tab_rows_end by lia. cbn. lia. }
  destruct fuel as [|fuel]; [lia|].
  destruct (tab_rows_step w fuel ML I ltac:(lia)) as [T R]. cbv zeta in T, R. rewrite T. clear T.
  pose proof (kc_mono w (w + 1) ltac:(lia)). pose proof (kc_mono (w + 1) M ltac:(lia)).
  destruct ((w + 2) * L <=? kc (w + 1) * M + r).
  - destruct R as [E R]. unfold tab_count. cbn [fold_right]. fold (tab_count).
    change (fold_right (fun r0 n => len r0 + n) 0) with tab_count.
    rewrite rowspec_len. change (len []) with 0.
    destruct (N.le_gt_cases (w + 2) M).
    + rewrite IH; [|lia|exact R|lia|lia]. pose proof (kc_mono (w + 2) M ltac:(lia)). lia.
    + rewrite tab_rows_end by lia. replace M with (w + 1) in * by lia. cbn. lia.
  - unfold tab_count. cbn [fold_right]. change (fold_right (fun r0 n => len r0 + n) 0) with tab_count.
    rewrite rowspec_len. rewrite IH; [|lia|exact R|lia|lia]. lia.
Qed.
Lemma tab_rows_bad : 2 * L < M -> forall fuel w idx, idx < L -> M <= w + N.of_nat fuel ->
  M - w <= 2 * tab_count (tab_rows fuel L M w idx).
Proof.
  intros ML. induction fuel as [|fuel IH]; intros w idx I F; [cbn; lia|]. cbn [tab_rows].
  destruct (N.ltb_spec w M); [|cbn; lia].
  cbn [tab_row]. replace (idx <? L) with true by lia. rewrite w32_id by lia.
  assert (T : tab_row (N.to_nat L) L M (idx + M) = ([], idx + M)).
  { destruct (N.to_nat L); cbn [tab_row]; [reflexivity|]. replace (idx + M <? L) with false by lia. reflexivity. }
  rewrite T. rewrite w32_id by lia. replace (2 * L <=? idx + M) with true by lia.
  unfold tab_count. cbn [fold_right]. change (fold_right (fun r0 n => len r0 + n) 0) with tab_count.
  change (len [idx]) with 1. change (len []) with 0.
  assert (X : (idx + M) mod L < L) by (apply N.mod_lt; lia).
  specialize (IH (w + 2) ((idx + M) mod L) X ltac:(lia)). clear X.
  set (z := tab_count _) in *. clearbody z. lia.
Qed.
(** The constructor accepts exactly these. *)
Lemma tab_count_iff : tab_count (tab_rows (N.to_nat M) L M 0 r) = L <-> M <= 2 * L /\ r < M.
Proof.
  destruct (N.le_gt_cases M (2 * L)) as [ML|ML].
  - assert (E : r = kc 0 * M + r - 0 * L) by (rewrite kc_0; lia). rewrite E at 1.
    rewrite tab_rows_count; [|assumption|rewrite kc_0; lia|lia|lia]. rewrite kc_0.
    destruct (N.lt_ge_cases r M) as [R|R].
    + pose proof (kc_period 0 R) as P. rewrite kc_0 in P. replace (0 + M) with M in P by lia. lia.
    + assert (~ L <= kc M - 0); [|lia]. intros C.
      pose proof (proj1 (kc_gt M (L - 1)) ltac:(lia)). nia.
  - pose proof (tab_rows_bad ML (N.to_nat M) 0 r ltac:(lia) ltac:(lia)). lia.
Qed.
Lemma tab_rows_at w : M <= 2 * L -> w < M -> at_idx (tab_rows (N.to_nat M) L M 0 r) w = Ok (rowspec w).
Proof.
  intros ML W. assert (E : r = kc 0 * M + r - 0 * L) by (rewrite kc_0; lia).
  unfold at_idx, rd. rewrite E at 1.
  rewrite tab_rows_ok; [do 2 f_equal; lia|assumption|rewrite kc_0; lia|lia|lia].
Qed.
End table.

(** ** Windows *)
Fixpoint row_instr (l : list N) : list instr :=
  match l with
  | [] => [Adv]
  | [x] => [Dot x true]
  | x :: l => Dot x false :: row_instr l
  end.

Section windows.
Variables (smp coef : Type) (s0 : smp) (f0 : coef) (dot : list smp -> list coef -> smp).
Variables (L M r K : N) (sub : N -> list coef) (c : config coef).
Hypothesis (HL : 1 <= L) (HM : 1 <= M) (HK : 1 <= K) (Hr : r < M).
Hypothesis (CL : c_L _ c = L) (CM : c_M _ c = M) (CK : c_sub_len _ c = K) (CH : c_hist _ c = K - 1).
Hypothesis (CS : forall l, l < L -> at_idx (c_sub _ c) l = Ok (sub l) /\ len (sub l) = K).
Hypothesis (CT : forall w, w < M -> at_idx (c_tab _ c) w = Ok (rowspec L M r w)).
Hypothesis (CI : c_impl _ c = Generic \/
  c_impl _ c = Unrolled (concat (map row_instr (map (rowspec L M r) (upto M)))) K).

Notation kc := (kc L M r).
Notation rowspec := (rowspec L M r).

Definition win (b : list smp) (p : N) : list smp := firstn (N.to_nat K) (skipn (N.to_nat p) b).
Definition outs (w : list smp) (i : N) : list smp := map (fun l => dot w (sub l)) (rowspec i).
Fixpoint blk (b : list smp) (p w : N) (n : nat) : list smp :=
  match n with O => [] | S n => outs (win b p) w ++ blk b (p + 1) (w + 1) n end.

Lemma blk_app b m n : forall p w, blk b p w (m + n) = blk b p w m ++ blk b (p + N.of_nat m) (w + N.of_nat m) n.
Proof using smp coef dot L M r K sub. clear CI CS CT CL CM CK CH HL HM HK Hr.
  induction m; intros; cbn [blk Nat.add].
  - cbn [app]. f_equal; lia.
  - rewrite IHm, app_assoc. do 2 f_equal; lia.
Qed.
Lemma blk_ext b b' n : forall p p' w, (forall j, (j < n)%nat -> win b (p + N.of_nat j) = win b' (p' + N.of_nat j)) ->
  blk b p w n = blk b' p' w n.
Proof using smp coef dot L M r K sub. clear CI CS CT CL CM CK CH HL HM HK Hr.
  induction n; intros p p' w H; cbn [blk]; [reflexivity|]. f_equal.
  - pose proof (H O ltac:(lia)) as E. replace (p + N.of_nat 0) with p in E by lia.
    replace (p' + N.of_nat 0) with p' in E by lia. rewrite E. reflexivity.
  - apply IHn. intros j J. pose proof (H (S j) ltac:(lia)) as E.
    replace (p + 1 + N.of_nat j) with (p + N.of_nat (S j)) by lia.
    replace (p' + 1 + N.of_nat j) with (p' + N.of_nat (S j)) by lia. exact E.
Qed.
Lemma blk_period b n k : forall p w, blk b p (w + k * M) n = blk b p w n.
Proof using HL HM Hr. clear CI CS CT CL CM CK CH HK.
  induction n; intros; cbn [blk]; [reflexivity|]. f_equal.
  - unfold outs. f_equal. rewrite <- (rowspec_mod L M r HL HM (w + k * M) Hr), <- (rowspec_mod L M r HL HM w Hr).
    f_equal. apply N.mod_add. lia.
  - replace (w + k * M + 1) with (w + 1 + k * M) by lia. apply IHn.
Qed.
Lemma blk_len b n : forall p w, len (blk b p w n) = kc (w + N.of_nat n) - kc w.
Proof using HL HM. clear CI CS CT CL CM CK CH HK Hr.
  induction n; intros; cbn [blk].
  - change (len []) with 0. replace (w + N.of_nat 0) with w by lia. lia.
  - rewrite len_app, IHn. unfold outs, len. rewrite map_length.
    change (N.of_nat (length (rowspec w))) with (len (rowspec w)). rewrite rowspec_len by assumption.
    replace (w + 1 + N.of_nat n) with (w + N.of_nat (S n)) by lia.
    pose proof (kc_mono L M r HL HM w (w + 1) ltac:(lia)).
    pose proof (kc_mono L M r HL HM (w + 1) (w + N.of_nat (S n)) ltac:(lia)). lia.
Qed.

Lemma dot_at_ok b p l : l < L -> p + K <= len b -> dot_at _ _ dot c b p l K = Ok (dot (win b p) (sub l)).
Proof.
  intros Ll B. unfold dot_at. destruct (CS l Ll) as [-> E]. cbn [bind]. unfold slice.
  replace (p + K <=? len b) with true by lia. cbn [bind]. rewrite E. replace (K <=? K) with true by lia.
  do 2 f_equal. unfold len in E. rewrite firstn_all2 by lia. reflexivity.
Qed.
Lemma row_ok b p w : p + K <= len b -> mapM (fun l => dot_at _ _ dot c b p l K) (rowspec w) = Ok (outs (win b p) w).
Proof.
  intros. apply mapM_map. intros l I. apply dot_at_ok; [|assumption]. exact (rowspec_lt L M r HL HM w l I).
Qed.
Lemma generic_ok b n : forall p w, p + N.of_nat n + K <= len b + 1 ->
  generic _ _ dot c b n p (w mod M) = Ok (blk b p w n, (w + N.of_nat n) mod M).
Proof.
  induction n; intros p w B; cbn [generic blk].
  - replace (w + N.of_nat 0) with w by lia. reflexivity.
  - rewrite CT by (apply N.mod_lt; lia). cbn [bind]. rewrite CK, CM.
    rewrite rowspec_mod by assumption. rewrite row_ok by lia. cbn [bind].
    replace ((w mod M + 1) mod M) with ((w + 1) mod M) by (rewrite <- N.add_mod_idemp_l by lia; reflexivity).
    rewrite IHn by lia. cbn [bind]. do 2 f_equal. f_equal. lia.
Qed.

Lemma exec_row b p w rest : p + K <= len b ->
  exec _ _ dot c b K (row_instr (rowspec w) ++ rest) p =
  (do (o, q) <- exec _ _ dot c b K rest (p + 1) ; Ok (outs (win b p) w ++ o, q)).
Proof.
  intros B. unfold outs. assert (A : forall l, In l (rowspec w) -> l < L) by (intros l; apply rowspec_lt; assumption).
  revert A. generalize (rowspec w) as row. induction row as [|x row IH]; intros A.
  - cbn. destruct (exec _ _ dot c b K rest (p + 1)) as [[? ?]| | |]; reflexivity.
  - destruct row as [|y row].
    + cbn [row_instr app exec map]. rewrite dot_at_ok by (try lia; apply A; left; reflexivity). cbn [bind].
      destruct (exec _ _ dot c b K rest (p + 1)) as [[? ?]| | |]; reflexivity.
    + change (row_instr (x :: y :: row)) with (Dot x false :: row_instr (y :: row)).
      cbn [app exec]. rewrite dot_at_ok by (try lia; apply A; left; reflexivity). cbn [bind].
      rewrite IH by (intros; apply A; right; assumption).
      destruct (exec _ _ dot c b K rest (p + 1)) as [[? ?]| | |]; reflexivity.
Qed.
Lemma exec_rows b n : forall p w, p + N.of_nat n + K <= len b + 1 ->
  exec _ _ dot c b K (concat (map row_instr (map rowspec (nseq w n)))) p = Ok (blk b p w n, p + N.of_nat n).
Proof.
  induction n; intros p w B; cbn [nseq map concat blk].
  - cbn. do 2 f_equal. lia.
  - rewrite exec_row by lia. rewrite IHn by lia. cbn [bind]. do 2 f_equal. lia.
Qed.
Lemma exec_times_ok b k : forall p w, p + N.of_nat k * M + K <= len b + 1 ->
  exec_times _ _ dot c b K (concat (map row_instr (map rowspec (upto M)))) k p = Ok (blk b p (w * M) (k * N.to_nat M)%nat).
Proof.
  induction k; intros p w B; cbn [exec_times].
  - reflexivity.
  - unfold upto. rewrite exec_rows by lia. cbn [bind].
    specialize (IHk (p + N.of_nat (N.to_nat M)) (w + 1) ltac:(lia)). unfold upto in IHk. rewrite IHk. cbn [bind].
    f_equal. change (S k * N.to_nat M)%nat with (N.to_nat M + k * N.to_nat M)%nat. rewrite blk_app. f_equal.
    + pose proof (blk_period b (N.to_nat M) w p 0) as E. replace (0 + w * M) with (w * M) in E by lia. symmetry; exact E.
    + f_equal. lia.
Qed.
Lemma run_impl_ok b n p w : p + n + K <= len b + 1 ->
  run_impl _ _ dot c b n p (w mod M) = Ok (blk b p w (N.to_nat n), (w + n) mod M).
Proof.
  intros B. unfold run_impl. destruct CI as [-> | ->].
  - rewrite generic_ok by lia. do 2 f_equal. f_equal. lia.
  - rewrite CM. assert (Hm : w mod M < M) by (apply N.mod_lt; lia).
    set (ci := N.min n (M - w mod M)). rewrite generic_ok by lia. cbn [bind].
    set (fm := (n - ci) / M).
    assert (F : fm * M <= n - ci < fm * M + M).
    { subst fm. pose proof (N.div_mod (n - ci) M ltac:(lia)). pose proof (N.mod_lt (n - ci) M ltac:(lia)).
      generalize dependent ((n - ci) mod M). generalize ((n - ci) / M). intros; lia. }
    destruct (N.le_gt_cases n (M - w mod M)) as [C|C].
    + assert (ci = n) by (subst ci; lia). assert (fm = 0) by (destruct fm; [reflexivity|lia]).
      rewrite H0. cbn [N.to_nat exec_times bind]. replace (ci + 0 * M <? n) with false by lia.
      rewrite app_nil_r. rewrite H. do 2 f_equal. f_equal. lia.
    + assert (E : ci = M - w mod M) by (subst ci; lia).
      assert (Z : exists v, w + ci = v * M).
      { exists (w / M + 1). pose proof (N.div_mod w M ltac:(lia)). generalize dependent (w mod M).
        generalize (w / M). intros; lia. }
      destruct Z as [v Z]. assert (CN : ci <= n) by (subst ci; lia). clearbody fm ci. clear E C Hm.
      rewrite (exec_times_ok b (N.to_nat fm) (p + ci) v) by lia. cbn [bind].
      assert (CC : (w + N.of_nat (N.to_nat ci)) mod M = (v + fm) * M mod M).
      { replace (w + N.of_nat (N.to_nat ci)) with (v * M) by lia. rewrite !N.mod_mul by lia. reflexivity. }
      rewrite CC.
      assert (SP : blk b p w (N.to_nat n) = blk b p w (N.to_nat ci) ++ blk b (p + ci) (v * M) (N.to_nat fm * N.to_nat M)
                     ++ blk b (p + (ci + fm * M)) ((v + fm) * M) (N.to_nat (n - (ci + fm * M)))).
      { clear CC. set (u := fm * M) in *. assert (U : (N.to_nat fm * N.to_nat M)%nat = N.to_nat u) by (subst u; lia).
        rewrite U. replace ((v + fm) * M) with (v * M + u) by (subst u; lia). set (vM := v * M) in *. clearbody u vM.
        replace (N.to_nat n) with (N.to_nat ci + (N.to_nat u + N.to_nat (n - (ci + u))))%nat by lia.
        rewrite !blk_app. f_equal. f_equal; [f_equal; lia|]. f_equal; lia. }
      destruct (N.ltb_spec (ci + fm * M) n) as [D|D].
      * rewrite generic_ok by lia. cbn [bind]. rewrite SP. do 2 f_equal. f_equal. lia.
      * rewrite SP. replace (N.to_nat (n - (ci + fm * M))) with O by lia. cbn [blk]. rewrite app_nil_r.
        do 2 f_equal. replace (w + n) with ((v + fm) * M) by lia. reflexivity.
Qed.
End windows.
