(** The decoder, block by block and symbol by symbol. *)
From Verif Require Import Base PacketSizes PacketSizesSpec PacketSizesFacts TbCodec TbCodecSpec TbEncFacts TbGeomFacts TbEncRun.
Open Scope N_scope.

Lemma eq_nth {A} (l m : list A) : length l = length m -> (forall i d, (i < length l)%nat -> nth i l d = nth i m d) -> l = m.
Proof.
  revert m. induction l as [|x l IH]; intros [|y m] L H; cbn in L; try discriminate; [reflexivity|].
  f_equal; [apply (H 0%nat x); cbn; lia|]. apply IH; [lia|]. intros i d I. apply (H (S i) d). cbn. lia.
Qed.
Lemma blit_eq {A} (l : list A) pos x : (pos + length x <= length l)%nat ->
  blit l pos x = Ok (firstn pos l ++ x ++ skipn (pos + length x) l).
Proof.
  intros H. destruct x as [|a x]; cbn [blit].
  - cbn [length app]. rewrite Nat.add_0_r, firstn_skipn. reflexivity.
  - replace (pos + length (a :: x) <=? length l)%nat with true by lia. reflexivity.
Qed.
Definition put {A} (l : list A) pos x := firstn pos l ++ x ++ skipn (pos + length x) l.
Lemma put_length {A} (l : list A) pos x : (pos + length x <= length l)%nat -> length (put l pos x) = length l.
Proof. intros H. unfold put. rewrite !app_length, firstn_length, skipn_length. lia. Qed.
Lemma put_slice {A} (l : list A) pos x : (pos + length x <= length l)%nat -> firstn (length x) (skipn pos (put l pos x)) = x.
Proof.
  intros H. unfold put. assert (F : length (firstn pos l) = pos) by (rewrite firstn_length; lia).
  rewrite skipn_app, F. replace (skipn pos (firstn pos l)) with (@nil A) by (symmetry; apply skipn_all2; lia).
  rewrite Nat.sub_diag. cbn [skipn app]. rewrite firstn_app, firstn_all, Nat.sub_diag. cbn [firstn]. apply app_nil_r.
Qed.
Lemma put_put {A} (l : list A) pos x y : (pos + length x <= length l)%nat -> length y = length x -> put (put l pos x) pos y = put l pos y.
Proof.
  intros H E. unfold put at 1. rewrite E. unfold put at 1 2. assert (F : length (firstn pos l) = pos) by (rewrite firstn_length; lia).
  rewrite firstn_app, F, Nat.sub_diag. cbn [firstn]. rewrite app_nil_r, firstn_firstn, Nat.min_id.
  unfold put. do 2 f_equal. rewrite skipn_app, F.
  replace (skipn (pos + length x) (firstn pos l)) with (@nil A) by (symmetry; apply skipn_all2; lia). cbn [app].
  replace (pos + length x - pos)%nat with (length x) by lia.
  rewrite skipn_app, skipn_all, Nat.sub_diag. cbn [skipn app]. rewrite E. reflexivity.
Qed.
Lemma put_firstn {A} (l : list A) pos x n : (pos + length x <= length l)%nat -> (n <= length x)%nat ->
  firstn (pos + n) (put l pos x) = firstn pos l ++ firstn n x.
Proof.
  intros H N0. unfold put. assert (F : length (firstn pos l) = pos) by (rewrite firstn_length; lia).
  rewrite firstn_app, F. replace (pos + n - pos)%nat with n by lia. f_equal.
  - apply firstn_all2. lia.
  - rewrite firstn_app. replace (n - length x)%nat with O by lia. cbn [firstn]. apply app_nil_r.
Qed.

Lemma descramble_length {L} (descr : bool -> L -> L) x y : length (descramble descr x y) = Nat.min (length x) (length y).
Proof. unfold descramble. rewrite map_length, combine_length. reflexivity. Qed.
Lemma combine_firstn' {A B} n (x : list A) (y : list B) : firstn n (combine x y) = combine (firstn n x) (firstn n y).
Proof. revert x y. induction n as [|n IH]; intros [|a x] [|b y]; cbn; try reflexivity. f_equal. apply IH. Qed.
Lemma combine_nil_r {A B} (x : list A) : combine x (@nil B) = [].
Proof. destruct x; reflexivity. Qed.
Lemma combine_skipn' {A B} n (x : list A) (y : list B) : skipn n (combine x y) = combine (skipn n x) (skipn n y).
Proof.
  revert x y. induction n as [|n IH]; intros [|a x] [|b y]; cbn; try reflexivity; try apply IH.
  symmetry. apply combine_nil_r.
Qed.
Lemma descramble_slice {L} (descr : bool -> L -> L) x y a n :
  firstn n (skipn a (descramble descr x y)) = descramble descr (firstn n (skipn a x)) (firstn n (skipn a y)).
Proof. unfold descramble. rewrite skipn_map, firstn_map, combine_skipn', combine_firstn'. reflexivity. Qed.

Section Used.
  Variable qm g C : N.
  Hypothesis Q : 0 < qm. Hypothesis HC : 1 <= C.
  Lemma used_length : length (used qm (qm * g) (N.to_nat C)) = N.to_nat C.
  Proof.
    unfold used. rewrite N2Nat.id. replace (qm * g / qm) with g by (rewrite N.mul_comm, N.div_mul; lia).
    rewrite app_length, !repeat_length. pose proof (N.mod_lt g C ltac:(lia)). lia.
  Qed.
  Lemma used_nth i : (i < N.to_nat C)%nat -> nth i (used qm (qm * g) (N.to_nat C)) 0 =
    if C - g mod C <? N.of_nat i then qm * (g / C) + qm else qm * (g / C).
  Proof.
    intros H. unfold used. rewrite N2Nat.id. replace (qm * g / qm) with g by (rewrite N.mul_comm, N.div_mul; lia).
    pose proof (N.mod_lt g C ltac:(lia)) as M. set (r := g mod C) in *. set (v := g / C) in *. clearbody r v.
    replace (qm * (v + 1)) with (qm * v + qm) by lia.
    destruct (N.ltb_spec (C - r) (N.of_nat i)) as [A|A].
    - rewrite app_nth2; rewrite repeat_length; [|lia]. rewrite (nth_indep _ 0 (qm * v + qm)), nth_repeat by (rewrite repeat_length; lia). reflexivity.
    - rewrite app_nth1 by (rewrite repeat_length; lia). rewrite (nth_indep _ 0 (qm * v)), nth_repeat by (rewrite repeat_length; lia). reflexivity.
  Qed.
End Used.

Section Dec.
  Context {S0 L : Type}.
  Variable comb : S0 -> list L -> N -> N -> S0.
  Variable tdec : S0 -> N -> nat -> list bool.
  Variable crc_cb_ok crc_tb_ok : list bool -> bool.
  Variable descr : bool -> L -> L.
  Hypothesis TL : forall x k i, length (tdec x k i) = N.to_nat k.
  Variables (f : fec_cfg) (s : segm) (g : N) (c : list bool) (llrs d0 : list L) (a0 : list bool) (w0 : list (blk (S := S0))).
  Hypothesis GM : geom f s g.
  Hypothesis HL : length llrs = N.to_nat (f_G f).
  Hypothesis HCs : (N.to_nat (f_G f) <= length c)%nat.
  Hypothesis HO : (N.to_nat (f_G f) <= length d0)%nat.
  Hypothesis HA : (N.to_nat (f_tb f + (if (sg_C s =? 1)%N then 24 else 48)) <= length a0)%nat.
  Hypothesis HW : (N.to_nat (sg_C s) <= length w0)%nat.
  Hypothesis HS : Forall (fun b => 6144 <= N.of_nat (length (b_data b))) w0.

  Notation C := (sg_C s).
  Notation nC := (N.to_nat (sg_C s)).
  Notation SH := (shs f s).
  Notation PL := (payloads (lens_of s)).
  Definition us : list N := used (f_bps f) (f_G f) nC.
  Definition ys : list (list L) := soft_bits descr llrs c SH us.
  Definition rs : list (list bool * blk (S := S0)) := results comb tdec crc_cb_ok crc_tb_ok nC (f_rv f) (lens_of s) w0 ys.
  Definition outs : list (list bool) := map fst rs.

  Lemma us_length : length us = nC.
  Proof. clear - GM. unfold us. rewrite (gm_G _ _ _ GM). pose proof (gm_bps _ _ _ GM). pose proof (C_pos _ _ _ GM). apply used_length; lia. Qed.
  Lemma us_nth i : (i < nC)%nat -> nth i us 0 = if C - g mod C <? N.of_nat i then f_bps f * (g / C) + f_bps f else f_bps f * (g / C).
  Proof. clear - GM. intros I. unfold us. rewrite (gm_G _ _ _ GM). pose proof (gm_bps _ _ _ GM). pose proof (C_pos _ _ _ GM). apply used_nth; lia. Qed.
  Lemma us_le i : (i < nC)%nat -> nth i us 0 <= nth i SH 0.
  Proof.
    clear - GM. intros I. rewrite us_nth, (shs_nth _ _ _ GM) by exact I. set (x := f_bps f * (g / C)). clearbody x. set (r := g mod C). clearbody r.
    destruct (N.ltb_spec (C - r) (N.of_nat i)), (N.ltb_spec (N.of_nat i) (C - r)); lia.
  Qed.
  Lemma range_eq i : (i < nC)%nat -> dec_range f s (N.of_nat i) = (sum (firstn i SH), nth i us 0).
  Proof.
    clear - GM. intros I. pose proof (C_pos _ _ _ GM) as CP. pose proof (gm_bps _ _ _ GM) as BP. pose proof (gm_G _ _ _ GM) as GE.
    pose proof (gm_Gmax _ _ _ GM) as GX. pose proof (gm_g _ _ _ GM) as GG. pose proof (gm_Cg _ _ _ GM) as CG.
    pose proof (N.mod_lt g C ltac:(lia)) as ML.
    pose proof (us_nth i I) as UN. pose proof (us_le i I) as UL. destruct (shs_step _ _ _ GM i I) as (SS & SB).
    assert (ST : sum (firstn i SH) = f_bps f * (g / C) * N.of_nat i + f_bps f * (N.of_nat i - (C - g mod C))).
    { rewrite (shs_def _ _ _ GM). apply (shares_start (f_bps f) g C); lia. }
    unfold dec_range. replace (f_G f / f_bps f) with g by (rewrite GE, N.mul_comm, N.div_mul by lia; reflexivity).
    replace (0 <? C) with true by lia.
    set (r := g mod C) in *. set (lo := f_bps f * (g / C)) in *.
    assert (LO : lo <= nth i us 0) by (rewrite UN; destruct (_ <? _); lia).
    assert (M1 : mul32 (f_bps f) (g / C) = lo). { apply mul32_small. fold lo. lia. }
    rewrite M1. rewrite (sub32_small C r) by lia. clearbody r lo.
    destruct (N.ltb_spec (C - r) (N.of_nat i)) as [A|A].
    - rewrite (add32_small lo) by lia. rewrite (sub32_small (N.of_nat i)) by lia.
      set (a := C - r) in *. set (b := N.of_nat i - a) in *.
      replace (N.of_nat i) with (a + b) in ST by lia. rewrite N.mul_add_distr_l in ST.
      rewrite (mul32_small a) by lia. rewrite mul32_small by lia. rewrite add32_small by lia.
      rewrite UN. f_equal. lia.
    - replace (N.of_nat i - (C - r)) with 0 in ST by lia. rewrite mul32_small by lia. rewrite UN. f_equal. lia.
  Qed.

  Lemma ys_length : length ys = nC.
  Proof. unfold ys, soft_bits. rewrite map_length, combine_length, cut_length, (shs_length _ _ _ GM), us_length. lia. Qed.
  Lemma ys_nth i : (i < nC)%nat -> nth i ys [] =
    descramble descr (firstn (N.to_nat (nth i us 0)) (skipn (N.to_nat (sum (firstn i SH))) llrs))
                     (firstn (N.to_nat (nth i us 0)) (skipn (N.to_nat (sum (firstn i SH))) c)).
  Proof.
    clear - GM. intros I. unfold ys, soft_bits.
    pose proof (map_nth (fun p : list L * N => firstn (N.to_nat (snd p)) (fst p)) (combine (cut SH (descramble descr llrs c)) us) ([], 0) i) as E.
    cbv beta in E. cbn [fst snd] in E. change (firstn (N.to_nat 0) []) with (@nil L) in E. rewrite E.
    pose proof us_length as UL. pose proof (shs_length _ _ _ GM) as SL. rewrite combine_nth by (rewrite cut_length; lia). cbn [fst snd].
    rewrite cut_nth by lia. rewrite firstn_firstn, Nat.min_l by (pose proof (us_le i I); lia). apply descramble_slice.
  Qed.

  Lemma results_nth n rv : forall (ls : list N) (w : list (blk (S := S0))) (y : list (list L)) i dr dk db dy,
    (i < length ls)%nat -> (i < length w)%nat -> (i < length y)%nat ->
    nth i (results comb tdec crc_cb_ok crc_tb_ok n rv ls w y) dr = block_result comb tdec crc_cb_ok crc_tb_ok n rv (nth i ls dk) (nth i w db) (nth i y dy).
  Proof.
    clear. induction ls as [|k ls IH]; intros [|b w] [|v y] i dr dk db dy H1 H2 H3; cbn in H1, H2, H3; try lia.
    destruct i as [|i]; cbn [results nth]; [reflexivity|]. apply IH; lia.
  Qed.
  Lemma results_length n rv (ls : list N) (w : list (blk (S := S0))) (y : list (list L)) :
    length (results comb tdec crc_cb_ok crc_tb_ok n rv ls w y) = Nat.min (length ls) (Nat.min (length w) (length y)).
  Proof. clear. revert w y. induction ls as [|k ls IH]; intros [|b w] [|v y]; cbn; try lia. rewrite IH. lia. Qed.
  Lemma rs_length : length rs = nC.
  Proof. unfold rs. rewrite results_length, ys_length, (lens_length _ _ _ GM). lia. Qed.
  Lemma rs_nth i dr db : (i < nC)%nat ->
    nth i rs dr = block_result comb tdec crc_cb_ok crc_tb_ok nC (f_rv f) (cb_len s (N.of_nat i)) (nth i w0 db) (nth i ys []).
  Proof.
    intros I. unfold rs. rewrite (results_nth _ _ _ _ _ _ dr 0 db []); [|rewrite (lens_length _ _ _ GM); lia|lia|rewrite ys_length; lia].
    rewrite (lens_nth _ _ _ GM) by exact I. reflexivity.
  Qed.

  (** a block whose data is decoded *)
  Lemma first_good_length ok x k is : length (fst (first_good ok (tdec x k) is)) = N.to_nat k.
  Proof. clear - TL. induction is as [|i is IH]; cbn [first_good]; [apply TL|]. destruct (ok _); [apply TL|exact IH]. Qed.
  Lemma iterate_run x k pos a : (pos + N.to_nat k <= length a)%nat -> (C = 1 -> k = f_tb f + 24) ->
    iterate tdec crc_cb_ok crc_tb_ok max_iters 0 s x k pos a =
    let r := first_good (if (nC =? 1)%nat then crc_tb_ok else crc_cb_ok) (tdec x k) (seq 2 9) in Ok (put a pos (fst r), snd r).
  Proof.
    intros LA K1. pose proof (C_pos _ _ _ GM) as CP. pose proof (gm_tb _ _ _ GM) as TB. pose proof (gm_tbs _ _ _ GM) as TS.
    clear - LA K1 CP TB TS TL.
    set (ok := if (nC =? 1)%nat then crc_tb_ok else crc_cb_ok).
    assert (STEP : forall a, (pos + N.to_nat k <= length a)%nat -> forall i, blit a pos (tdec x k i) = Ok (put a pos (tdec x k i)) /\
      (if 1 <? C then do y <- slice (put a pos (tdec x k i)) pos (N.to_nat k) ; Ok (crc_cb_ok y)
       else do y <- slice (put a pos (tdec x k i)) pos (N.to_nat (add32 (sg_tbs s) 24)) ; Ok (crc_tb_ok y)) = Ok (ok (tdec x k i))).
    { intros b LB i. pose proof (TL x k i) as T. split; [apply blit_eq; lia|].
      assert (SE : forall m, m = k -> slice (put b pos (tdec x k i)) pos (N.to_nat m) = Ok (tdec x k i)).
      { intros m ->. rewrite slice_ok by (right; rewrite put_length; lia). f_equal. rewrite <- T. apply put_slice. lia. }
      subst ok. destruct (N.ltb_spec 1 C) as [A|A].
      - rewrite SE by reflexivity. replace (nC =? 1)%nat with false by lia. reflexivity.
      - rewrite SE; [replace (nC =? 1)%nat with true by lia; reflexivity|]. rewrite TS, add32_small by lia. symmetry. apply K1. lia. }
    assert (RUN : forall n i, (n + i = 10)%nat -> (1 <= i)%nat ->
      iterate tdec crc_cb_ok crc_tb_ok n i s x k pos (put a pos (tdec x k i)) =
      let r := first_good ok (tdec x k) (seq (S i) n) in Ok (put a pos (fst r), snd r)).
    { induction n as [|n IH]; intros i E I.
      - cbn [iterate seq first_good fst snd]. replace i with 10%nat by lia. reflexivity.
      - cbn [iterate seq first_good]. destruct (STEP (put a pos (tdec x k i)) ltac:(rewrite put_length; rewrite ?TL; lia) (S i)) as (E1 & E2).
        rewrite E1. cbn [bind]. rewrite E2. cbn [bind]. rewrite put_put by (rewrite ?TL; lia).
        replace (min_iters <=? S i)%nat with true by (unfold min_iters; lia). rewrite andb_true_r.
        destruct (ok (tdec x k (S i))); [reflexivity|]. apply IH; lia. }
    unfold max_iters. cbn [iterate]. destruct (STEP a LA 1%nat) as (E1 & E2). rewrite E1. cbn [bind]. rewrite E2. cbn [bind].
    change (min_iters <=? 1)%nat with false. rewrite andb_false_r. apply (RUN 9%nat 1%nat); lia.
  Qed.

  (** [p] soft bits have arrived, [k] blocks are decoded *)
  Definition Di (k p : nat) (st : dec (S := S0) (L := L)) : Prop :=
    d_cb st = N.of_nat k /\ d_wp st = sum (firstn k PL) /\
    length (d_bits st) = length d0 /\
    (forall i d, (N.to_nat (sum (firstn k SH)) <= i < p)%nat -> nth i (d_bits st) d = nth i llrs d) /\
    length (d_a st) = length a0 /\
    firstn (N.to_nat (d_wp st)) (d_a st) = concat (firstn k outs) /\
    length (d_soft st) = length w0 /\
    firstn k (d_soft st) = map snd (firstn k rs) /\ skipn k (d_soft st) = skipn k w0.

  Lemma out_length i dr : (i < nC)%nat -> length (fst (nth i rs dr)) = N.to_nat (pl s (N.of_nat i)).
  Proof.
    intros I. destruct w0 as [|b0 w1] eqn:EW; [cbn in HW; lia|]. rewrite <- EW in *. rewrite (rs_nth i dr b0 I). unfold block_result.
    pose proof (pl_bounds _ _ _ GM (N.of_nat i) ltac:(lia)) as (P1 & _ & P3 & _). fold (pl s (N.of_nat i)).
    assert (HB : 6144 <= N.of_nat (length (b_data (nth i w0 b0)))).
    { rewrite Forall_forall in HS. apply HS. apply nth_In. lia. }
    destruct (b_ok (nth i w0 b0)); cbn [fst].
    - rewrite firstn_length. lia.
    - rewrite firstn_length, first_good_length. lia.
  Qed.

  Lemma dec_step k p st : (k < nC)%nat -> (p <= length llrs)%nat -> Di k p st ->
    (N.to_nat (sum (firstn k SH) + nth k us 0%N) <= p)%nat ->
    exists st', dec_block comb tdec crc_cb_ok crc_tb_ok descr f s c st = Ok st' /\ Di (S k) p st'.
  Proof.
    intros I LP (I1 & I2 & I3 & I4 & I5 & I6 & I7 & I8 & I9) FIT.
    pose proof (range_eq k I) as RE. pose proof (us_le k I) as UL. destruct (shs_step _ _ _ GM k I) as (SS & SB).
    pose proof (pls_step _ _ _ GM k I) as PS. pose proof (pls_bound _ _ _ GM (S k) ltac:(lia)) as PB. pose proof (pls_mod _ _ _ GM k ltac:(lia)) as PM.
    unfold lens in PS, PB, PM.
    pose proof (pl_bounds _ _ _ GM (N.of_nat k) ltac:(lia)) as (PL1 & PL2 & PL3 & PL4).
    pose proof (gm_tb _ _ _ GM) as TB. pose proof (gm_g _ _ _ GM) as GG. pose proof (gm_Cg _ _ _ GM) as CG.
    unfold dec_block. rewrite I1, RE, (pl_rlen _ _ _ GM) by lia.
    set (a := sum (firstn k SH)) in *. set (n := nth k us 0) in *.
    rewrite slice_ok by lia. cbn [bind]. rewrite slice_ok by lia. cbn [bind].
    assert (XE : firstn (N.to_nat n) (skipn (N.to_nat a) (d_bits st)) = firstn (N.to_nat n) (skipn (N.to_nat a) llrs)).
    { apply eq_nth; [rewrite !firstn_length, !skipn_length; lia|]. intros i d LI. rewrite firstn_length, skipn_length in LI.
      rewrite !nth_firstn', !nth_skipn' by lia. apply I4. lia. }
    rewrite XE. pose proof (ys_nth k I) as YE. fold a n in YE. rewrite <- YE.
    assert (YL : length (nth k ys []) = N.to_nat n).
    { rewrite YE, descramble_length, !firstn_length, !skipn_length. lia. }
    destruct (blit_ok (d_bits st) (N.to_nat a) (nth k ys [])) as (bits & B1 & B2 & B3); [rewrite YL; lia|].
    rewrite B1. cbn [bind]. rewrite Nat2N.id.
    destruct (nth_error (d_soft st) k) as [b|] eqn:BE; [|apply nth_error_None in BE; lia].
    unfold rd. rewrite BE. cbn [bind].
    assert (BW : nth k w0 b = b).
    { rewrite <- (Nat.add_0_r k), <- nth_skipn', <- I9, nth_skipn', Nat.add_0_r. apply nth_error_nth. exact BE. }
    pose proof (rs_nth k ([], b) b I) as RK. rewrite BW in RK. unfold block_result in RK. fold (pl s (N.of_nat k)) in RK.
    assert (DB : 6144 <= N.of_nat (length (b_data b))).
    { rewrite Forall_forall in HS. apply HS. rewrite <- BW. apply nth_In. lia. }
    assert (POS : (8 * N.to_nat (d_wp st / 8))%nat = N.to_nat (d_wp st)) by (rewrite I2; clear - PM; lia).
    rewrite POS.
    set (o := nth k rs ([], b)) in *.
    assert (STEP : exists x, (N.to_nat (d_wp st) + length x <= length (d_a st))%nat /\ (N.to_nat (pl s (N.of_nat k)) <= length x)%nat /\
        firstn (N.to_nat (pl s (N.of_nat k))) x = fst o /\
        (if negb (b_ok b)
         then do r <- iterate tdec crc_cb_ok crc_tb_ok max_iters 0 s (comb (b_soft b) (nth k ys []) (f_rv f) (cb_len s (N.of_nat k))) (cb_len s (N.of_nat k)) (N.to_nat (d_wp st)) (d_a st) ;
              Ok (fst r, mkBlk (comb (b_soft b) (nth k ys []) (f_rv f) (cb_len s (N.of_nat k))) (snd r) (b_data b))
         else do v <- slice (b_data b) 0 (8 * N.to_nat (pl s (N.of_nat k) / 8)) ; do a1 <- blit (d_a st) (N.to_nat (d_wp st)) v ; Ok (a1, b))
        = Ok (put (d_a st) (N.to_nat (d_wp st)) x, snd o)).
    { assert (ROOM : (N.to_nat (d_wp st) + N.to_nat (cb_len s (N.of_nat k)) <= length (d_a st))%nat).
      { rewrite I2, I5. clear - PS PB PL4 HA. destruct (C =? 1); lia. }
      destruct (b_ok b) eqn:OK; cbn [negb].
      - exists (firstn (N.to_nat (pl s (N.of_nat k))) (b_data b)).
        assert (FL : length (firstn (N.to_nat (pl s (N.of_nat k))) (b_data b)) = N.to_nat (pl s (N.of_nat k))) by (rewrite firstn_length; lia).
        rewrite FL. split; [lia|]. split; [lia|]. rewrite RK. cbn [fst snd]. split; [rewrite firstn_firstn, Nat.min_id; reflexivity|].
        replace (8 * N.to_nat (pl s (N.of_nat k) / 8))%nat with (N.to_nat (pl s (N.of_nat k))) by (clear - PL2; lia).
        rewrite slice_ok by lia. cbn [bind skipn]. rewrite blit_eq by lia. reflexivity.
      - set (x := comb (b_soft b) (nth k ys []) (f_rv f) (cb_len s (N.of_nat k))) in *.
        exists (fst (first_good (if (nC =? 1)%nat then crc_tb_ok else crc_cb_ok) (tdec x (cb_len s (N.of_nat k))) (seq 2 9))).
        rewrite first_good_length. split; [exact ROOM|]. split; [lia|]. rewrite RK. cbn [fst snd]. split; [reflexivity|].
        rewrite iterate_run.
        + reflexivity.
        + exact ROOM.
        + intros C1. clear - GM C1 I. pose proof (pls_all _ _ _ GM) as PA. replace nC with 1%nat in PA by lia.
          pose proof (pls_step _ _ _ GM 0 ltac:(lia)) as P0. rewrite PA in P0. cbn [firstn sum fold_right] in P0.
          replace k with O by lia. unfold pl, payload in P0. replace (nC =? 1)%nat with true in P0 by lia. lia. }
    destruct STEP as (x & X1 & X2 & X3 & ->). cbn [bind].
    eexists. split; [reflexivity|]. unfold Di. cbn [d_cb d_wp d_bits d_a d_soft].
    split. { rewrite add32_small by (clear - I CG GG; lia). clear; lia. }
    assert (WP : add32 (d_wp st) (pl s (N.of_nat k)) = sum (firstn (S k) PL)).
    { rewrite PS, <- I2. apply add32_small. rewrite I2, <- PS. clear - PB TB. lia. }
    rewrite WP. split; [reflexivity|]. split; [congruence|].
    split. { intros i d LI. rewrite B3, YL. replace ((N.to_nat a <=? i)%nat && (i <? N.to_nat a + N.to_nat n)%nat) with false by (clear - LI SS UL; lia).
      apply I4. clear - LI SS. lia. }
    split. { rewrite put_length; assumption. }
    split.
    { rewrite PS, <- I2, N2Nat.inj_add, put_firstn by assumption. rewrite I6, X3.
      rewrite (firstn_S outs k []) by (unfold outs; rewrite map_length, rs_length; exact I).
      rewrite concat_app. cbn [concat]. rewrite app_nil_r. f_equal.
      unfold outs. subst o. rewrite (nth_indep (map fst rs) [] (fst (@nil bool, b))) by (rewrite map_length, rs_length; exact I).
      rewrite map_nth. reflexivity. }
    rewrite upd_length. split; [exact I7|]. split.
    - rewrite firstn_upd by lia. rewrite (firstn_S rs k ([], b)) by (rewrite rs_length; exact I). rewrite map_app, I8. reflexivity.
    - rewrite skipn_upd. pose proof (f_equal (skipn 1) I9) as J. rewrite !skipn_skipn' in J. replace (k + 1)%nat with (S k) in J by lia. exact J.
  Qed.

  (** all blocks that are complete are decoded *)
  Definition stuck (k p : nat) : Prop := (k < nC)%nat -> (p < N.to_nat (sum (firstn k SH) + nth k us 0%N))%nat.
  Lemma loop_dec p fuel : (p <= length llrs)%nat -> forall k st, Di k p st -> (k <= nC)%nat -> (nC - k < fuel)%nat ->
    exists k' st', dec_loop comb tdec crc_cb_ok crc_tb_ok descr fuel f s c (N.of_nat p) st = Ok st' /\ Di k' p st' /\ (k <= k' <= nC)%nat /\ stuck k' p.
  Proof.
    intros LP. induction fuel as [|fuel IH]; intros k st I LK F; [lia|]. cbn [dec_loop]. pose proof I as (I1 & _). rewrite I1.
    destruct (N.ltb_spec (N.of_nat k) C) as [A|A].
    - rewrite (range_eq k) by lia. destruct (shs_step _ _ _ GM k ltac:(lia)) as (SS & SB). pose proof (us_le k ltac:(lia)) as UL.
      pose proof (gm_Gmax _ _ _ GM). rewrite add32_small by lia.
      destruct (N.ltb_spec (N.of_nat p) (sum (firstn k SH) + nth k us 0)) as [B|B].
      + exists k, st. split; [reflexivity|]. split; [exact I|]. split; [lia|]. intros _. lia.
      + destruct (dec_step k p st ltac:(lia) LP I ltac:(lia)) as (st1 & E1 & D1). rewrite E1. cbn [bind].
        destruct (IH (S k) st1 D1 ltac:(lia) ltac:(lia)) as (k' & st' & E' & D' & L' & S').
        exists k', st'. split; [exact E'|]. split; [exact D'|]. split; [lia|exact S'].
    - exists k, st. split; [reflexivity|]. split; [exact I|]. split; [lia|]. intros X. lia.
  Qed.
End Dec.
