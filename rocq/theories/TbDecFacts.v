(** The verdict on a transport block and a whole reception. *)
From Verif Require Import Base PacketSizes PacketSizesSpec PacketSizesFacts TbCodec TbCodecSpec TbEncFacts TbGeomFacts TbEncRun TbDecRun.
Open Scope N_scope.

Lemma map_fst_combine {A B} (x : list A) (y : list B) : length x = length y -> map fst (combine x y) = x.
Proof. revert y. induction x as [|a x IH]; intros [|b y] H; cbn in H; try discriminate; [reflexivity|]. cbn. f_equal. apply IH. lia. Qed.
Lemma map_snd_combine {A B} (x : list A) (y : list B) : length x = length y -> map snd (combine x y) = y.
Proof. revert y. induction x as [|a x IH]; intros [|b y] H; cbn in H; try discriminate; [reflexivity|]. cbn. f_equal. apply IH. lia. Qed.
Lemma combine_fst_snd {A B} (l : list (A * B)) : combine (map fst l) (map snd l) = l.
Proof. induction l as [|[a b] l IH]; cbn; [reflexivity|]. f_equal. exact IH. Qed.
Lemma forallb_map {A B} (h : A -> B) p l : forallb p (map h l) = forallb (fun x => p (h x)) l.
Proof. induction l as [|a l IH]; cbn; [reflexivity|]. rewrite IH. reflexivity. Qed.
Lemma concat_piece {A} (ls : list (list A)) ns rest k : Forall2 (fun l n => length l = N.to_nat n) ls ns -> (k < length ls)%nat ->
  firstn (N.to_nat (nth k ns 0)) (skipn (N.to_nat (sum (firstn k ns))) (concat ls ++ rest)) = nth k ls [].
Proof.
  intros F. revert k. induction F as [|l n ls ns L F IH]; intros k H; cbn in H; [lia|].
  destruct k as [|k]; cbn [nth firstn concat].
  - cbn [sum fold_right]. cbn [skipn N.to_nat]. rewrite <- app_assoc, firstn_app, <- L, firstn_all, Nat.sub_diag. cbn [firstn]. apply app_nil_r.
  - unfold sum. cbn [fold_right]. fold (sum (firstn k ns)). rewrite N2Nat.inj_add, <- L, <- app_assoc, skipn_app.
    rewrite skipn_all2 by lia. cbn [app]. rewrite Nat.add_comm, Nat.add_sub. apply IH. lia.
Qed.

Section Fin.
  Context {S0 L : Type}.
  Variable comb : S0 -> list L -> N -> N -> S0.
  Variable tdec : S0 -> N -> nat -> list bool.
  Variable crc_cb_ok crc_tb_ok : list bool -> bool.
  Variable descr : bool -> L -> L.
  Hypothesis TL : forall x k i, length (tdec x k i) = N.to_nat k.
  Variables (f : fec_cfg) (s : segm) (g : N) (c : list bool) (llrs d0 : list L) (a0 : list bool) (w0 : list (blk (S := S0))).
  Hypothesis GM : geom f s g.
  Hypothesis HL : length llrs = N.to_nat (f_G f).
  Hypothesis HCs : (N.to_nat (f_G f) <= length c)%nat.
  Hypothesis HO : (N.to_nat (f_G f) <= length d0)%nat.
  Hypothesis HA : (N.to_nat (f_tb f + (if (sg_C s =? 1)%N then 24 else 48)) <= length a0)%nat.
  Hypothesis HW : (N.to_nat (sg_C s) <= length w0)%nat.
  Hypothesis HS : Forall (fun b => 6144 <= N.of_nat (length (b_data b))) w0.
  Notation C := (sg_C s).
  Notation nC := (N.to_nat (sg_C s)).
  Notation SH := (shs f s).
  Notation PL := (payloads (lens_of s)).
  Notation US := (us f s).
  Notation RS := (rs comb tdec crc_cb_ok crc_tb_ok descr f s c llrs w0).
  Notation OUTS := (outs comb tdec crc_cb_ok crc_tb_ok descr f s c llrs w0).
  Notation DI := (Di comb tdec crc_cb_ok crc_tb_ok descr f s c llrs d0 a0 w0).
  Notation acc := (accepted crc_tb_ok nC).
  Notation keep := (kept crc_tb_ok nC).
  Notation blk := (TbCodec.blk (S := S0)).
  Notation dec := (TbCodec.dec (S := S0) (L := L)).

  Definition keep1 (p : list bool * blk) : blk :=
    if b_ok (snd p) then mkBlk (b_soft (snd p)) true (fst p ++ skipn (length (fst p)) (b_data (snd p))) else snd p.

  Lemma RS_length : length RS = nC. Proof. eapply rs_length; eassumption. Qed.
  Lemma outs_length : length OUTS = nC. Proof. unfold outs. rewrite map_length. apply RS_length. Qed.
  Lemma outs_F : Forall2 (fun l n => length l = N.to_nat n) OUTS PL.
  Proof.
    assert (H : forall (l : list (list bool)) (m : list N), length l = length m -> (forall i, (i < length l)%nat -> length (nth i l []) = N.to_nat (nth i m 0)) ->
      Forall2 (fun l n => length l = N.to_nat n) l m).
    { clear. induction l as [|x l IH]; intros [|y m] E H; cbn in E; try discriminate; constructor.
      - apply (H 0%nat). cbn. lia.
      - apply IH; [lia|]. intros i I. apply (H (S i)). cbn. lia. }
    apply H; [rewrite outs_length, (payloads_length _ _ _ GM); reflexivity|]. rewrite outs_length. intros i I.
    rewrite (payloads_nth _ _ _ GM) by exact I. unfold outs.
    destruct w0 as [|b w1] eqn:EW; [cbn in HW; lia|]. rewrite <- EW in *.
    rewrite (nth_indep _ [] (fst (@nil bool, b))) by (rewrite map_length, RS_length; exact I). rewrite map_nth.
    eapply out_length; eassumption.
  Qed.
  Lemma outs_total : length (concat OUTS) = N.to_nat (f_tb f + 24).
  Proof. rewrite (concat_length_sum _ _ outs_F), (payloads_sum _ _ _ GM). reflexivity. Qed.

  Lemma save_run a : (N.to_nat (f_tb f + 24) <= length a)%nat -> firstn (N.to_nat (f_tb f + 24)) a = concat OUTS ->
    forall n j (dn bs tl : list blk), (n + j = nC)%nat -> length dn = j -> length bs = n -> Forall (fun b => 6144 <= N.of_nat (length (b_data b))) bs ->
    save s a n (N.of_nat j) (sum (firstn j PL)) (dn ++ bs ++ tl) = Ok (dn ++ map keep1 (combine (skipn j OUTS) bs) ++ tl).
  Proof.
    intros LA AE. induction n as [|n IH]; intros j dn bs tl E LD LB FB; destruct bs as [|b bs]; cbn [length] in LB; try discriminate.
    - cbn [save]. rewrite combine_nil_r. reflexivity.
    - cbn [save]. rewrite Nat2N.id. unfold rd. rewrite nth_error_app2 by lia. rewrite LD, Nat.sub_diag. cbn [app nth_error bind].
      assert (I : (j < nC)%nat) by lia. rewrite (skipn_S OUTS j []) by (rewrite outs_length; exact I). cbn [combine map].
      pose proof (pls_step _ _ _ GM j I) as PS. pose proof (pls_bound _ _ _ GM (S j) ltac:(lia)) as PB. pose proof (pls_mod _ _ _ GM j ltac:(lia)) as PM.
      unfold lens in PS, PB, PM.
      pose proof (pl_bounds _ _ _ GM (N.of_nat j) ltac:(lia)) as (PL1 & PL2 & PL3 & PL4).
      pose proof (gm_tb _ _ _ GM) as TB.
      rewrite (pl_rlen _ _ _ GM) by lia.
      rewrite (add32_small (sum (firstn j PL))) by (rewrite <- PS; clear - PB TB; lia). rewrite <- PS.
      assert (PJ : nth j PL 0 = pl s (N.of_nat j)) by (apply (payloads_nth _ _ _ GM); exact I).
      inversion FB as [|? ? FB1 FB2]; subst.
      assert (STEP : (if b_ok b
         then do v <- slice a (8 * N.to_nat (sum (firstn (length dn) PL) / 8)) (8 * N.to_nat (pl s (N.of_nat (length dn)) / 8)) ;
              do dd <- blit (b_data b) 0 v ; Ok (upd (dn ++ b :: bs ++ tl) (length dn) (mkBlk (b_soft b) (b_ok b) dd))
         else Ok (dn ++ b :: bs ++ tl)) = Ok (dn ++ keep1 (nth (length dn) OUTS [], b) :: bs ++ tl)).
      { unfold keep1. cbn [fst snd]. destruct (b_ok b) eqn:OK; [|reflexivity].
        replace (8 * N.to_nat (sum (firstn (length dn) PL) / 8))%nat with (N.to_nat (sum (firstn (length dn) PL))) by (clear - PM; lia).
        replace (8 * N.to_nat (pl s (N.of_nat (length dn)) / 8))%nat with (N.to_nat (pl s (N.of_nat (length dn)))) by (clear - PL2; lia).
        rewrite slice_ok by (clear - PS PB LA; lia). cbn [bind].
        rewrite <- PJ. rewrite <- (firstn_skipn (N.to_nat (f_tb f + 24)) a), AE.
        rewrite (concat_piece _ _ _ _ outs_F) by (rewrite outs_length; exact I).
        assert (OL : length (nth (length dn) OUTS []) = N.to_nat (pl s (N.of_nat (length dn)))).
        { rewrite <- PJ. pose proof outs_F as F. clear - F I GM. pose proof (payloads_length _ _ _ GM) as X. rewrite <- X in I.
          revert I. generalize (length dn). clear X. induction F as [|x y l m R F IH]; intros i I; cbn in I; [lia|]. destruct i; cbn [nth]; [exact R|]. apply IH. lia. }
        rewrite blit_eq by (rewrite OL; clear - FB1 PL3; lia). cbn [bind firstn app Nat.add]. f_equal.
        clear. generalize (mkBlk (b_soft b) true (nth (length dn) OUTS [] ++ skipn (length (nth (length dn) OUTS [])) (b_data b))). intros v.
        induction dn as [|x dn IH]; [reflexivity|]. cbn. f_equal. exact IH. }
      rewrite STEP. cbn [bind]. replace (N.of_nat (length dn) + 1) with (N.of_nat (S (length dn))) by lia.
      specialize (IH (S (length dn)) (dn ++ [keep1 (nth (length dn) OUTS [], b)]) bs tl ltac:(lia) ltac:(rewrite app_length; cbn; lia) ltac:(lia) FB2).
      rewrite <- !app_assoc in IH. cbn [app] in IH. exact IH.
  Qed.

  Lemma kept_third (rs0 : list (list bool * blk)) : forallb (fun r => b_ok (snd r)) rs0 = false -> keep rs0 = map keep1 rs0.
  Proof. intros H. unfold kept, accepted. rewrite H. reflexivity. Qed.

  Lemma verdict_run (st : dec) (bs tl : list blk) : d_cb st = C -> (N.to_nat (f_tb f + 24) <= length (d_a st))%nat ->
    firstn (N.to_nat (f_tb f + 24)) (d_a st) = concat OUTS -> d_soft st = bs ++ tl -> length bs = nC ->
    Forall (fun b => 6144 <= N.of_nat (length (b_data b))) bs ->
    verdict crc_tb_ok s st = Ok (mkDec (d_cb st) (d_wp st) (d_bits st) (d_a st) (keep (combine OUTS bs) ++ tl), acc (combine OUTS bs)).
  Proof.
    intros E LA AE SE LB FB. unfold verdict. rewrite E, N.eqb_refl, SE.
    rewrite firstn_app, LB, Nat.sub_diag, <- LB, firstn_all. cbn [firstn]. rewrite app_nil_r.
    pose proof outs_length as OL.
    assert (MF : map fst (combine OUTS bs) = OUTS) by (apply map_fst_combine; lia).
    assert (MS : map snd (combine OUTS bs) = bs) by (apply map_snd_combine; lia).
    assert (FE : forallb (fun r : list bool * blk => b_ok (snd r)) (combine OUTS bs) = forallb b_ok bs) by (rewrite <- forallb_map, MS; reflexivity).
    destruct (forallb b_ok bs) eqn:AL.
    - unfold kept, accepted. rewrite FE, MF, MS, LB. cbn [andb].
      replace (nC =? 1)%nat with (C =? 1) by (destruct (N.eqb_spec C 1), (Nat.eqb_spec nC 1); lia).
      destruct (C =? 1); cbn [orb].
      + rewrite <- SE. destruct st; cbn in *. subst. reflexivity.
      + rewrite (gm_tbs _ _ _ GM). rewrite slice_ok by lia. cbn [skipn bind]. rewrite AE.
        destruct (crc_tb_ok (concat OUTS)) eqn:K.
        * rewrite <- SE. destruct st; cbn in *. subst. reflexivity.
        * unfold reset_ok. rewrite <- LB, firstn_app, Nat.sub_diag, firstn_all. cbn [firstn]. rewrite app_nil_r.
          rewrite skipn_app, skipn_all, Nat.sub_diag. cbn [skipn app].
          do 4 f_equal. rewrite <- MS at 1. rewrite map_map. reflexivity.
    - pose proof (save_run (d_a st) LA AE (length bs) 0 [] bs tl ltac:(lia) eq_refl eq_refl FB) as SV.
      cbn [firstn skipn app] in SV. change (sum []) with 0 in SV. change (N.of_nat 0) with 0 in SV. rewrite SV. cbn [bind].
      rewrite LB, kept_third by exact FE. unfold accepted. rewrite FE. reflexivity.
  Qed.

  Lemma verdict_again (rs0 : list (list bool * blk)) : length rs0 = nC ->
    keep (combine (map fst rs0) (keep rs0)) = keep rs0 /\ acc (combine (map fst rs0) (keep rs0)) = acc rs0.
  Proof.
    intros LR. pose proof (C_pos _ _ _ GM) as CP. destruct (acc rs0) eqn:A.
    - assert (K : keep rs0 = map snd rs0) by (unfold kept; rewrite A; reflexivity). rewrite K, combine_fst_snd. auto.
    - destruct (forallb (fun r => b_ok (snd r)) rs0) eqn:F.
      + assert (K : keep rs0 = map (fun r => mkBlk (b_soft (snd r)) false (b_data (snd r))) rs0) by (unfold kept; rewrite A, F; reflexivity).
        rewrite K.
        assert (F2 : forallb (fun r : list bool * blk => b_ok (snd r)) (combine (map fst rs0) (map (fun r => mkBlk (b_soft (snd r)) false (b_data (snd r))) rs0)) = false).
        { rewrite <- forallb_map, map_snd_combine by (rewrite !map_length; reflexivity). destruct rs0; [cbn in LR; lia|]. reflexivity. }
        split; [|unfold accepted; rewrite F2; reflexivity]. rewrite kept_third by exact F2.
        clear. induction rs0 as [|r rs0 IH]; [reflexivity|]. cbn [map combine]. f_equal. exact IH.
      + assert (K : keep rs0 = map keep1 rs0) by (apply kept_third; exact F). rewrite K.
        assert (F2 : forallb (fun r : list bool * blk => b_ok (snd r)) (combine (map fst rs0) (map keep1 rs0)) = false).
        { rewrite <- forallb_map, map_snd_combine by (rewrite !map_length; reflexivity). rewrite forallb_map, <- F. clear.
          induction rs0 as [|[o b] rs0 IH]; [reflexivity|]. cbn [forallb]. rewrite IH. unfold keep1. cbn [fst snd]. destruct (b_ok b) eqn:E; cbn [snd b_ok]; rewrite ?E; reflexivity. }
        split; [|unfold accepted; rewrite F2; reflexivity]. rewrite kept_third by exact F2.
        clear. induction rs0 as [|[o b] rs0 IH]; [reflexivity|]. cbn [map combine]. f_equal; [|exact IH].
        unfold keep1. cbn [fst snd]. destruct (b_ok b) eqn:E; cbn [b_ok b_soft b_data]; [|rewrite E; reflexivity].
        f_equal. f_equal. rewrite skipn_app, skipn_all, Nat.sub_diag. reflexivity.
  Qed.

  Lemma rs_data : Forall (fun r => 6144 <= N.of_nat (length (b_data (snd r)))) RS.
  Proof.
    unfold rs. clear - HS. generalize (ys descr f s c llrs) (lens_of s) nC. intros y ls n. revert HS y ls.
    induction w0 as [|b w IH]; intros F [|v y] [|k ls]; cbn [results]; try constructor.
    - inversion F as [|? ? F1 F2]; subst. unfold block_result. destruct (b_ok b); exact F1.
    - apply IH. inversion F; assumption.
  Qed.
  Lemma keep_data : Forall (fun b => 6144 <= N.of_nat (length (b_data b))) (keep RS).
  Proof.
    pose proof rs_data as D. unfold kept. destruct (acc RS); [|destruct (forallb _ RS)]; rewrite Forall_map; eapply Forall_impl; try exact D; cbv beta; intros r H.
    - exact H.
    - exact H.
    - destruct (b_ok (snd r)); [|exact H]. cbn [b_data]. rewrite app_length, skipn_length. lia.
  Qed.
  Lemma keep_length : length (keep RS) = nC.
  Proof. unfold kept. destruct (acc RS); [|destruct (forallb _ RS)]; rewrite map_length; apply RS_length. Qed.

  Definition Post (st : dec) : Prop :=
    d_cb st = C /\ d_wp st = f_tb f + 24 /\ length (d_bits st) = length d0 /\ length (d_a st) = length a0 /\
    firstn (N.to_nat (f_tb f + 24)) (d_a st) = concat OUTS /\ d_soft st = keep RS ++ skipn nC w0.
  Definition Run (p : nat) (st : dec) (v : bool) : Prop :=
    (exists k, (k < nC)%nat /\ DI k p st /\ stuck f s k p /\ v = false) \/ (Post st /\ v = acc RS).

  Lemma decode_step p st : (p <= length llrs)%nat -> (exists k, (k < nC)%nat /\ DI k p st) \/ Post st ->
    exists st' v, decode_codeblocks comb tdec crc_cb_ok crc_tb_ok descr f s c (N.of_nat p) st = Ok (st', v) /\ Run p st' v.
  Proof.
    intros LP H. unfold decode_codeblocks. rewrite (gm_F _ _ _ GM). cbn [N.eqb guard].
    pose proof (gm_bps _ _ _ GM) as BP. pose proof (gm_tb _ _ _ GM) as TB.
    replace (negb (f_bps f =? 0)) with true by lia. cbn [guard].
    assert (LA : forall n, n = length a0 -> (N.to_nat (f_tb f + 24) <= n)%nat) by (intros n ->; clear - HA; destruct (C =? 1); lia).
    destruct H as [(k & LK & D)|P].
    - pose proof D as (_ & _ & _ & _ & _ & _ & SL & _). replace (C <=? N.of_nat (length (d_soft st))) with true by lia. cbn [guard].
      destruct (loop_dec comb tdec crc_cb_ok crc_tb_ok descr TL f s g c llrs d0 a0 w0 GM HL HCs HO HA HW HS p (S nC) LP k st D ltac:(lia) ltac:(lia))
        as (k' & st' & E & D' & L' & S'). rewrite E. cbn [bind].
      pose proof D' as (I1 & I2 & I3 & I4 & I5 & I6 & I7 & I8 & I9).
      destruct (Nat.eq_dec k' nC) as [->|NE].
      + assert (W : d_wp st' = f_tb f + 24) by (rewrite I2; apply (pls_all _ _ _ GM)).
        assert (AE : firstn (N.to_nat (f_tb f + 24)) (d_a st') = concat OUTS).
        { rewrite <- W, I6. f_equal. apply firstn_all2. rewrite outs_length. lia. }
        assert (B8 : firstn nC (d_soft st') = map snd RS) by (rewrite I8; f_equal; apply firstn_all2; rewrite RS_length; lia).
        assert (SE : d_soft st' = map snd RS ++ skipn nC w0) by (rewrite <- B8, <- I9; symmetry; apply firstn_skipn).
        rewrite (verdict_run st' (map snd RS) (skipn nC w0)).
        * assert (CE : combine OUTS (map snd RS) = RS) by apply combine_fst_snd. rewrite CE.
          eexists _, _. split; [reflexivity|]. right. split; [|reflexivity].
          unfold Post. cbn [d_cb d_wp d_bits d_a d_soft]. split; [rewrite I1; lia|]. auto 8.
        * rewrite I1. lia.
        * apply LA. exact I5.
        * exact AE.
        * exact SE.
        * rewrite map_length. apply RS_length.
        * rewrite Forall_map. exact rs_data.
      + unfold verdict. replace (d_cb st' =? C) with false by (rewrite I1; lia).
        exists st', false. split; [reflexivity|]. left. exists k'. split; [lia|]. auto.
    - pose proof P as (P1 & P2 & P3 & P4 & P5 & P6).
      replace (C <=? N.of_nat (length (d_soft st))) with true by (rewrite P6, app_length, keep_length; lia). cbn [guard].
      cbn [dec_loop]. rewrite P1, N.ltb_irrefl. cbn [bind].
      rewrite (verdict_run st (keep RS) (skipn nC w0) P1 (LA _ P4) P5 P6 keep_length keep_data).
      destruct (verdict_again RS RS_length) as (V1 & V2). fold OUTS in V1, V2. rewrite V1, V2.
      eexists _, _. split; [reflexivity|]. right. split; [|reflexivity].
      unfold Post. cbn [d_cb d_wp d_bits d_a d_soft]. auto 8.
  Qed.

  Lemma run_end st v : Run (length llrs) st v -> Post st /\ v = acc RS.
  Proof.
    intros [(k & LK & D & ST & _)|H]; [|exact H]. exfalso. specialize (ST LK). rewrite HL in ST.
    destruct (shs_step _ _ _ GM k LK) as (SS & SB). pose proof (us_le _ _ _ GM k LK). lia.
  Qed.
  Lemma run_start : Run 0 (dec_start d0 a0 w0) false.
  Proof.
    left. exists 0%nat. pose proof (C_pos _ _ _ GM) as CP. split; [lia|]. split; [|split; [|reflexivity]].
    - unfold Di, dec_start. cbn [d_cb d_wp d_bits d_a d_soft firstn skipn]. change (sum []) with 0. cbn [N.to_nat firstn map concat].
      repeat split; auto. intros i d H. lia.
    - intros H. change (firstn 0 SH) with (@nil N). change (sum []) with 0.
      rewrite (us_nth _ _ _ GM) by exact H. replace (C - g mod C <? N.of_nat 0) with false by lia.
      pose proof (gm_share _ _ _ GM). lia.
  Qed.
  Lemma symbols_run l : forall idx st v, (idx + length (concat l) <= length llrs)%nat ->
    concat l = firstn (length (concat l)) (skipn idx llrs) -> Run idx st v ->
    exists st' v', symbols comb tdec crc_cb_ok crc_tb_ok descr f s c l idx st v = Ok (st', v') /\ Run (idx + length (concat l)) st' v'.
  Proof.
    induction l as [|x l IH]; intros idx st v LI CE R.
    - cbn [symbols concat length]. rewrite Nat.add_0_r. eauto.
    - cbn [symbols concat] in *. rewrite app_length in *.
      assert (BL : length (d_bits st) = length d0) by (destruct R as [(k & _ & D & _)|(P & _)]; [destruct D as (_ & _ & B & _); exact B|destruct P as (_ & _ & B & _); exact B]).
      assert (XE : x = firstn (length x) (skipn idx llrs) /\ concat l = firstn (length (concat l)) (skipn (idx + length x) llrs)).
      { assert (SL : length (skipn idx llrs) = (length llrs - idx)%nat) by apply skipn_length.
        pose proof (f_equal (firstn (length x)) CE) as C1. pose proof (f_equal (skipn (length x)) CE) as C2.
        rewrite firstn_app, Nat.sub_diag, firstn_all in C1. cbn [firstn] in C1. rewrite app_nil_r, firstn_firstn, Nat.min_l in C1 by lia.
        rewrite skipn_app, Nat.sub_diag, skipn_all in C2. cbn [skipn app] in C2. rewrite skipn_firstn_comm in C2.
        replace (length x + length (concat l) - length x)%nat with (length (concat l)) in C2 by lia. rewrite skipn_skipn' in C2. split; assumption. }
      destruct XE as (X1 & X2).
      destruct (blit_ok (d_bits st) idx x) as (bits & B1 & B2 & B3); [lia|]. rewrite B1. cbn [bind].
      unfold decode_tb. replace (N.of_nat (idx + length x) <=? f_G f) with true by lia. cbn [guard].
      destruct (decode_step (idx + length x) (mkDec (d_cb st) (d_wp st) bits (d_a st) (d_soft st))) as (st' & v' & E & R').
      + lia.
      + destruct R as [(k & LK & D & _)|(P & _)].
        * left. exists k. split; [exact LK|]. destruct D as (I1 & I2 & I3 & I4 & I5 & I6 & I7 & I8 & I9).
          unfold Di. cbn [d_cb d_wp d_bits d_a d_soft]. split; [exact I1|]. split; [exact I2|]. split; [congruence|].
          split; [|auto]. intros i d LL. rewrite B3.
          destruct ((idx <=? i)%nat && (i <? idx + length x)%nat) eqn:IN.
          -- rewrite X1. rewrite nth_firstn', nth_skipn' by lia. f_equal. lia.
          -- apply I4. lia.
        * right. destruct P as (P1 & P2 & P3 & P4). unfold Post. cbn [d_cb d_wp d_bits d_a d_soft]. split; [exact P1|]. split; [exact P2|]. split; [congruence|exact P4].
      + rewrite E. cbn [bind fst snd]. rewrite Nat.add_assoc. apply IH; [lia|exact X2|exact R'].
  Qed.

  Lemma receive_run l : (length (concat l) <= length llrs)%nat -> concat l = firstn (length (concat l)) llrs ->
    exists st v, receive comb tdec crc_cb_ok crc_tb_ok descr f c d0 a0 w0 l = Ok (st, v) /\ Run (length (concat l)) st v.
  Proof.
    intros LL CE. unfold receive. rewrite (gm_seg _ _ _ GM). cbn [bind]. exact (symbols_run l 0 _ _ LL CE run_start).
  Qed.
End Fin.
