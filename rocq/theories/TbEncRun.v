(** The encoder, block by block and request by request. *)
From Verif Require Import Base PacketSizes PacketSizesSpec PacketSizesFacts TbCodec TbCodecSpec TbEncFacts TbGeomFacts.
Open Scope N_scope.

Lemma skipn_S {A} (l : list A) k d : (k < length l)%nat -> skipn k l = nth k l d :: skipn (S k) l.
Proof. revert l. induction k as [|k IH]; intros [|x l] L; cbn in L; try lia; [reflexivity|]. cbn [skipn nth]. apply IH. lia. Qed.
Lemma firstn_S {A} (l : list A) k d : (k < length l)%nat -> firstn (S k) l = firstn k l ++ [nth k l d].
Proof. revert l. induction k as [|k IH]; intros [|x l] L; cbn in L; try lia; [reflexivity|]. cbn [firstn nth app]. f_equal. apply IH. lia. Qed.
Lemma cut_length {A} ns (l : list A) : length (cut ns l) = length ns.
Proof. revert l. induction ns as [|n ns IH]; intros l; cbn; [reflexivity|]. rewrite IH. reflexivity. Qed.
Lemma skipn_skipn' {A} (l : list A) a b : skipn a (skipn b l) = skipn (b + a) l.
Proof. revert l. induction b as [|b IH]; intros l; [reflexivity|]. destruct l; [cbn; apply skipn_nil|]. cbn. apply IH. Qed.
Lemma cut_nth {A} ns (l : list A) k : (k < length ns)%nat ->
  nth k (cut ns l) [] = firstn (N.to_nat (nth k ns 0)) (skipn (N.to_nat (sum (firstn k ns))) l).
Proof.
  revert l k. induction ns as [|n ns IH]; intros l k L; [cbn in L; lia|]. destruct k as [|k]; [reflexivity|]. cbn in L.
  cbn [cut nth firstn sum fold_right]. change (fold_right N.add 0) with sum. rewrite IH by lia. rewrite skipn_skipn'.
  do 2 f_equal. lia.
Qed.
Lemma concat_nth {A} (ls : list (list A)) k i d : (k < length ls)%nat -> (i < length (nth k ls []))%nat ->
  nth (length (concat (firstn k ls)) + i) (concat ls) d = nth i (nth k ls []) d.
Proof.
  revert k. induction ls as [|x ls IH]; intros k L I; [cbn in L; lia|]. destruct k as [|k].
  - cbn [firstn concat length nth Nat.add]. cbn in I. apply app_nth1. exact I.
  - cbn in L. cbn [firstn concat nth]. cbn in I. rewrite app_length, app_nth2 by lia.
    rewrite <- (IH k) by (assumption || lia). f_equal. lia.
Qed.
Lemma concat_length_sum {A} (ls : list (list A)) ns : Forall2 (fun l n => length l = N.to_nat n) ls ns ->
  length (concat ls) = N.to_nat (sum ns).
Proof.
  induction 1 as [|l n ls ns H F IH]; [reflexivity|]. cbn [concat sum fold_right]. change (fold_right N.add 0) with sum.
  rewrite app_length. lia.
Qed.
Lemma Forall2_firstn {A B} (R : A -> B -> Prop) l m k : Forall2 R l m -> Forall2 R (firstn k l) (firstn k m).
Proof. intros H. revert k. induction H; intros [|k]; cbn; constructor; auto. Qed.

Section Enc.
  Context {CS W : Type}.
  Variable turbo : CS -> list bool -> bool -> N -> bool -> W * CS.
  Variable select : W -> N -> N -> list bool.
  Variable crc0 : CS.
  Hypothesis SL : forall w n rv, length (select w n rv) = N.to_nat n.
  Variables (f : fec_cfg) (s : segm) (g : N) (data c d0 : list bool) (w0 : list W).
  Hypothesis GM : geom f s g.
  Hypothesis HD : (N.to_nat (f_tb f) <= length data)%nat.
  Hypothesis HCs : (N.to_nat (f_G f) <= length c)%nat.
  Hypothesis HO : (N.to_nat (f_G f) <= length d0)%nat.
  Hypothesis HO8 : (length d0 mod 8 = 0)%nat.
  Hypothesis HW : (N.to_nat (sg_C s) <= length w0)%nat.

  Notation C := (sg_C s).
  Notation nC := (N.to_nat (sg_C s)).
  Definition shs : list N := shares (f_bps f) (f_G f) nC.
  Definition lens : list N := lens_of s.
  Definition xs : list (list bool) := cut (payloads lens) (firstn (N.to_nat (f_tb f)) data).
  Definition ws : list W :=
    if f_rv f =? 0 then coded turbo crc0 (negb (nC =? 1)%nat) lens xs else firstn nC w0.
  Definition cws : list (list bool) := codewords select (f_rv f) ws shs.
  Definition sent : list bool := xor_bits (concat cws) c.

  Lemma C_pos : 1 <= C.
  Proof. clear - GM. pose proof (gm_C _ _ _ GM). pose proof (gm_C1 _ _ _ GM). lia. Qed.
  Lemma shs_def : shs = shares (f_bps f) (f_bps f * g) nC.
  Proof. clear - GM. unfold shs. rewrite (gm_G _ _ _ GM). reflexivity. Qed.
  Lemma shs_length : length shs = nC.
  Proof. rewrite shs_def. clear - GM. pose proof (gm_bps _ _ _ GM). pose proof C_pos. apply shares_length; lia. Qed.
  Lemma shs_sum : sum shs = f_G f.
  Proof. rewrite shs_def, (gm_G _ _ _ GM). clear - GM. pose proof (gm_bps _ _ _ GM). pose proof C_pos. apply shares_sum; lia. Qed.
  Lemma shs_nth i : (i < nC)%nat -> nth i shs 0 = if N.of_nat i <? C - g mod C then f_bps f * (g / C) else f_bps f * (g / C) + f_bps f.
  Proof. intros L. rewrite shs_def. clear - GM L. pose proof (gm_bps _ _ _ GM). pose proof C_pos. rewrite shares_nth by lia. reflexivity. Qed.
  Lemma shs_min i : (i < nC)%nat -> 8 <= nth i shs 0.
  Proof.
    clear - GM. intros L. rewrite shs_nth by exact L. pose proof (gm_share _ _ _ GM) as B. set (x := f_bps f * (g / C)) in *. clearbody x.
    destruct (_ <? _); lia.
  Qed.
  Lemma shs_step k : (k < nC)%nat -> sum (firstn (S k) shs) = sum (firstn k shs) + nth k shs 0 /\ sum (firstn (S k) shs) <= f_G f.
  Proof.
    clear - GM. intros L. split; [apply sum_firstn_S; rewrite shs_length; exact L|]. rewrite <- shs_sum. apply sum_firstn_all.
  Qed.
  Lemma ws_length : length ws = nC.
  Proof.
    clear - GM HW. unfold ws. destruct (f_rv f =? 0); [|rewrite firstn_length; lia].
    assert (forall ls l crc m, length (coded turbo crc m ls l) = Nat.min (length ls) (length l)) as X.
    { induction ls as [|a ls IH]; intros [|b l] crc m; [reflexivity..|]. cbn [coded length Nat.min].
      destruct (turbo crc b _ a m) as (w, c1). cbn [length]. rewrite IH. reflexivity. }
    rewrite X. unfold xs, lens. rewrite cut_length, (payloads_length _ _ _ GM), (lens_length _ _ _ GM). lia.
  Qed.
  Lemma cws_F : Forall2 (fun l n => length l = N.to_nat n) cws shs.
  Proof.
    pose proof ws_length as L1. pose proof shs_length as L2. unfold cws, codewords. rewrite <- L2 in L1. clear - L1 SL.
    revert L1. generalize shs as ns. induction ws as [|w l IH]; intros [|n ns] E; cbn in E; try discriminate; [constructor|].
    cbn [combine map fst snd]. constructor; [apply SL|]. apply IH. lia.
  Qed.
  Lemma cws_length : length cws = nC.
  Proof. rewrite <- shs_length. pose proof cws_F as F. clear - F. induction F; cbn; congruence. Qed.
  Lemma cws_nth k d : (k < nC)%nat -> nth k cws [] = select (nth k ws d) (nth k shs 0) (f_rv f).
  Proof.
    intros L. pose proof ws_length as L1. pose proof shs_length as L2. unfold cws, codewords. 
    rewrite (nth_indep _ [] (select d 0 (f_rv f))) by (rewrite map_length, combine_length; lia).
    pose proof (map_nth (fun p => select (fst p) (snd p) (f_rv f)) (combine ws shs) (d, 0) k) as E. cbv beta in E.
    cbn [fst snd] in E. rewrite E, combine_nth by lia. reflexivity.
  Qed.
  Lemma cws_start k : (k <= nC)%nat -> length (concat (firstn k cws)) = N.to_nat (sum (firstn k shs)).
  Proof. intros L. apply concat_length_sum. apply Forall2_firstn. exact cws_F. Qed.
  Lemma cws_total : length (concat cws) = N.to_nat (f_G f).
  Proof. rewrite <- shs_sum. apply concat_length_sum. exact cws_F. Qed.
  Lemma sent_length : length sent = N.to_nat (f_G f).
  Proof. unfold sent. rewrite xor_length, cws_total. lia. Qed.

  (** payload positions *)
  Lemma pls_step k : (k < nC)%nat -> sum (firstn (S k) (payloads lens)) = sum (firstn k (payloads lens)) + pl s (N.of_nat k).
  Proof.
    clear - GM. intros L. unfold lens. rewrite sum_firstn_S by (rewrite (payloads_length _ _ _ GM); exact L).
    rewrite (payloads_nth _ _ _ GM) by exact L. reflexivity.
  Qed.
  Lemma pls_all : sum (firstn nC (payloads lens)) = f_tb f + 24.
  Proof.
    clear - GM. unfold lens. rewrite <- (payloads_length _ _ _ GM), firstn_all. apply (payloads_sum _ _ _ GM).
  Qed.
  Lemma pls_mod k : (k <= nC)%nat -> sum (firstn k (payloads lens)) mod 8 = 0.
  Proof.
    clear - GM. induction k as [|k IH]; intros L; [reflexivity|]. rewrite pls_step by lia.
    pose proof (pl_bounds _ _ _ GM (N.of_nat k) ltac:(lia)) as (_ & M & _). specialize (IH ltac:(lia)). lia.
  Qed.
  Lemma pls_bound k : (k <= nC)%nat -> sum (firstn k (payloads lens)) <= f_tb f + 24.
  Proof. clear - GM. intros L. rewrite <- pls_all. apply sum_firstn_le. exact L. Qed.
  Lemma pl_last : 24 <= pl s (C - 1).
  Proof.
    clear - GM. unfold pl, payload. rewrite (cb_len_last _ _ _ GM). pose proof (gm_many _ _ _ GM) as M. pose proof (gm_K1 _ _ _ GM).
    destruct (N.eqb_spec C 1) as [E|E]; [replace (nC =? 1)%nat with true by lia; lia|].
    replace (nC =? 1)%nat with false by lia. specialize (M E). lia.
  Qed.
  Lemma pls_notlast k : (S k < nC)%nat -> sum (firstn (S k) (payloads lens)) <= f_tb f.
  Proof.
    clear - GM. intros L. pose proof (pls_step (nC - 1) ltac:(lia)) as E. replace (S (nC - 1)) with nC in E by lia.
    rewrite pls_all in E. pose proof pl_last as P. replace (N.of_nat (nC - 1)) with (C - 1) in E by lia.
    pose proof (sum_firstn_le (payloads lens) (S k) (nC - 1) ltac:(lia)). lia.
  Qed.

  Definition Inv (k : nat) (st : enc) : Prop :=
    e_cb st = N.of_nat k /\ e_rp st = sum (firstn k (payloads lens)) /\ e_wp st = sum (firstn k shs) /\
    length (e_d st) = length d0 /\
    (forall i, (i < N.to_nat (e_wp st))%nat -> nth i (e_d st) false = nth i sent false) /\
    length (e_soft st) = length w0 /\
    (if f_rv f =? 0
     then firstn k (e_soft st) = firstn k ws /\ skipn k (e_soft st) = skipn k w0 /\
          skipn k ws = coded turbo (e_crc st) (negb (nC =? 1)%nat) (skipn k lens) (skipn k xs)
     else e_soft st = w0).

  Lemma firstn_upd {A} (l : list A) k x : (k < length l)%nat -> firstn (S k) (upd l k x) = firstn k l ++ [x].
  Proof. clear. revert l. induction k as [|k IH]; intros [|a l] L; cbn in L; try lia; [reflexivity|]. cbn [upd firstn app]. f_equal. apply IH. lia. Qed.
  Lemma skipn_upd {A} (l : list A) k x : skipn (S k) (upd l k x) = skipn (S k) l.
  Proof. clear. revert l. induction k as [|k IH]; intros [|a l]; cbn; try reflexivity. apply (IH l). Qed.
  Lemma upd_nth {A} (l : list A) k d : (k < length l)%nat -> upd l k (nth k l d) = l.
  Proof. clear. revert l. induction k as [|k IH]; intros [|a l] L; cbn in *; try lia; [reflexivity|]. f_equal. apply IH. lia. Qed.

  Lemma block_step k st : (k < nC)%nat -> Inv k st ->
    exists st', enc_block turbo select f s data c st = Ok st' /\ Inv (S k) st'.
  Proof.
    intros L (I1 & I2 & I3 & I4 & I5 & I6 & I7).
    pose proof C_pos as CP. pose proof (gm_g _ _ _ GM) as GG. pose proof (gm_Cg _ _ _ GM) as CG.
    pose proof (gm_bps _ _ _ GM) as BP. pose proof (gm_Gmax _ _ _ GM) as GX. pose proof (gm_G _ _ _ GM) as GE.
    pose proof (gm_tb _ _ _ GM) as TB.
    destruct (shs_step k L) as (SS & SB). pose proof (shs_min k L) as SM.
    pose proof (pls_step k L) as PS. pose proof (pls_bound (S k) ltac:(lia)) as PB. pose proof (pls_mod k ltac:(lia)) as PM.
    pose proof (pl_bounds _ _ _ GM (N.of_nat k) ltac:(lia)) as (PL1 & PL2 & PL3 & _).
    unfold enc_block. replace (f_G f / f_bps f) with g by (rewrite GE, N.mul_comm, N.div_mul by lia; reflexivity).
    replace (0 <? C) with true by lia. replace (C =? 0) with false by lia. rewrite I1.
    assert (RL : (if 1 <? C then sub32 (cb_len s (N.of_nat k)) 24 else cb_len s (N.of_nat k)) = pl s (N.of_nat k)).
    { clear - GM L CP. unfold pl, payload. pose proof (cb_len_bounds _ _ _ GM (N.of_nat k) ltac:(lia)).
      destruct (N.ltb_spec 1 C) as [A|A].
      - replace (nC =? 1)%nat with false by lia. apply sub32_small; lia.
      - replace (nC =? 1)%nat with true by lia. reflexivity. }
    rewrite RL.
    assert (NE : (if N.of_nat k <=? sub32 (sub32 C (g mod C)) 1 then Ok (mul32 (f_bps f) (g / C))
                  else match ceilf_div g C with Some x => Ok (mul32 (f_bps f) x) | None => Oob end) = Ok (nth k shs 0)).
    { clear - GM L CP GG CG BP GX GE SM SB SS. pose proof (N.mod_lt g C ltac:(lia)) as ML.
      rewrite (sub32_small C) by lia. rewrite sub32_small by lia.
      pose proof (shs_nth k L) as SN.
      assert (SMALL : nth k shs 0 <= f_G f) by lia.
      destruct (N.leb_spec (N.of_nat k) (C - g mod C - 1)) as [A|A].
      - replace (N.of_nat k <? C - g mod C) with true in SN by (clear - A ML; lia). unfold mul32. rewrite <- SN.
        f_equal. apply N.mod_small. lia.
      - replace (N.of_nat k <? C - g mod C) with false in SN by (clear - A ML; lia).
        rewrite ceilf_exact by lia.
        assert (R : g mod C <> 0) by (clear - A L ML; lia).
        pose proof (ceil_share (f_bps f) g C ltac:(lia) CP R) as CS0. unfold low in CS0.
        unfold mul32. rewrite CS0, <- SN. f_equal. apply N.mod_small. lia. }
    rewrite NE. cbn [bind]. rewrite Nat2N.id.
    destruct (nth_error (e_soft st) k) as [old|] eqn:OE; [|apply nth_error_None in OE; lia].
    unfold rd. rewrite OE. cbn [bind].
    assert (STEP : exists w crc, (if f_rv f =? 0
         then do x <- slice data (8 * N.to_nat (e_rp st / 8)) (8 * N.to_nat ((if negb (N.of_nat k <? sub32 C 1) then sub32 (pl s (N.of_nat k)) 24 else pl s (N.of_nat k)) / 8)) ;
              Ok (turbo (e_crc st) x (negb (N.of_nat k <? sub32 C 1)) (cb_len s (N.of_nat k)) (1 <? C))
         else Ok (old, e_crc st)) = Ok (w, crc) /\ nth k ws old = w /\
         (if f_rv f =? 0 then skipn (S k) ws = coded turbo crc (negb (nC =? 1)%nat) (skipn (S k) lens) (skipn (S k) xs) else w = old)).
    { clear NE SS SB SM BP GX GE. pose proof ws_length as WL. destruct (f_rv f =? 0) eqn:RV.
      - destruct I7 as (J1 & J2 & J3). rewrite (sub32_small C 1) by lia.
        set (last := negb (N.of_nat k <? C - 1)).
        assert (XE : slice data (8 * N.to_nat (e_rp st / 8)) (8 * N.to_nat ((if last then sub32 (pl s (N.of_nat k)) 24 else pl s (N.of_nat k)) / 8))
                     = Ok (nth k xs [])).
        { pose proof pl_last as P24. pose proof (payloads_nth _ _ _ GM k L) as PN.
          pose proof (payloads_length _ _ _ GM) as PLN.
          unfold xs. rewrite cut_nth by (unfold lens; lia). unfold lens at 1. rewrite PN.
          rewrite skipn_firstn_comm, firstn_firstn. rewrite I2.
          replace (8 * N.to_nat (sum (firstn k (payloads lens)) / 8))%nat with (N.to_nat (sum (firstn k (payloads lens)))) by (clear - PM; lia).
          subst last. destruct (N.ltb_spec (N.of_nat k) (C - 1)) as [A|A]; cbn [negb].
          - pose proof (pls_notlast k ltac:(lia)) as NL. rewrite PS in NL.
            set (a := sum (firstn k (payloads lens))) in *. set (b := pl s (N.of_nat k)) in *. clearbody a b.
            rewrite slice_ok by (clear - NL PL2 HD; lia). f_equal. f_equal. clear - NL PL2; lia.
          - pose proof pls_all as PA. replace nC with (S k) in PA by lia. rewrite PS in PA.
            replace (C - 1) with (N.of_nat k) in P24 by lia.
            rewrite sub32_small by lia.
            set (a := sum (firstn k (payloads lens))) in *. set (b := pl s (N.of_nat k)) in *. clearbody a b.
            rewrite slice_ok by (clear - PA PL2 HD P24; lia). f_equal. f_equal. clear - PA PL2 P24; lia. }
        rewrite XE. cbn [bind].
        rewrite (skipn_S lens k 0) in J3 by (unfold lens; rewrite (lens_length _ _ _ GM); exact L).
        rewrite (skipn_S xs k []) in J3 by (unfold xs; rewrite cut_length; unfold lens; rewrite (payloads_length _ _ _ GM); exact L).
        rewrite (skipn_S ws k old) in J3 by lia. cbn [coded] in J3.
        unfold lens at 2 in J3. rewrite (lens_nth _ _ _ GM) in J3 by exact L.
        replace (match skipn (S k) lens with [] => true | _ => false end) with last in J3.
        2:{ pose proof (skipn_length (S k) lens) as E. unfold lens at 2 in E. rewrite (lens_length _ _ _ GM) in E.
            subst last. clear - E L CP. destruct (skipn (S k) lens); cbn in E; lia. }
        replace (1 <? C) with (negb (nC =? 1)%nat) by (clear - CP; lia).
        destruct (turbo (e_crc st) (nth k xs []) last (cb_len s (N.of_nat k)) (negb (nC =? 1)%nat)) as (w, crc).
        exists w, crc. split; [reflexivity|]. injection J3 as J4 J5. split; assumption.
      - exists old, (e_crc st). split; [reflexivity|]. split; [|reflexivity].
        unfold ws. rewrite RV, nth_firstn' by lia. rewrite <- I7. apply nth_error_nth. exact OE. }
    destruct STEP as (w & crc & -> & WK & REST). cbn [bind].
    set (n := nth k shs 0) in *. set (wp := e_wp st) in *.
    replace (8 * N.to_nat (wp / 8) + N.to_nat (wp mod 8))%nat with (N.to_nat wp) by (clear; lia).
    pose proof (SL w n (f_rv f)) as SEL. pose proof (cws_nth k old L) as CW. fold n in CW. rewrite WK in CW.
    destruct (blit_ok (e_d st) (N.to_nat wp) (select w n (f_rv f))) as (d1 & B1 & B2 & B3).
    { rewrite SEL, I4. clear - I3 SS SB HO. lia. }
    rewrite B1. cbn [bind].
    destruct (scramble_ok c d1 (N.to_nat n) (N.to_nat wp)) as (d2 & S1 & S2 & S3).
    { clear - SM; lia. } { clear - I3 SS SB HCs. lia. } { rewrite B2, I4. clear - I3 SS SB HO. lia. } { rewrite B2, I4. exact HO8. }
    rewrite <- (N2Z.id n), <- (N2Z.id wp) in S1. rewrite !N2Z.id, <- !nat_N_Z, !N2Nat.id in S1.
    rewrite S1. cbn [bind].
    eexists. split; [reflexivity|]. unfold Inv. cbn [e_cb e_rp e_wp e_d e_soft e_crc].
    split. { rewrite add32_small by (clear - L CG GG; lia). clear; lia. }
    split. { rewrite I2, PS. apply add32_small. rewrite <- PS. clear - PB TB. lia. }
    assert (WP : add32 wp n = sum (firstn (S k) shs)). { rewrite SS, <- I3. apply add32_small. rewrite I3, <- SS. clear - SB GX. lia. }
    rewrite WP. split; [reflexivity|]. split; [congruence|].
    split.
    { intros i LI. rewrite S3. destruct ((N.to_nat wp <=? i)%nat && (i <? N.to_nat wp + N.to_nat n)%nat) eqn:IN.
      - rewrite B3, SEL, IN. unfold sent. rewrite xor_nth.
        2:{ rewrite cws_total. clear - LI SB. lia. } 2:{ clear - LI SB HCs. lia. }
        f_equal. pose proof (cws_start k ltac:(lia)) as ST.
        replace i with (length (concat (firstn k cws)) + (i - N.to_nat wp))%nat at 2 by (rewrite ST, <- I3; clear - IN; lia).
        rewrite concat_nth; [rewrite CW; reflexivity|rewrite cws_length; exact L|rewrite CW, SEL; clear - IN; lia].
      - rewrite SS, <- I3 in LI. assert (i < N.to_nat wp)%nat as LW by (clear - LI IN; lia).
        replace ((N.to_nat wp + N.to_nat n <=? i)%nat && (i <? 8 * ((N.to_nat wp + N.to_nat n + 7) / 8))%nat) with false by (clear - LW; lia).
        rewrite B3, SEL, IN. apply I5. exact LW. }
    rewrite upd_length. split; [exact I6|].
    destruct (f_rv f =? 0) eqn:RV.
    - destruct I7 as (J1 & J2 & J3). pose proof ws_length as WL. split.
      + rewrite firstn_upd by lia. rewrite (firstn_S ws k old) by lia. congruence.
      + split; [|exact REST]. rewrite skipn_upd. pose proof (f_equal (skipn 1) J2) as J4. rewrite !skipn_skipn' in J4.
        replace (k + 1)%nat with (S k) in J4 by lia. exact J4.
    - subst w. rewrite I7. rewrite REST. rewrite <- I7.
      rewrite <- (nth_error_nth _ _ old OE). apply upd_nth. apply nth_error_Some. congruence.
  Qed.

  (** a request *)
  Lemma loop_run fuel k st m : Inv k st -> (k <= nC)%nat -> (nC - k < fuel)%nat -> m <= f_G f ->
    exists k' st', enc_loop turbo select fuel f s data c m st = Ok st' /\ Inv k' st' /\ (k <= k' <= nC)%nat /\
      m <= e_wp st' /\ ((k < k')%nat -> sum (firstn (k' - 1) shs) < m).
  Proof.
    revert k st. induction fuel as [|fuel IH]; intros k st I L F M; [lia|].
    cbn [enc_loop]. pose proof I as (I1 & I2 & I3 & _).
    destruct (N.ltb_spec (e_wp st) m) as [A|A].
    - assert (k < nC)%nat as LK.
      { destruct (Nat.eq_dec k nC) as [E|]; [|lia]. exfalso. rewrite I3, E, <- shs_length, firstn_all, shs_sum in A. lia. }
      destruct (block_step k st LK I) as (st1 & E1 & I'). rewrite E1. cbn [bind].
      destruct (IH (S k) st1 I' ltac:(lia) ltac:(lia) M) as (k' & st' & E' & I'' & L' & M' & P').
      exists k', st'. split; [exact E'|]. split; [exact I''|]. split; [lia|]. split; [exact M'|].
      intros _. destruct (Nat.eq_dec k' (S k)) as [->|]; [|apply P'; lia].
      replace (S k - 1)%nat with k by lia. rewrite <- I3. exact A.
    - exists k, st. split; [reflexivity|]. split; [exact I|]. split; [lia|]. split; [exact A|]. lia.
  Qed.
  Lemma tb_run k st m : Inv k st -> (k <= nC)%nat ->
    exists k' st', encode_tb turbo select f s data c m st = Ok st' /\ Inv k' st' /\ (k <= k' <= nC)%nat /\
      N.min (f_G f) m <= e_wp st' /\ ((k < k')%nat -> sum (firstn (k' - 1) shs) < N.min (f_G f) m).
  Proof.
    intros I L. unfold encode_tb, encode_codeblocks. pose proof I as (_ & _ & _ & _ & _ & I6 & _).
    rewrite (gm_F _ _ _ GM). rewrite guard_true by reflexivity. rewrite guard_true by (rewrite I6; clear - HW; lia).
    rewrite guard_true by (pose proof (gm_bps _ _ _ GM) as B; clear - B; lia). rewrite (N.min_comm m).
    apply loop_run; [exact I|exact L|rewrite I6; clear - HW; lia|apply N.le_min_l].
  Qed.
  Lemma reqs_run l : forall k st m0, Inv k st -> (k <= nC)%nat -> m0 <= e_wp st -> (k <> O -> sum (firstn (k - 1) shs) < m0) ->
    exists k' st', requests turbo select f s data c l st = Ok st' /\ Inv k' st' /\ (k' <= nC)%nat /\
      N.max m0 (demanded (f_G f) l) <= e_wp st' /\ (k' <> O -> sum (firstn (k' - 1) shs) < N.max m0 (demanded (f_G f) l)).
  Proof.
    induction l as [|m l IH]; intros k st m0 I L M P.
    - exists k, st. cbn [requests demanded map fold_right]. rewrite N.max_0_r. auto.
    - cbn [requests]. destruct (tb_run k st m I L) as (k1 & st1 & E & I1 & L1 & M1 & P1). rewrite E. cbn [bind].
      assert (WM : e_wp st <= e_wp st1).
      { destruct I as (_ & _ & -> & _). destruct I1 as (_ & _ & -> & _). apply sum_firstn_le. lia. }
      destruct (IH k1 st1 (N.max m0 (N.min (f_G f) m)) I1 ltac:(lia) ltac:(lia)) as (k2 & st2 & E2 & I2 & L2 & M2 & P2).
      { intros N0. destruct (Nat.eq_dec k1 k) as [->|]; [specialize (P N0); lia|]. specialize (P1 ltac:(lia)). lia. }
      exists k2, st2. split; [exact E2|]. split; [exact I2|]. split; [exact L2|].
      unfold demanded in *. cbn [map fold_right]. rewrite N.max_assoc. split; assumption.
  Qed.

  Lemma Inv_start : Inv 0 (enc_start crc0 d0 w0).
  Proof.
    unfold Inv, enc_start. cbn [e_cb e_rp e_wp e_d e_soft e_crc firstn skipn sum fold_right].
    split; [reflexivity|]. split; [reflexivity|]. split; [reflexivity|]. split; [reflexivity|].
    split; [intros i L; cbn in L; lia|]. split; [reflexivity|].
    destruct (f_rv f =? 0) eqn:RV; [|reflexivity]. split; [reflexivity|]. split; [reflexivity|]. unfold ws. rewrite RV. reflexivity.
  Qed.

  Lemma transmit_run l : exists k st, transmit turbo select crc0 f data c d0 w0 l = Ok st /\ Inv k st /\ (k <= nC)%nat /\
    demanded (f_G f) l <= e_wp st /\ (k <> O -> sum (firstn (k - 1) shs) < demanded (f_G f) l).
  Proof.
    unfold transmit. rewrite (gm_seg _ _ _ GM). cbn [bind].
    destruct (reqs_run l 0 _ 0 Inv_start ltac:(lia) ltac:(cbn; lia) ltac:(congruence)) as (k & st & E & I & L & M & P).
    rewrite N.max_0_l in *. eauto 8.
  Qed.
End Enc.
