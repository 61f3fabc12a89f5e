(** Facts about link adaptation. *)
From Verif Require Import Base Bytes Feedback FeedbackFacts LinkAdapt LinkAdaptSpec.
From Coq Require Import QArith Lqa Lia.
Open Scope N_scope.

(** ** The table *)
Lemma required_mono : forall i, i < 11 -> (required i <= required (i + 1))%Q.
Proof.
  intros i H. assert (D : i = 0 \/ i = 1 \/ i = 2 \/ i = 3 \/ i = 4 \/ i = 5 \/ i = 6 \/ i = 7 \/ i = 8 \/ i = 9 \/ i = 10) by lia.
  repeat (destruct D as [->|D]; [vm_compute; discriminate|]). subst i. vm_compute. discriminate.
Qed.
Lemma required_le a n : a + N.of_nat n <= 11 -> (required a <= required (a + N.of_nat n))%Q.
Proof.
  induction n as [|n IH]; intros H; [rewrite N.add_0_r; apply Qle_refl|].
  apply Qle_trans with (required (a + N.of_nat n)); [apply IH; lia|].
  replace (a + N.of_nat (S n)) with (a + N.of_nat n + 1) by lia. apply required_mono. lia.
Qed.
Lemma scan_ok : forall n i lo snr, 1 <= i -> lo <= i - 1 -> i - 1 + N.of_nat n <= 11 -> (i - 1 = lo \/ (required (i - 1) <= snr)%Q) ->
  best_mcs lo (i - 1 + N.of_nat n) snr (lut_scan n i (i - 1) snr).
Proof.
  induction n as [|n IH]; intros i lo snr Hi Hl Hh Hr; cbn [lut_scan].
  - split; [lia|]. split; [exact Hr|]. intros m' M. lia.
  - destruct (Qle_bool (required i) snr) eqn:E.
    + apply Qle_bool_iff in E. specialize (IH (i + 1) lo snr). replace (i + 1 - 1) with i in IH by lia.
      replace (i - 1 + N.of_nat (S n)) with (i + N.of_nat n) by lia. apply IH; [lia|lia|lia|right; exact E].
    + assert (L : (snr < required i)%Q) by (apply Qnot_le_lt; intros K; apply Qle_bool_iff in K; congruence).
      split; [lia|]. split; [exact Hr|]. intros m' M. apply Qlt_le_trans with (required i); [exact L|].
      replace m' with (i + N.of_nat (N.to_nat (m' - i))) by lia. apply required_le. lia.
Qed.
Lemma highest_ok l snr : lut_ok l -> best_mcs (l_min l) (l_max l) (snr - l_off l)%Q (highest_mcs l snr).
Proof.
  intros [[A B] C]. unfold highest_mcs.
  pose proof (scan_ok (N.to_nat (l_max l - l_min l)) (l_min l + 1) (l_min l) (snr - l_off l)%Q) as K.
  replace (l_min l + 1 - 1) with (l_min l) in K by lia.
  replace (l_min l + N.of_nat (N.to_nat (l_max l - l_min l))) with (l_max l) in K by lia.
  apply K; [lia|lia|lia|left; reflexivity].
Qed.
Lemma clamp_ok l m : l_min l <= l_max l -> clamp_mcs l m = clamp (l_min l) (l_max l) m.
Proof. intros H. unfold clamp_mcs, clamp. destruct (N.ltb_spec m (l_min l)); [lia|]. destruct (N.ltb_spec (l_max l) m); lia. Qed.

(** ** Histories *)
Lemma last_snoc {B} (f : op -> option B) xs x : last_of f (xs ++ [x]) = match f x with Some b => Some b | None => last_of f xs end.
Proof.
  induction xs as [|y xs IH]; cbn [app last_of]; [destruct (f x); reflexivity|]. rewrite IH.
  destruct (f x); [reflexivity|]. reflexivity.
Qed.
Definition holds (e : expiring) (r : option (N * Z)) : Prop :=
  match r with None => e_time e = None | Some (v, t) => e = mkExp v (Some t) end.
Lemma holds_get e r life t fb : holds e r -> e_get e (t - life) fb = fresh life t r fb.
Proof.
  unfold e_get, e_valid, fresh. destruct r as [[v tr]|]; cbn [holds]; intros H; [subst e; reflexivity|]. rewrite H. reflexivity.
Qed.
Definition fm (l : lut) (r : option (Q * Z)) : option (N * Z) := match r with Some (snr, t) => Some (highest_mcs l snr, t) | None => None end.

Section Dev.
  Variables (l : lut) (plans : list (list N)) (life : Z) (mimo : bool).
  Hypotheses (Hl : lut_ok l) (Hp : plans_ok plans).

  Definition con_inv (k : nat) (hs : list op) (c : contact) : Prop :=
    c_plan c = nth k plans [] /\ c_idx c = (sent_to k hs mod length (nth k plans []))%nat /\
    holds (s_fb_mcs (c_csi c)) (last_of (mcs_report k) hs) /\
    holds (s_phy_mcs (c_csi c)) (fm l (last_of (measured k) hs)) /\
    holds (s_cb (c_csi c)) (last_of (suggested k) hs) /\
    holds (s_phy_cb (c_csi c)) (last_of (beamed k) hs).
  Definition dev_inv (d : dev) (hs : list op) : Prop :=
    d_lut d = l /\ d_life d = life /\ d_mimo d = mimo /\ length (d_cons d) = length plans /\
    (exists m cb, pf4 (d_pool d) = mkF4 0 m /\ pf5 (d_pool d) = mkF5 0 ACK single_layer cb) /\
    forall k c, nth_error (d_cons d) k = Some c -> con_inv k hs c.

  Lemma dev_new_inv : dev_inv (dev_new l plans life mimo) [].
  Proof using.
    split; [reflexivity|]. split; [reflexivity|]. split; [reflexivity|]. split; [apply map_length|]. split; [eexists _, _; split; reflexivity|].
    intros k c H. cbn [dev_new d_cons] in H. rewrite nth_error_map in H. destruct (nth_error plans k) as [p|] eqn:E; [|discriminate]. injection H as <-.
    apply nth_error_nth with (d := []) in E. unfold con_inv. cbn [c_plan c_idx c_csi]. split; [congruence|].
    split; [unfold sent_to; cbn [filter length]; destruct (length (nth k plans [])); [reflexivity|symmetry; apply Nat.mod_0_l; discriminate]|]. repeat split; reflexivity.
  Qed.

  (** What one operation adds, for a contact. *)
  Definition upd_r {B} (o : option B) (r : option B) : option B := match o with Some b => Some b | None => r end.
  Lemma nth_error_upd {B} (c : B) : forall cs k k' c', nth_error (upd cs k c) k' = Some c' -> if (k' =? k)%nat then c' = c else nth_error cs k' = Some c'.
  Proof.
    induction cs as [|x cs IH]; intros k k' c' H; [destruct k, k'; discriminate H|].
    destruct k as [|k], k' as [|k']; cbn [upd nth_error Nat.eqb] in *; try congruence. exact (IH _ _ _ H).
  Qed.
  Lemma rd_some {B} : forall (cs : list B) k, (k < length cs)%nat -> exists c, rd cs k = Ok c /\ nth_error cs k = Some c.
  Proof.
    intros cs k H. destruct (nth_error cs k) as [c|] eqn:E; [|apply nth_error_None in E; lia]. exists c. split; [|reflexivity].
    unfold rd. rewrite E. reflexivity.
  Qed.

  (** An operation on contact [k] that leaves what the others look at. *)
  Lemma other_con k k' hs x c : k' <> k -> (forall j, j <> k -> mcs_report j x = None /\ measured j x = None /\ suggested j x = None /\ beamed j x = None /\ sends j x = false) ->
    con_inv k' hs c -> con_inv k' (hs ++ [x]) c.
  Proof using.
    intros N O (A & B & C & D & E & F). destruct (O k' N) as (O1 & O2 & O3 & O4 & O5).
    unfold con_inv. rewrite !last_snoc, O1, O2, O3, O4. unfold sent_to. rewrite filter_app. cbn [filter]. rewrite O5, app_nil_r. repeat split; assumption.
  Qed.
  Lemma same_con k hs x c : mcs_report k x = None -> measured k x = None -> suggested k x = None -> beamed k x = None -> sends k x = false ->
    con_inv k hs c -> con_inv k (hs ++ [x]) c.
  Proof using.
    intros O1 O2 O3 O4 O5 (A & B & C & D & E & F).
    unfold con_inv. rewrite !last_snoc, O1, O2, O3, O4. unfold sent_to. rewrite filter_app. cbn [filter]. rewrite O5, app_nil_r. repeat split; assumption.
  Qed.

  Definition about (x : op) : nat := match x with RxPcc k _ _ | RxPdc k _ _ | RxBeacon k _ _ _ _ | Tx k _ _ => k end.
  Lemma about_other x j : j <> about x -> mcs_report j x = None /\ measured j x = None /\ suggested j x = None /\ beamed j x = None /\ sends j x = false.
  Proof using.
    intros N. destruct x as [k m t|k snr t|k cb cbr snr t|k t o]; cbn [about] in N; cbn [mcs_report measured suggested beamed sends];
      assert (E : (k =? j)%nat = false) by (apply Nat.eqb_neq; congruence); rewrite ?E.
    - destruct m as [|b0 [|b1 [|]]]; repeat split; reflexivity.
    - repeat split; reflexivity.
    - repeat split; reflexivity.
    - destruct o; repeat split; reflexivity.
  Qed.

  Lemma set_con_inv d hs x c : dev_inv d hs -> con_inv (about x) (hs ++ [x]) c -> dev_inv (set_con d (about x) c) (hs ++ [x]).
  Proof using.
    intros (A & B & C & D & E & F) G. split; [exact A|]. split; [exact B|]. split; [exact C|]. split; [cbn [set_con d_cons]; rewrite upd_length; exact D|].
    split; [exact E|]. intros k c0 H. cbn [set_con d_cons] in H. apply nth_error_upd in H. destruct (Nat.eqb_spec k (about x)) as [->|N]; [subst c0; apply G|].
    apply (other_con (about x) k hs x c0 N); [intros j; apply about_other|exact (F _ _ H)].
  Qed.
  Lemma keep_inv d hs x : dev_inv d hs ->
    (mcs_report (about x) x = None /\ measured (about x) x = None /\ suggested (about x) x = None /\ beamed (about x) x = None /\ sends (about x) x = false) ->
    dev_inv d (hs ++ [x]).
  Proof using.
    intros (A & B & C & D & E & F) (O1 & O2 & O3 & O4 & O5). split; [exact A|]. split; [exact B|]. split; [exact C|]. split; [exact D|].
    split; [exact E|]. intros k c H. specialize (F _ _ H). destruct (Nat.eq_dec k (about x)) as [->|N].
    - apply same_con; assumption.
    - apply (other_con (about x) k hs x c N); [intros j; apply about_other|exact F].
  Qed.

  (** ** Received octets *)
  Lemma land_mod x n : N.land x (2 ^ n - 1) = x mod 2 ^ n.
  Proof using. rewrite <- N.land_ones. rewrite N.ones_equiv, N.pred_sub. reflexivity. Qed.
  Lemma fmt_of b0 : b0 < 256 -> N.land (N.shiftr b0 4) 15 = b0 / 16.
  Proof using. intros H. change 15 with (2 ^ 4 - 1). rewrite land_mod, N.shiftr_div_pow2. change (2 ^ 4) with 16. apply N.mod_small. lia. Qed.

  Lemma rx_inv d hs k old b0 b1 t : dev_inv d hs -> (k < length plans)%nat -> b0 < 256 -> b1 < 256 ->
    exists d', rx_feedback d k old [b0; b1] t = Ok d' /\ dev_inv d' (hs ++ [RxPcc k [b0; b1] t]).
  Proof using.
    intros I0 L B0 B1. pose proof I0 as (A & B & C & D & E & F). destruct (rd_some (d_cons d) k) as (c & R & Nc); [lia|].
    unfold rx_feedback. rewrite R. cbn [bind]. unfold ld at 1. cbn [rd nth_error bind]. rewrite fmt_of by exact B0.
    assert (K : b0 / 16 < 16) by lia. pose proof (F _ _ Nc) as (P1 & P2 & P3 & P4 & P5 & P6).
    assert (KEEP : b0 / 16 <> 4 -> b0 / 16 <> 5 -> dev_inv d (hs ++ [RxPcc k [b0; b1] t]) /\
                   dev_inv (set_con d k (with_csi c (c_csi c))) (hs ++ [RxPcc k [b0; b1] t])).
    { intros N4 N5. apply N.eqb_neq in N4. apply N.eqb_neq in N5.
      assert (G : mcs_report k (RxPcc k [b0; b1] t) = None /\ measured k (RxPcc k [b0; b1] t) = None /\ suggested k (RxPcc k [b0; b1] t) = None /\
                  beamed k (RxPcc k [b0; b1] t) = None /\ sends k (RxPcc k [b0; b1] t) = false).
      { cbn [mcs_report measured suggested beamed sends]. rewrite N4, N5, !andb_false_r. repeat split; reflexivity. }
      split; [apply (keep_inv d hs (RxPcc k [b0; b1] t) I0 G)|].
      apply (set_con_inv d hs (RxPcc k [b0; b1] t) (with_csi c (c_csi c)) I0). cbn [about]. destruct G as (G1 & G2 & G3 & G4 & G5).
      apply same_con; try assumption. unfold con_inv. cbn [with_csi c_plan c_idx c_csi]. repeat split; assumption. }
    destruct (fmt_cases (b0 / 16)) as [Q|[Q|[Q|[Q|[Q|[Q|[Q|Q]]]]]]].
    - rewrite Q in *. destruct KEEP as [K1 K2]; [discriminate|discriminate|]. unfold pool_unpack, ld. cbn [rd nth_error bind].
      destruct (negb (N.land b0 15 =? 0)); cbn [fst snd]; [exists d; split; [reflexivity|exact K1]|].
      destruct (negb (b1 =? 0)); cbn [fst snd csi_feedback bind]; eexists; (split; [reflexivity|assumption]).
    - rewrite Q in *. destruct KEEP as [K1 K2]; [discriminate|discriminate|]. unfold pool_unpack, f1_unpack, ld. cbn [rd nth_error bind fst snd].
      match goal with |- context [if ?b then _ else _] => destruct b end; cbn [csi_feedback bind]; eexists; (split; [reflexivity|assumption]).
    - rewrite Q in *. destruct KEEP as [K1 K2]; [discriminate|discriminate|]. unfold pool_unpack, f2_unpack, ld. cbn [rd nth_error bind fst snd].
      match goal with |- context [if ?b then _ else _] => destruct b end; cbn [csi_feedback bind]; eexists; (split; [reflexivity|assumption]).
    - rewrite Q in *. destruct KEEP as [K1 K2]; [discriminate|discriminate|]. unfold pool_unpack, f3_unpack, ld. cbn [rd nth_error bind fst snd].
      match goal with |- context [if ?b then _ else _] => destruct b end; cbn [csi_feedback bind]; eexists; (split; [reflexivity|assumption]).
    - (* format 4 *)
      rewrite Q in *. unfold pool_unpack, f4_unpack, ld. cbn [rd nth_error bind fst snd].
      set (bm := N.lor _ _). assert (Hbm : bm <= 255).
      { unfold bm. change 15 with (2 ^ 4 - 1). rewrite !land_mod, N.shiftl_mul_pow2, N.shiftr_div_pow2. change (2 ^ 4) with 16.
        assert (X : N.lor (b0 mod 16 * 16) (b1 / 16 mod 16) < 2 ^ 8).
        { apply N.log2_lt_cancel. rewrite N.log2_lor. rewrite N.log2_pow2 by lia.
          assert (Y : forall y, y < 256 -> N.log2 y < 8).
          { intros y Hy. destruct (N.eq_dec y 0) as [->|]; [reflexivity|]. apply N.log2_lt_pow2; [lia|exact Hy]. }
          assert (Y1 : N.log2 (b0 mod 16 * 16) < 8) by (apply Y; pose proof (N.mod_lt b0 16); lia).
          assert (Y2 : N.log2 (b1 / 16 mod 16) < 8) by (apply Y; pose proof (N.mod_lt (b1 / 16) 16); lia).
          lia. }
        change (2 ^ 8) with 256 in X. lia. }
      replace (N.land b1 15) with (b1 mod 16) by (symmetry; change 15 with (2 ^ 4 - 1); apply land_mod).
      unfold f4_valid. cbn [f4_bitmap f4_mcs]. apply N.leb_le in Hbm. rewrite Hbm. cbn [andb]. clearbody bm.
      assert (M : b1 mod 16 < 16) by (apply N.mod_lt; discriminate).
      assert (RP : mcs_report k (RxPcc k [b0; b1] t) = if (cqi_2_mcs (b1 mod 16) <=? 11) then Some (cqi_2_mcs (b1 mod 16), t) else None).
      { cbn [mcs_report]. rewrite Nat.eqb_refl, Q, N.eqb_refl. cbn [andb]. unfold cqi_2_mcs, MCS_out_of_range.
        destruct (N.eqb_spec (b1 mod 16) 0) as [Z|Z]; cbn [orb].
        - rewrite Z. reflexivity.
        - destruct (N.ltb_spec 12 (b1 mod 16)) as [V|V].
          + replace (b1 mod 16 <=? 12) with false by (symmetry; apply N.leb_gt; lia). rewrite andb_false_r. reflexivity.
          + replace (1 <=? b1 mod 16) with true by (symmetry; apply N.leb_le; lia).
            replace (b1 mod 16 <=? 12) with true by (symmetry; apply N.leb_le; lia). cbn [andb].
            replace (b1 mod 16 - 1 <=? 11) with true by (symmetry; apply N.leb_le; lia). reflexivity. }
      assert (SG : suggested k (RxPcc k [b0; b1] t) = None) by (cbn [suggested]; rewrite Q, andb_false_r; reflexivity).
      destruct (cqi_2_mcs (b1 mod 16) <=? 11).
      + cbn [csi_feedback bind set_f4 pf4 f4_mcs]. eexists. split; [reflexivity|].
        apply (set_con_inv d hs (RxPcc k [b0; b1] t) _ I0). cbn [about]. unfold con_inv. rewrite !last_snoc, RP, SG.
        cbn [measured beamed with_csi c_plan c_idx c_csi s_fb_mcs s_phy_mcs s_cb s_phy_cb holds].
        unfold sent_to. rewrite filter_app. cbn [filter sends]. rewrite app_nil_r. repeat split; assumption.
      + eexists. split; [reflexivity|]. apply (keep_inv d hs (RxPcc k [b0; b1] t) I0). cbn [about]. split; [exact RP|].
        split; [reflexivity|]. split; [exact SG|]. split; reflexivity.
    - (* format 5 *)
      rewrite Q in *. unfold pool_unpack, f5_unpack, ld. cbn [rd nth_error bind fst snd].
      assert (V : f5_valid (mkF5 (N.land (N.shiftr b0 1) 7) (tfb_cast (N.land b0 1)) (mimo_cast (N.land (N.shiftr b1 6) 3)) (N.land b1 63)) = true).
      { apply f5_valid_ok. cbn [FeedbackSpec.fb_ok f5_harq f5_tf f5_mimo f5_cb]. split; [apply land7_le|].
        split; [apply tf_bit_cast, land1_le|]. split; [apply mimo_bits_cast, land3_le|apply land63_le]. }
      rewrite V. cbn [csi_feedback bind set_f5 pf5 f5_cb]. eexists. split; [reflexivity|].
      replace (N.land b1 63) with (b1 mod 64) by (symmetry; change 63 with (2 ^ 6 - 1); apply land_mod).
      apply (set_con_inv d hs (RxPcc k [b0; b1] t) _ I0). cbn [about]. unfold con_inv. rewrite !last_snoc.
      assert (RP : mcs_report k (RxPcc k [b0; b1] t) = None) by (cbn [mcs_report]; rewrite Q; cbn; rewrite ?andb_false_r; reflexivity).
      assert (SG : suggested k (RxPcc k [b0; b1] t) = Some (b1 mod 64, t)) by (cbn [suggested]; rewrite Q, Nat.eqb_refl; reflexivity).
      rewrite RP, SG. cbn [measured beamed with_csi c_plan c_idx c_csi s_fb_mcs s_phy_mcs s_cb s_phy_cb holds].
      unfold sent_to. rewrite filter_app. cbn [filter sends]. rewrite app_nil_r. repeat split; assumption.
    - rewrite Q in *. destruct KEEP as [K1 K2]; [discriminate|discriminate|]. unfold pool_unpack, f6_unpack, ld. cbn [rd nth_error bind fst snd].
      match goal with |- context [if ?b then _ else _] => destruct b end; cbn [csi_feedback bind]; eexists; (split; [reflexivity|assumption]).
    - destruct (fmt_big (b0 / 16) old [b0; b1] Q) as (_ & U & _). rewrite U. cbn [bind snd]. destruct KEEP as [K1 _]; [lia|lia|]. exists d. split; [reflexivity|exact K1].
  Qed.

  (** ** Sending *)
  Definition fmt_at (k : nat) (hs : list op) : N := nth (sent_to k hs mod length (nth k plans [])) (nth k plans []) 0.
  Definition mcs_used (k : nat) (hs : list op) (t : Z) : N :=
    clamp (l_min l) (l_max l) (fresh life t (last_of (mcs_report k) hs) (l_min l)).
  Definition octets_sent (k : nat) (hs : list op) (t : Z) : list N :=
    if fmt_at k hs =? 4 then [64; fresh life t (fm l (last_of (measured k) hs)) (l_min l) + 1]
    else [81; fresh life t (last_of (beamed k) hs) 0].
  Definition cb_used (k : nat) (hs : list op) (t : Z) : N := if mimo then fresh life t (last_of (suggested k) hs) 0 else 0.

  Lemma fresh_bound (b : N) t0 t r fb : (forall v tr, r = Some (v, tr) -> v <= b) -> fb <= b -> fresh t0 t r fb <= b.
  Proof using. intros H1 H2. unfold fresh. destruct r as [[v tr]|]; [|exact H2]. destruct (t - t0 <=? tr)%Z; [|exact H2]. exact (H1 v tr eq_refl). Qed.

  Lemma pack4 p m : pf4 p = mkF4 0 m -> m <= 11 -> pool_pack p 4 [u8 (N.shiftl 4 4); 0] = Ok [64; m + 1].
  Proof using.
    intros E M. unfold pool_pack. rewrite E.
    assert (D : m = 0 \/ m = 1 \/ m = 2 \/ m = 3 \/ m = 4 \/ m = 5 \/ m = 6 \/ m = 7 \/ m = 8 \/ m = 9 \/ m = 10 \/ m = 11) by lia.
    repeat (destruct D as [->|D]; [reflexivity|]). subst m. reflexivity.
  Qed.
  Lemma pack5 p cb : pf5 p = mkF5 0 ACK single_layer cb -> cb <= 63 -> pool_pack p 5 [u8 (N.shiftl 5 4); 0] = Ok [81; cb].
  Proof using.
    intros E M. unfold pool_pack, f5_pack. rewrite E. unfold f5_valid. cbn [f5_harq f5_tf f5_mimo f5_cb tfb_defined mimo_defined].
    replace (cb <=? 63) with true by (symmetry; apply N.leb_le; exact M). change (0 <=? 7) with true. cbn [andb guard].
    change (u8 (N.shiftl 5 4)) with 80. unfold andst, orst, st, ld. cbn [rd nth_error bind tfb_code mimo_code length Nat.ltb Nat.leb upd].
    change (u8 (N.land 80 240)) with 80. change (u8 (N.lor 80 (N.shiftl 0 1))) with 80. change (u8 (N.lor 80 1)) with 81. change (u8 (N.shiftl 0 6)) with 0.
    rewrite N.lor_0_l. replace (u8 cb) with cb; [reflexivity|]. unfold u8. change 255 with (2 ^ 8 - 1). rewrite land_mod. symmetry. apply N.mod_small.
    change (2 ^ 8) with 256. lia.
  Qed.

  Lemma measured_le hs k v tr : fm l (last_of (measured k) hs) = Some (v, tr) -> v <= 11.
  Proof using Hl.
    destruct (last_of (measured k) hs) as [[snr t]|]; cbn [fm]; [|discriminate]. intros H. injection H as <- _.
    pose proof (highest_ok l snr Hl) as ((_ & K) & _). destruct Hl as [[_ H] _]. lia.
  Qed.
  Lemma beamed_le : forall hs k v tr, Forall (op_ok (length plans)) hs -> last_of (beamed k) hs = Some (v, tr) -> v <= 27.
  Proof using.
    induction hs as [|x hs IH]; intros k v tr H E; [discriminate|]. inversion H as [|? ? H1 H2]; subst. cbn [last_of] in E.
    destruct (last_of (beamed k) hs) as [b|] eqn:E'; [injection E as ->; exact (IH _ _ _ H2 E')|].
    destruct x as [k' m t|k' snr t|k' cb cbr snr t|k' t o]; cbn [beamed] in E; try discriminate.
    destruct (k' =? k)%nat; [|discriminate]. injection E as <- <-. apply H1.
  Qed.

  Lemma tx_inv d hs k t o : dev_inv d hs -> Forall (op_ok (length plans)) hs -> (k < length plans)%nat ->
    exists d', tx_unicast d k t o = Ok (d', match o with Sent => Some (mkPacket (mcs_used k hs t) (octets_sent k hs t) (cb_used k hs t)) | _ => None end) /\
               dev_inv d' (hs ++ [Tx k t o]).
  Proof using Hl Hp.
    intros I0 FO L. pose proof I0 as (A & B & C & D & E & F). destruct (rd_some (d_cons d) k) as (c & R & Nc); [lia|].
    unfold tx_unicast. rewrite R. cbn [bind]. pose proof (F _ _ Nc) as (P1 & P2 & P3 & P4 & P5 & P6). rewrite A, B.
    destruct E as (m4 & cb5 & E4 & E5).
    destruct (Hp (nth k plans [])) as [Pn Pf]; [apply nth_In; exact L|].
    assert (Ln : (length (nth k plans []) <> 0)%nat) by (destruct (nth k plans []); [congruence|discriminate]).
    assert (Li : (c_idx c < length (nth k plans []))%nat) by (rewrite P2; apply Nat.mod_upper_bound; exact Ln).
    assert (PC : plan_current c = Ok (fmt_at k hs)).
    { unfold plan_current, fmt_at. rewrite P1, <- P2. destruct (nth_error (nth k plans []) (c_idx c)) as [f|] eqn:En.
      - apply nth_error_nth with (d := 0) in En. congruence.
      - apply nth_error_None in En. lia. }
    assert (PN : exists c', plan_next c = Ok c' /\ c_csi c' = c_csi c /\ c_plan c' = c_plan c /\ c_idx c' = (S (sent_to k hs) mod length (nth k plans []))%nat).
    { unfold plan_next. rewrite P1. destruct (nth k plans []) as [|f fs] eqn:En; [congruence|]. rewrite <- En in *. eexists. split; [reflexivity|].
      cbn [c_csi c_plan c_idx]. split; [reflexivity|]. split; [reflexivity|]. rewrite P2.
      rewrite <- (Nat.add_1_r (sent_to k hs mod _)), <- (Nat.add_1_r (sent_to k hs)). apply Nat.add_mod_idemp_l. exact Ln. }
    assert (F45 : fmt_at k hs = 4 \/ fmt_at k hs = 5).
    { apply Pf. unfold fmt_at. apply nth_In. rewrite <- P2. exact Li. }
    assert (TF : exists p, tx_feedback d c (t - life) = Ok (fmt_at k hs, p) /\ pool_pack p (fmt_at k hs) [u8 (N.shiftl (fmt_at k hs) 4); 0] = Ok (octets_sent k hs t) /\
                 exists m cb, pf4 p = mkF4 0 m /\ pf5 p = mkF5 0 ACK single_layer cb).
    { unfold tx_feedback, octets_sent. rewrite PC. cbn [bind]. destruct F45 as [Q|Q]; rewrite Q; cbn [N.eqb Pos.eqb]; eexists; (split; [reflexivity|]).
      - rewrite E4, A. cbn [f4_bitmap]. rewrite (holds_get _ _ life t (l_min l) P4). split.
        + apply pack4; [reflexivity|]. apply fresh_bound; [apply measured_le|]. destruct Hl as [[? ?] _]. lia.
        + eexists _, _. cbn [set_f4 pf4 pf5]. split; [reflexivity|exact E5].
      - rewrite E5. cbn [f5_harq f5_tf f5_mimo]. rewrite (holds_get _ _ life t 0 P6). split.
        + apply pack5; [reflexivity|]. apply N.le_trans with 27; [|lia]. apply fresh_bound; [|lia]. intros v tr. apply beamed_le. exact FO.
        + eexists _, _. cbn [set_f5 pf4 pf5]. split; [exact E4|reflexivity]. }
    destruct TF as (p & TF1 & TF2 & TF3).
    assert (QK : o <> Sent -> mcs_report k (Tx k t o) = None /\ measured k (Tx k t o) = None /\ suggested k (Tx k t o) = None /\ beamed k (Tx k t o) = None /\ sends k (Tx k t o) = false).
    { intros No. destruct o; [repeat split..|congruence]. }
    destruct o.
    - eexists. split; [reflexivity|]. apply (keep_inv d hs (Tx k t NoHarq) I0). apply QK. discriminate.
    - rewrite TF1. cbn [bind fst snd]. rewrite TF2. cbn [bind]. eexists. split; [reflexivity|].
      apply (keep_inv (set_pool d p) hs (Tx k t NoData)); [|apply QK; discriminate]. exact (conj A (conj B (conj C (conj D (conj TF3 F))))).
    - rewrite TF1. cbn [bind fst snd]. rewrite TF2. cbn [bind]. destruct PN as (c' & N1 & N2 & N3 & N4). rewrite N1. cbn [bind]. eexists. split.
      + do 3 f_equal. unfold mcs_used, cb_used. rewrite clamp_ok by (destruct Hl as [[? ?] _]; lia). rewrite (holds_get _ _ life t (l_min l) P3), (holds_get _ _ life t 0 P5), C. reflexivity.
      + apply (set_con_inv (set_pool d p) hs (Tx k t Sent)); [exact (conj A (conj B (conj C (conj D (conj TF3 F)))))|]. cbn [about]. unfold con_inv.
        rewrite !last_snoc. cbn [mcs_report measured suggested beamed]. rewrite N2, N3. unfold sent_to. rewrite filter_app. cbn [filter sends]. rewrite Nat.eqb_refl, app_length.
        cbn [length]. rewrite Nat.add_1_r. repeat split; assumption.
  Qed.

  Definition sent_packet (hs : list op) (x : op) : option packet :=
    match x with Tx k t Sent => Some (mkPacket (mcs_used k hs t) (octets_sent k hs t) (cb_used k hs t)) | _ => None end.
  Fixpoint packets (hs xs : list op) : list (option packet) :=
    match xs with [] => [] | x :: xs => sent_packet hs x :: packets (hs ++ [x]) xs end.

  Lemma step_inv d hs old x : dev_inv d hs -> Forall (op_ok (length plans)) hs -> op_ok (length plans) x ->
    exists d', dev_step old d x = Ok (d', sent_packet hs x) /\ dev_inv d' (hs ++ [x]).
  Proof using Hl Hp.
    intros I0 FO O. destruct x as [k m t|k snr t|k cb cbr snr t|k t o]; cbn [op_ok] in O; cbn [dev_step sent_packet].
    - destruct O as (L & b0 & b1 & -> & B0 & B1). destruct (rx_inv d hs k old b0 b1 t I0 L B0 B1) as (d' & R & I1). rewrite R. exists d'. split; [reflexivity|exact I1].
    - pose proof I0 as (A & B & C & D & E & F). destruct (rd_some (d_cons d) k) as (c & R & Nc); [lia|]. rewrite R. cbn [bind].
      eexists. split; [reflexivity|]. apply (set_con_inv d hs (RxPdc k snr t) _ I0). cbn [about]. pose proof (F _ _ Nc) as (P1 & P2 & P3 & P4 & P5 & P6).
      unfold con_inv. rewrite !last_snoc. cbn [mcs_report measured suggested beamed]. rewrite Nat.eqb_refl, A.
      cbn [with_csi c_plan c_idx c_csi csi_mcs s_fb_mcs s_phy_mcs s_cb s_phy_cb holds fm]. unfold sent_to. rewrite filter_app. cbn [filter sends]. rewrite app_nil_r.
      repeat split; assumption.
    - destruct O as [O _]. pose proof I0 as (A & B & C & D & E & F). destruct (rd_some (d_cons d) k) as (c & R & Nc); [lia|]. rewrite R. cbn [bind].
      eexists. split; [reflexivity|]. apply (set_con_inv d hs (RxBeacon k cb cbr snr t) _ I0). cbn [about]. pose proof (F _ _ Nc) as (P1 & P2 & P3 & P4 & P5 & P6).
      unfold con_inv. rewrite !last_snoc. cbn [mcs_report measured suggested beamed]. rewrite Nat.eqb_refl, A.
      cbn [with_csi c_plan c_idx c_csi csi_mcs csi_mimo s_fb_mcs s_phy_mcs s_cb s_phy_cb holds fm]. unfold sent_to. rewrite filter_app. cbn [filter sends]. rewrite app_nil_r.
      repeat split; assumption.
    - destruct (tx_inv d hs k t o I0 FO O) as (d' & R & I1). exists d'. split; [|exact I1]. rewrite R. destruct o; reflexivity.
  Qed.

  Lemma run_inv : forall xs d hs, dev_inv d hs -> Forall (op_ok (length plans)) hs -> Forall (op_ok (length plans)) (map snd xs) ->
    exists d', dev_run d xs = Ok (d', packets hs (map snd xs)) /\ dev_inv d' (hs ++ map snd xs).
  Proof using Hl Hp.
    induction xs as [|[old x] xs IH]; intros d hs I0 FO O; cbn [dev_run map packets snd].
    - exists d. rewrite app_nil_r. split; [reflexivity|exact I0].
    - cbn [map snd] in O. inversion O as [|? ? O1 O2]; subst. destruct (step_inv d hs old x I0 FO O1) as (d1 & R & I1). rewrite R. cbn [bind fst snd].
      assert (FO1 : Forall (op_ok (length plans)) (hs ++ [x])) by (apply Forall_app; split; [exact FO|constructor; [exact O1|constructor]]).
      destruct (IH d1 (hs ++ [x]) I1 FO1 O2) as (d' & R' & I'). rewrite R'. cbn [bind fst snd]. exists d'. rewrite <- app_assoc in I'. split; [reflexivity|exact I'].
  Qed.
  Lemma packets_snoc : forall xs hs x, packets hs (xs ++ [x]) = packets hs xs ++ [sent_packet (hs ++ xs) x].
  Proof using.
    induction xs as [|y xs IH]; intros hs x; cbn [app packets]; [rewrite app_nil_r; reflexivity|]. rewrite IH, <- app_assoc. reflexivity.
  Qed.
End Dev.
