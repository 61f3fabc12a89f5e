(** Lemmas on the blocks of a transport block and their shares of the coded bits. *)
From Verif Require Import Base PacketSizes PacketSizesSpec PacketSizesFacts TbCodec TbCodecSpec TbEncFacts.
Open Scope N_scope.

(** Block lengths in the order of encoding. *)
Definition lens_of (s : segm) : list N :=
  repeat (sg_K2 s) (N.to_nat (sg_C2 s)) ++ repeat (sg_K1 s) (N.to_nat (sg_C1 s)).

Record geom (f : fec_cfg) (s : segm) (g : N) : Prop := mkGeom {
  gm_seg : segmentate f = Ok s;
  gm_C : sg_C1 s + sg_C2 s = sg_C s;
  gm_C1 : 1 <= sg_C1 s;
  gm_F : sg_F s = 0;
  gm_tbs : sg_tbs s = f_tb f;
  gm_K1 : 40 <= sg_K1 s <= 6144 /\ sg_K1 s mod 8 = 0;
  gm_K2 : sg_C2 s = 0 \/ (40 <= sg_K2 s < sg_K1 s /\ sg_K2 s mod 8 = 0);
  gm_one : sg_C s = 1 -> sg_C2 s = 0;
  gm_many : sg_C s <> 1 -> 48 <= sg_K1 s;
  gm_sum : sg_C1 s * sg_K1 s + sg_C2 s * sg_K2 s = f_tb f + 24 + (if sg_C s =? 1 then 0 else 24 * sg_C s);
  gm_bps : 1 <= f_bps f <= 10;
  gm_G : f_G f = f_bps f * g;
  gm_g : g < 16777216;
  gm_share : 8 <= f_bps f * (g / sg_C s);
  gm_Cg : sg_C s <= g;
  gm_tb : 0 < f_tb f < 2147483648 /\ f_tb f mod 8 = 0;
  gm_Gmax : f_G f <= 91750400 }.

(** * Every packet *)
Lemma seg_k2 tbs Z s : In Z [2048; 6144] -> 0 < tbs < 2147483648 -> cbsegm tbs Z = Ok (Some s) ->
  sg_tbs s = tbs /\ (sg_C s = 1 -> sg_C2 s = 0) /\ (sg_C2 s = 0 \/ sg_K2 s < sg_K1 s).
Proof.
  intros HZ T E. destruct (N.le_gt_cases (tbs + 24) Z) as [L|L].
  - destruct (seg_one tbs Z HZ ltac:(lia) L) as (k1 & E1 & _). rewrite E in E1. injection E1 as ->. cbn. auto.
  - destruct (seg_many tbs Z HZ L ltac:(lia)) as (C & c2 & K1 & K2 & F & E1 & A1 & A2 & A3 & A4 & A5 & _).
    rewrite E in E1. injection E1 as ->. cbn. split; [reflexivity|]. split; [lia|]. right. lia.
Qed.
Lemma turbo_bounds x : turbo_size x -> 40 <= x <= 6144 /\ x mod 8 = 0.
Proof. unfold turbo_size. intros H. split; [lia|]. destruct H as [H|[H|[H|H]]]; lia. Qed.
Lemma bps_table : Forall2 (fun m i => N_bps m = bits_per_cell i) mcs_table (map N.of_nat (seq 0 12)).
Proof. vm_compute. repeat constructor. Qed.
Lemma bps_of i m : nth_error mcs_table (N.to_nat i) = Some m -> i <= 11 -> N_bps m = bits_per_cell i.
Proof.
  intros H L. apply upto_11 in L. cbn [In] in L.
  repeat (destruct L as [<-|L]; [cbn in H; injection H as <-; reflexivity|]). destruct L.
Qed.

Lemma geom_of d q rv : supported d -> get_packet_sizes d = Ok (Some q) ->
  exists s, geom (fec_of q rv) s (streams (d_tm d) * Z.to_N (data_cells d)) /\
    segmentation (q_N_TB_bits q) (d_Z d) (lens_of s) /\ q_C q = sg_C s.
Proof.
  intros S0 E.
  destruct (possible_dec d) as [P|P]; [|rewrite (sizes_impossible d S0 P) in E; discriminate].
  destruct (sizes_possible d S0 P) as (mc & tm & t & s & M & _ & A1 & A2 & A3 & A4 & A5 & A6 & A7 & E').
  rewrite E in E'. injection E' as ->.
  pose proof S0 as (_ & _ & _ & _ & T & MM & HZ). pose proof (bps_of _ _ M MM) as BPS.
  destruct (G_eval d S0) as (_ & GB). pose proof (budget_bound d S0) as BB.
  destruct (mcs_cases _ MM) as (B10 & R1 & R2 & R3).
  pose proof (granted_spec (budget d)) as (GS & _ & _).
  assert (TL : t < 2147483648) by (destruct (sg_C s =? 1); lia).
  destruct (seg_k2 t (d_Z d) s HZ ltac:(lia) A4) as (Q1 & Q2 & Q3).
  pose proof A6 as (W1 & W2 & W3 & W4 & W5 & W6 & W7 & W8). rewrite A5, N.add_0_r in W6.
  destruct (turbo_z _ HZ) as (_ & ZB).
  pose proof (turbo_bounds _ W3) as K1B.
  assert (K2B : sg_C2 s = 0 \/ (40 <= sg_K2 s < sg_K1 s /\ sg_K2 s mod 8 = 0)).
  { destruct W5 as [W5|(W5 & _)]; [left; exact W5|]. destruct Q3 as [Q3|Q3]; [left; exact Q3|]. right.
    pose proof (turbo_bounds _ W5) as (X & Y). split; [lia|exact Y]. }
  set (g := streams (d_tm d) * Z.to_N (data_cells d)) in *.
  assert (SC : 40 * sg_C s <= sg_C1 s * sg_K1 s + sg_C2 s * sg_K2 s).
  { destruct K2B as [K2B|(K2B & _)].
    - assert (X : sg_C1 s * 40 <= sg_C1 s * sg_K1 s) by (apply N.mul_le_mono_l; lia). lia.
    - assert (sg_C1 s * 40 <= sg_C1 s * sg_K1 s) by (apply N.mul_le_mono_l; lia).
      assert (sg_C2 s * 40 <= sg_C2 s * sg_K2 s) by (apply N.mul_le_mono_l; lia). lia. }
  assert (LG : budget d <= g * bits_per_cell (d_mcs d)).
  { unfold budget. fold g. set (G := g * bits_per_cell (d_mcs d)) in *. apply N.div_le_upper_bound; [lia|].
    rewrite N.mul_comm. apply N.mul_le_mono_r. lia. }
  assert (G40 : 40 * sg_C s <= g * bits_per_cell (d_mcs d)) by (rewrite W6, A7 in SC; lia).
  assert (gm : g < 16777216).
  { pose proof (cells_bound d S0) as CB. destruct (streams_cases _ T) as (_ & S8).
    assert (g <= 8 * 1146880) by (apply N.mul_le_mono; lia). lia. }
  assert (g4 : 4 * sg_C s <= g).
  { assert (g * bits_per_cell (d_mcs d) <= g * 10) by (apply N.mul_le_mono_l; lia). clear - H G40. lia. }
  assert (SH : 8 <= bits_per_cell (d_mcs d) * (g / sg_C s)).
  { pose proof (N.div_mod g (sg_C s) ltac:(lia)) as D. pose proof (N.mod_lt g (sg_C s) ltac:(lia)) as ML.
    set (v := g / sg_C s) in *. set (r := g mod sg_C s) in *. clearbody v r. set (b := bits_per_cell (d_mcs d)) in *. clearbody b.
    assert (X : sg_C s * 40 < sg_C s * (b * v + b)).
    { assert (BR : b * r < b * sg_C s) by (apply N.mul_lt_mono_pos_l; lia).
      rewrite D in G40. clear - BR G40. rewrite N.mul_add_distr_r in G40. rewrite N.mul_add_distr_l.
      rewrite (N.mul_comm b v), N.mul_assoc, (N.mul_comm (sg_C s) b). rewrite (N.mul_comm r b) in G40. lia. }
    apply N.mul_lt_mono_pos_l in X; lia. }
  assert (MANY : sg_C s <> 1 -> 48 <= sg_K1 s).
  { intros C1. rewrite (proj2 (N.eqb_neq _ _) C1) in *.
    destruct (t + 24 <=? d_Z d); [contradiction|]. destruct W8 as (W8 & _).
    assert (X : sg_C1 s * sg_K1 s + sg_C2 s * sg_K2 s <= sg_C s * sg_K1 s).
    { rewrite <- W1, N.mul_add_distr_r. apply N.add_le_mono_l. destruct K2B as [->|K2B]; [lia|]. apply N.mul_le_mono_l. lia. }
    rewrite W6 in X.
    assert (Y : (sg_C s - 1) * 2024 < sg_C s * (sg_K1 s - 24)).
    { assert (Y : (sg_C s - 1) * 2024 <= (sg_C s - 1) * (d_Z d - 24)) by (apply N.mul_le_mono_l; lia).
      rewrite N.mul_sub_distr_l. clear - W8 X Y. lia. }
    destruct (N.le_gt_cases 48 (sg_K1 s)) as [K|K]; [assumption|]. exfalso.
    assert (V : sg_C s * (sg_K1 s - 24) <= sg_C s * 23) by (apply N.mul_le_mono_l; lia).
    assert (2 <= sg_C s) by (clear - C1 W1 W2; lia). clear - Y V H. lia. }
  exists s. split; [constructor; unfold fec_of; cbn [f_tb f_bps f_rv f_G f_Z q_N_TB_bits q_mcs q_G q_psdef]; try assumption|].
  - unfold segmentate. cbn [f_tb f_Z]. rewrite A4. reflexivity.
  - rewrite BPS. exact B10.
  - rewrite BPS, N.mul_comm. reflexivity.
  - rewrite BPS. exact SH.
  - clear - g4. lia.
  - split; [split; assumption|exact A3].
  - cbn [q_N_TB_bits q_C]. split; [|reflexivity].
    destruct (blocks_segmentation s t _ A6 A5) as (NE & FA & SM).
    assert (LL : length (lens_of s) = length (blocks_of s)) by (unfold lens_of, blocks_of; rewrite !app_length; lia).
    split; [|split].
    + intros X. rewrite X in LL. destruct (blocks_of s); [congruence|discriminate].
    + unfold lens_of, blocks_of in *. apply Forall_app in FA as (F1 & F2). apply Forall_app. split; assumption.
    + assert (CB : checksum_bits (lens_of s) = checksum_bits (blocks_of s)).
      { rewrite !checksum_length, LL; [reflexivity|exact NE|]. intros X. rewrite X in LL. destruct (blocks_of s); [congruence|discriminate]. }
      rewrite CB, <- SM. unfold lens_of, blocks_of. rewrite !sum_app. lia.
Qed.

(** * Shares *)
Section Shares.
  Variable qm g C : N.
  Hypothesis Q : 0 < qm. Hypothesis HC : 1 <= C.
  Notation G := (qm * g).
  Notation sh := (shares qm G (N.to_nat C)).
  Definition low := qm * (g / C).
  Definition rest_ := g mod C.
  Lemma shares_eq : sh = repeat low (N.to_nat (C - rest_)) ++ repeat (low + qm) (N.to_nat rest_).
  Proof.
    unfold shares, low, rest_. rewrite N2Nat.id. replace (qm * g / qm) with g by (rewrite N.mul_comm, N.div_mul; lia).
    rewrite N2Nat.inj_sub. do 2 f_equal. lia.
  Qed.
  Lemma rest_lt : rest_ < C. Proof. apply N.mod_lt. lia. Qed.
  Lemma shares_length : length sh = N.to_nat C.
  Proof. rewrite shares_eq, app_length, !repeat_length. pose proof rest_lt. lia. Qed.
  Lemma shares_nth i : (i < N.to_nat C)%nat -> nth i sh 0 = if N.of_nat i <? C - rest_ then low else low + qm.
  Proof.
    intros H. rewrite shares_eq. destruct (N.ltb_spec (N.of_nat i) (C - rest_)) as [A|A].
    - rewrite app_nth1 by (rewrite repeat_length; lia). rewrite (nth_indep _ 0 low), nth_repeat by (rewrite repeat_length; lia). reflexivity.
    - rewrite app_nth2; rewrite repeat_length; [|lia]. pose proof rest_lt.
      rewrite (nth_indep _ 0 (low + qm)), nth_repeat by (rewrite repeat_length; lia). reflexivity.
  Qed.
  Lemma firstn_repeat {A} (x : A) n k : firstn k (repeat x n) = repeat x (min k n).
  Proof. revert k. induction n as [|n IH]; intros [|k]; cbn; [reflexivity..|]. rewrite IH. reflexivity. Qed.
  Lemma shares_start k : (k <= N.to_nat C)%nat ->
    sum (firstn k sh) = low * N.of_nat k + qm * (N.of_nat k - (C - rest_)).
  Proof.
    intros H. rewrite shares_eq, firstn_app, repeat_length, !firstn_repeat, sum_app, !sum_repeat. pose proof rest_lt.
    destruct (N.le_gt_cases (N.of_nat k) (C - rest_)) as [A|A].
    - replace (min k (N.to_nat (C - rest_))) with k by lia. replace (min (k - N.to_nat (C - rest_)) (N.to_nat rest_)) with O by lia.
      replace (N.of_nat k - (C - rest_)) with 0 by lia. lia.
    - replace (min k (N.to_nat (C - rest_))) with (N.to_nat (C - rest_)) by lia.
      replace (min (k - N.to_nat (C - rest_)) (N.to_nat rest_)) with (N.to_nat (N.of_nat k - (C - rest_))) by lia.
      rewrite !N2Nat.id. set (a := C - rest_) in *. set (b := N.of_nat k - a) in *.
      replace (N.of_nat k) with (a + b) by lia. lia.
  Qed.
  Lemma shares_sum : sum sh = G.
  Proof.
    rewrite <- (firstn_all sh), shares_length, shares_start by lia. rewrite N2Nat.id. pose proof rest_lt.
    replace (C - (C - rest_)) with rest_ by lia. unfold low, rest_. pose proof (N.div_mod g C ltac:(lia)) as D.
    rewrite D at 3. lia.
  Qed.
  Lemma shares_even : even_split qm G (N.to_nat C) sh.
  Proof.
    split; [exact shares_length|]. split; [exact shares_sum|]. split.
    { intros i j a b L E1 E2.
      assert (J : (j < N.to_nat C)%nat) by (rewrite <- shares_length; apply nth_error_Some; congruence).
      apply nth_error_nth with (d := 0) in E1, E2. subst a b. rewrite !shares_nth by lia.
      destruct (N.ltb_spec (N.of_nat i) (C - rest_)), (N.ltb_spec (N.of_nat j) (C - rest_)); lia. }
    assert (IN : forall x, In x sh -> x = low \/ x = low + qm).
    { intros x H. rewrite shares_eq in H. apply in_app_or in H as [H|H]; apply repeat_spec in H; auto. }
    split.
    - apply Forall_forall. intros x H. apply IN in H as [->| ->]; unfold low.
      + rewrite N.mul_comm. apply N.mod_mul. lia.
      + replace (qm * (g / C) + qm) with ((g / C + 1) * qm) by lia. apply N.mod_mul. lia.
    - intros x y H1 H2. apply IN in H1, H2. lia.
  Qed.
  Lemma ceil_share : rest_ <> 0 -> qm * ((g + (C - 1)) / C) = low + qm.
  Proof.
    intros R. unfold low, rest_ in *. pose proof (N.div_mod g C ltac:(lia)) as D. pose proof (N.mod_lt g C ltac:(lia)) as M.
    set (v := g / C) in *. set (r := g mod C) in *. clearbody v r.
    replace (g + (C - 1)) with ((v + 1) * C + (r - 1)) by (rewrite D; lia).
    rewrite N.div_add_l by lia. rewrite N.div_small by (clear - M R HC; lia).
    rewrite N.add_0_r, N.mul_add_distr_l, N.mul_1_r. reflexivity.
  Qed.
End Shares.

(** * Lengths *)
Section Lens.
  Variables (f : fec_cfg) (s : segm) (g : N).
  Hypothesis H : geom f s g.
  Lemma lens_length : length (lens_of s) = N.to_nat (sg_C s).
  Proof. unfold lens_of. rewrite app_length, !repeat_length. pose proof (gm_C _ _ _ H). lia. Qed.
  Lemma lens_nth i : (i < N.to_nat (sg_C s))%nat -> nth i (lens_of s) 0 = cb_len s (N.of_nat i).
  Proof.
    intros L. unfold lens_of, cb_len. pose proof (gm_C _ _ _ H). destruct (N.ltb_spec (N.of_nat i) (sg_C2 s)) as [A|A].
    - rewrite app_nth1 by (rewrite repeat_length; lia). rewrite (nth_indep _ 0 (sg_K2 s)), nth_repeat by (rewrite repeat_length; lia). reflexivity.
    - rewrite app_nth2; rewrite repeat_length; [|lia].
      rewrite (nth_indep _ 0 (sg_K1 s)), nth_repeat by (rewrite repeat_length; lia). reflexivity.
  Qed.
  Lemma cb_len_bounds i : i < sg_C s -> 40 <= cb_len s i <= 6144 /\ cb_len s i mod 8 = 0.
  Proof.
    intros L. unfold cb_len. pose proof (gm_K1 _ _ _ H). pose proof (gm_K2 _ _ _ H).
    destruct (N.ltb_spec i (sg_C2 s)); lia.
  Qed.
  Lemma cb_len_last : cb_len s (sg_C s - 1) = sg_K1 s.
  Proof.
    unfold cb_len. pose proof (gm_C _ _ _ H). pose proof (gm_C1 _ _ _ H).
    replace (sg_C s - 1 <? sg_C2 s) with false by lia. reflexivity.
  Qed.
  Definition pl (i : N) : N := payload (N.to_nat (sg_C s)) (cb_len s i).
  Lemma pl_rlen i : i < sg_C s -> rlen_of s i = pl i.
  Proof.
    intros L. unfold rlen_of, pl, payload. pose proof (cb_len_bounds i L).
    destruct (N.eqb_spec (sg_C s) 1) as [->|N0]; [reflexivity|].
    replace (N.to_nat (sg_C s) =? 1)%nat with false by lia. rewrite sub32_small by lia. reflexivity.
  Qed.
  Lemma pl_bounds i : i < sg_C s -> 16 <= pl i <= cb_len s i /\ pl i mod 8 = 0 /\ pl i <= 6144 /\ cb_len s i <= pl i + (if sg_C s =? 1 then 0 else 24) .
  Proof.
    intros L. unfold pl, payload. pose proof (cb_len_bounds i L).
    destruct (N.eqb_spec (sg_C s) 1) as [->|N0]; [change (N.to_nat 1 =? 1)%nat with true; lia|].
    replace (N.to_nat (sg_C s) =? 1)%nat with false by lia. lia.
  Qed.
  Lemma payloads_length : length (payloads (lens_of s)) = N.to_nat (sg_C s).
  Proof. unfold payloads. rewrite map_length. apply lens_length. Qed.
  Lemma payloads_nth i : (i < N.to_nat (sg_C s))%nat -> nth i (payloads (lens_of s)) 0 = pl (N.of_nat i).
  Proof.
    intros L. unfold payloads. rewrite (nth_indep _ 0 (payload (length (lens_of s)) 0)) by (rewrite map_length, lens_length; lia).
    rewrite map_nth, lens_length, lens_nth by lia. reflexivity.
  Qed.
  Lemma payloads_sum : sum (payloads (lens_of s)) = f_tb f + 24.
  Proof.
    pose proof (gm_sum _ _ _ H) as SM. pose proof (gm_C _ _ _ H) as CC. pose proof (gm_K1 _ _ _ H). pose proof (gm_K2 _ _ _ H) as K2.
    unfold payloads, lens_of. rewrite map_app, sum_app.
    assert (MR : forall (h : N -> N) x n, map h (repeat x n) = repeat (h x) n).
    { intros h x n. induction n as [|n IH]; cbn; [reflexivity|]. rewrite IH. reflexivity. }
    rewrite !MR, !sum_repeat, !N2Nat.id.
    fold (lens_of s). rewrite lens_length. unfold payload.
    destruct (N.eqb_spec (sg_C s) 1) as [C1|N0].
    - replace (N.to_nat (sg_C s) =? 1)%nat with true by lia. lia.
    - replace (N.to_nat (sg_C s) =? 1)%nat with false by lia. rewrite !N.mul_sub_distr_l.
      assert (sg_C1 s * 24 <= sg_C1 s * sg_K1 s) by (apply N.mul_le_mono_l; lia).
      assert (sg_C2 s * 24 <= sg_C2 s * sg_K2 s).
      { destruct K2 as [->|K2]; [lia|]. apply N.mul_le_mono_l; lia. }
      lia.
  Qed.
  Lemma lens_ascending : ascending (lens_of s).
  Proof.
    intros i j a b L E1 E2.
    assert (J : (j < N.to_nat (sg_C s))%nat) by (rewrite <- lens_length; apply nth_error_Some; congruence).
    apply nth_error_nth with (d := 0) in E1, E2. subst a b. rewrite !lens_nth by lia. unfold cb_len.
    pose proof (gm_K2 _ _ _ H).
    destruct (N.ltb_spec (N.of_nat i) (sg_C2 s)), (N.ltb_spec (N.of_nat j) (sg_C2 s)); lia.
  Qed.
End Lens.

Lemma sum_firstn_S l k : (k < length l)%nat -> sum (firstn (S k) l) = sum (firstn k l) + nth k l 0.
Proof.
  revert k. induction l as [|x l IH]; intros k L; [cbn in L; lia|]. destruct k as [|k].
  - cbn. lia.
  - cbn in L. change (firstn (S (S k)) (x :: l)) with (x :: firstn (S k) l). change (firstn (S k) (x :: l)) with (x :: firstn k l).
    cbn [sum fold_right nth]. change (fold_right N.add 0) with sum. rewrite IH by lia. lia.
Qed.
Lemma sum_firstn_le l k j : (k <= j)%nat -> sum (firstn k l) <= sum (firstn j l).
Proof.
  revert k j. induction l as [|x l IH]; intros [|k] [|j] L; cbn [firstn sum fold_right]; try lia.
  change (fold_right N.add 0) with sum. specialize (IH k j ltac:(lia)). lia.
Qed.
Lemma sum_firstn_all l k : sum (firstn k l) <= sum l.
Proof. revert k. induction l as [|x l IH]; intros [|k]; cbn [firstn sum fold_right]; try lia. change (fold_right N.add 0) with sum. specialize (IH k). lia. Qed.
