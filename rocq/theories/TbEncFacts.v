(** Lemmas on the encoding of a transport block. *)
From Verif Require Import Base PacketSizes PacketSizesSpec PacketSizesFacts TbCodec TbCodecSpec.
Open Scope N_scope.

(** * ceilf *)
Lemma ceilf_exact a b : a < 16777216 -> 0 < b -> b < 16777216 -> ceilf_div a b = Some ((a + (b - 1)) / b).
Proof.
  intros A B B'. unfold ceilf_div.
  replace ((a <? 16777216) && (0 <? b) && (b <? 16777216)) with true by lia.
  pose proof (N.div_mod a b ltac:(lia)) as D. pose proof (N.mod_lt a b ltac:(lia)) as M.
  set (q := a / b) in *. set (r := a mod b) in *. clearbody q r.
  destruct (N.eqb_spec q 0) as [Q|Q].
  - f_equal. subst q. destruct (N.eqb_spec a 0) as [->|].
    + symmetry. apply N.div_small. lia.
    + replace (a + (b - 1)) with (1 * b + (a - 1)) by lia. rewrite N.div_add_l by lia. rewrite N.div_small by lia. lia.
  - f_equal. pose proof (N.log2_spec q ltac:(lia)) as (L1 & L2).
    assert (Q24 : q < 16777216) by nia.
    assert (LG : N.log2 q <= 23). { apply N.log2_le_mono with (b := 16777215) in Q24 as X || idtac. 
      change 23 with (N.log2 16777215). apply N.log2_le_mono. lia. }
    set (l := N.log2 q) in *. clearbody l. rewrite N.pow_succ_r in L2 by lia.
    assert (P : 2 ^ l * 2 ^ (23 - l) = 8388608). { rewrite <- N.pow_add_r. replace (l + (23 - l)) with 23 by lia. reflexivity. }
    set (p := 2 ^ (23 - l)) in *. set (t := 2 ^ l) in *.
    assert (p0 : 0 < p) by nia. clearbody p t.
    assert (Q1 : 8388608 <= q * p) by nia.
    assert (B2 : b < 2 * p). { assert (q * b < 16777216) by nia. assert (q * b < q * (2 * p)) by nia. nia. }
    assert (CE : (a + (b - 1)) / b = if r =? 0 then q else q + 1).
    { destruct (N.eqb_spec r 0).
      - replace (a + (b - 1)) with (q * b + (b - 1)) by nia. rewrite N.div_add_l, N.div_small by lia. lia.
      - replace (a + (b - 1)) with ((q + 1) * b + (r - 1)) by nia. rewrite N.div_add_l, N.div_small by lia. lia. }
    rewrite CE. unfold round_even.
    assert (DV : a * p / b = q * p + r * p / b).
    { replace (a * p) with ((q * p) * b + r * p) by nia. apply N.div_add_l. lia. }
    assert (MD : (a * p) mod b = (r * p) mod b).
    { replace (a * p) with (r * p + (q * p) * b) by nia. apply N.mod_add. lia. }
    rewrite DV, MD.
    destruct (N.eqb_spec r 0) as [R|R].
    + subst r. rewrite N.mul_0_l, N.div_0_l, N.mod_0_l by lia. replace (2 * 0 <? b) with true by lia.
      rewrite N.add_0_r. rewrite N.div_add_l, N.div_small by lia. lia.
    + pose proof (N.div_mod (r * p) b ltac:(lia)) as D2. pose proof (N.mod_lt (r * p) b ltac:(lia)) as M2.
      set (u := r * p / b) in *. set (v := (r * p) mod b) in *. clearbody u v.
      assert (U : u < p).
      { apply N.mul_lt_mono_pos_l with (p := b); [lia|]. assert (r * p <= (b - 1) * p) by (apply N.mul_le_mono_r; lia).
        assert ((b - 1) * p + p = b * p) by (rewrite <- (N.mul_1_l p) at 2; rewrite <- N.mul_add_distr_r; f_equal; lia). lia. }
      assert (X : forall m, q * p < m -> m <= q * p + p -> (m + (p - 1)) / p = q + 1).
      { intros m H1 H2. replace (m + (p - 1)) with ((q + 1) * p + (m - q * p - 1)) by (rewrite N.mul_add_distr_r; set (qp := q * p) in *; clearbody qp; clear - H1 H2 p0; lia).
        rewrite N.div_add_l, N.div_small by lia. lia. }
      assert (Y : u = 0 -> b < 2 * v). { intros ->. rewrite N.mul_0_r in D2. assert (p <= r * p). { rewrite <- (N.mul_1_l p) at 1. apply N.mul_le_mono_r. lia. } lia. }
      destruct (N.eq_dec u 0) as [U0|U0].
      * specialize (Y U0). replace (2 * v <? b) with false by lia. replace (b <? 2 * v) with true by lia. apply X; lia.
      * destruct (2 * v <? b); [apply X; lia|]. destruct (b <? 2 * v); [apply X; lia|].
        destruct (N.even (q * p + u)); apply X; lia.
Qed.

(** * Buffers *)
Lemma slice_ok {A} (l : list A) pos n : (n = 0 \/ pos + n <= length l)%nat -> slice l pos n = Ok (firstn n (skipn pos l)).
Proof. intros H. unfold slice. replace ((n =? 0)%nat || (pos + n <=? length l)%nat) with true by lia. reflexivity. Qed.
Lemma slice_length {A} (l : list A) pos n : (pos + n <= length l)%nat -> length (firstn n (skipn pos l)) = n.
Proof. intros H. rewrite firstn_length, skipn_length. lia. Qed.
Lemma nth_firstn' {A} (l : list A) n i d : (i < n)%nat -> nth i (firstn n l) d = nth i l d.
Proof.
  revert l i. induction n as [|n IH]; intros l i H; [lia|]. destruct l as [|x l]; [reflexivity|]. destruct i; [reflexivity|].
  cbn. apply IH. lia.
Qed.
Lemma nth_skipn' {A} (l : list A) n i d : nth i (skipn n l) d = nth (n + i) l d.
Proof. revert l. induction n as [|n IH]; intros l; [reflexivity|]. destruct l; [destruct i; reflexivity|]. cbn. apply IH. Qed.
Lemma blit_ok {A} (l : list A) pos x : (pos + length x <= length l)%nat ->
  exists l', blit l pos x = Ok l' /\ length l' = length l /\
    forall i d, nth i l' d = if ((pos <=? i) && (i <? pos + length x))%nat then nth (i - pos) x d else nth i l d.
Proof.
  intros H. destruct x as [|x0 x'].
  - exists l. cbn [blit length]. split; [reflexivity|]. split; [reflexivity|]. intros i d.
    replace ((pos <=? i)%nat && (i <? pos + 0)%nat) with false by lia. reflexivity.
  - set (x := x0 :: x') in *.
    exists (firstn pos l ++ x ++ skipn (pos + length x) l). split.
    { unfold blit. subst x. replace (pos + length (x0 :: x') <=? length l)%nat with true by lia. reflexivity. }
    assert (FP : length (firstn pos l) = pos) by (rewrite firstn_length; lia).
    split. { rewrite !app_length, FP, skipn_length. lia. }
    intros i d. destruct (Nat.leb_spec pos i) as [P|P].
    + rewrite app_nth2 by lia. rewrite FP. destruct (Nat.ltb_spec i (pos + length x)) as [Q|Q]; cbn [andb].
      * rewrite app_nth1 by lia. reflexivity.
      * rewrite app_nth2 by lia. rewrite nth_skipn'. f_equal. lia.
    + cbn [andb]. rewrite app_nth1 by lia. apply nth_firstn'. lia.
Qed.
Lemma xor_length x y : length (xor_bits x y) = Nat.min (length x) (length y).
Proof. unfold xor_bits. rewrite map_length, combine_length. reflexivity. Qed.
Lemma xor_nth x y i : (i < length x)%nat -> (i < length y)%nat -> nth i (xor_bits x y) false = xorb (nth i x false) (nth i y false).
Proof.
  revert y i. induction x as [|a x IH]; intros [|b y] [|i]; cbn; intros H1 H2; try lia; [reflexivity|].
  apply IH; lia.
Qed.
Lemma xor_at_ok d pos s : (pos + length s <= length d)%nat ->
  exists d', xor_at d pos s = Ok d' /\ length d' = length d /\
    forall i, nth i d' false = if ((pos <=? i) && (i <? pos + length s))%nat then xorb (nth i d false) (nth (i - pos) s false) else nth i d false.
Proof.
  intros H. unfold xor_at. rewrite slice_ok by lia. cbn [bind].
  pose proof (slice_length d pos (length s) H) as SL.
  assert (XL : length (xor_bits (firstn (length s) (skipn pos d)) s) = length s) by (rewrite xor_length; lia).
  destruct (blit_ok d pos (xor_bits (firstn (length s) (skipn pos d)) s)) as (d' & E & L & N0); [lia|].
  exists d'. split; [exact E|]. split; [exact L|]. intros i. rewrite N0, XL.
  destruct ((pos <=? i)%nat && (i <? pos + length s)%nat) eqn:C; [|reflexivity].
  rewrite xor_nth by lia. rewrite nth_firstn', nth_skipn' by lia. do 2 f_equal. lia.
Qed.

(** * Scrambling *)
Lemma scramble_ok c d n off : (8 <= n)%nat -> (off + n <= length c)%nat -> (off + n <= length d)%nat -> (length d mod 8 = 0)%nat ->
  exists d', scramble c d (Z.of_nat n) (Z.of_nat off) = Ok d' /\ length d' = length d /\
    forall i, nth i d' false =
      if ((off <=? i) && (i <? off + n))%nat then xorb (nth i d false) (nth i c false)
      else if ((off + n <=? i) && (i <? 8 * ((off + n + 7) / 8)))%nat then false
      else nth i d false.
Proof.
  intros N8 HC HD D8. unfold scramble.
  rewrite Z.rem_mod_nonneg, Z.quot_div_nonneg by lia.
  set (r := (off mod 8)%nat). assert (R : (r < 8)%nat) by (subst r; lia).
  replace (Z.of_nat off mod 8)%Z with (Z.of_nat r) by (subst r; lia).
  set (h := (8 - r)%nat).
  assert (STEP : exists d1 len1 off1,
     (if (0 <? Z.of_nat r)%Z
      then do s <- slice c (Z.to_nat (Z.of_nat off)) (Z.to_nat (8 - Z.of_nat r)%Z) ;
           do d1 <- xor_at d (Z.to_nat (Z.of_nat off)) s ;
           Ok (d1, Z.of_nat n - (8 - Z.of_nat r), (Z.of_nat off / 8 + 1) * 8)%Z
      else Ok (d, Z.of_nat n, Z.of_nat off)) = Ok (d1, Z.of_nat len1, Z.of_nat off1) /\
     (off1 + len1 = off + n /\ off1 mod 8 = 0 /\ off <= off1)%nat /\ length d1 = length d /\
     forall i, nth i d1 false = if ((off <=? i) && (i <? off1))%nat then xorb (nth i d false) (nth i c false) else nth i d false).
  { destruct (Z.ltb_spec 0 (Z.of_nat r)) as [P|P].
    - rewrite Nat2Z.id. replace (Z.to_nat (8 - Z.of_nat r)) with h by (subst h; lia).
      rewrite slice_ok by (subst h; lia). cbn [bind].
      pose proof (slice_length c off h ltac:(subst h; lia)) as SL.
      destruct (xor_at_ok d off (firstn h (skipn off c))) as (d1 & E & L & N0); [lia|]. rewrite E. cbn [bind].
      exists d1, (n - h)%nat, (off + h)%nat. split; [f_equal; f_equal; [f_equal|]; subst h r; lia|].
      split; [subst h r; lia|]. split; [exact L|]. intros i. rewrite N0, SL.
      destruct ((off <=? i)%nat && (i <? off + h)%nat) eqn:C; [|reflexivity].
      rewrite nth_firstn', nth_skipn' by lia. do 2 f_equal. lia.
    - exists d, n, off. split; [reflexivity|]. split; [subst r; lia|]. split; [reflexivity|]. intros i.
      replace ((off <=? i)%nat && (i <? off)%nat) with false by lia. reflexivity. }
  destruct STEP as (d1 & len1 & off1 & -> & (O1 & O2 & O3) & L1 & N1). cbn [bind].
  rewrite !Z.quot_div_nonneg, Z.rem_mod_nonneg by lia.
  replace (8 * Z.to_nat (Z.of_nat off1 / 8))%nat with off1 by lia.
  set (b := (8 * (len1 / 8))%nat). replace (8 * Z.to_nat (Z.of_nat len1 / 8))%nat with b by (subst b; lia).
  rewrite slice_ok by (subst b; lia). cbn [bind].
  pose proof (slice_length c off1 b ltac:(subst b; lia)) as SL.
  destruct (xor_at_ok d1 off1 (firstn b (skipn off1 c))) as (d2 & E & L2 & N2); [subst b; lia|]. rewrite E. cbn [bind].
  assert (N2' : forall i, nth i d2 false = if ((off <=? i) && (i <? off1 + b))%nat then xorb (nth i d false) (nth i c false) else nth i d false).
  { intros i. rewrite N2, SL, N1.
    destruct ((off1 <=? i)%nat && (i <? off1 + b)%nat) eqn:C.
    - replace ((off <=? i)%nat && (i <? off1)%nat) with false by lia. replace ((off <=? i)%nat && (i <? off1 + b)%nat) with true by lia.
      rewrite nth_firstn', nth_skipn' by lia. do 2 f_equal. lia.
    - replace ((off <=? i)%nat && (i <? off1 + b)%nat) with ((off <=? i)%nat && (i <? off1)%nat) by lia. reflexivity. }
  clear N1 N2 E. set (t := (len1 mod 8)%nat). assert (T : (t < 8)%nat) by (subst t; lia).
  assert (BT : (b + t = len1)%nat) by (subst b t; lia). assert (B8 : (b mod 8 = 0)%nat) by (subst b; lia). clearbody b.
  replace (Z.of_nat len1 mod 8)%Z with (Z.of_nat t) by (subst t; lia). clearbody t.
  destruct (Z.ltb_spec 0 (Z.of_nat t)) as [P|P].
  - rewrite Nat2Z.id. replace (8 * Z.to_nat ((Z.of_nat off + Z.of_nat n) / 8))%nat with (off1 + b)%nat by lia.
    rewrite !slice_ok by lia. cbn [bind].
    pose proof (slice_length d2 (off1 + b) t ltac:(lia)) as S1. pose proof (slice_length c (off1 + b) t ltac:(lia)) as S2.
    set (x := xor_bits _ _). assert (XL : length x = t) by (subst x; rewrite xor_length; lia).
    destruct (blit_ok d2 (off1 + b) (x ++ repeat false (8 - t))) as (d3 & E & L3 & N3).
    { rewrite app_length, repeat_length, XL, L2, L1. lia. }
    exists d3. split; [exact E|]. split; [lia|]. intros i. rewrite N3, app_length, repeat_length, XL.
    destruct ((off1 + b <=? i)%nat && (i <? off1 + b + (t + (8 - t)))%nat) eqn:C.
    + destruct ((off <=? i)%nat && (i <? off + n)%nat) eqn:C2.
      * rewrite app_nth1 by lia. subst x. rewrite xor_nth by lia. rewrite !nth_firstn', !nth_skipn' by lia.
        replace (off1 + b + (i - (off1 + b)))%nat with i by lia. rewrite N2'.
        replace ((off <=? i)%nat && (i <? off1 + b)%nat) with false by lia. reflexivity.
      * replace ((off + n <=? i)%nat && (i <? 8 * ((off + n + 7) / 8))%nat) with true by lia.
        rewrite app_nth2 by lia. rewrite nth_repeat. reflexivity.
    + rewrite N2'. 
      replace ((off <=? i)%nat && (i <? off + n)%nat) with ((off <=? i)%nat && (i <? off1 + b)%nat) by lia.
      destruct ((off <=? i)%nat && (i <? off1 + b)%nat) eqn:C3; [reflexivity|].
      replace ((off + n <=? i)%nat && (i <? 8 * ((off + n + 7) / 8))%nat) with false by lia. reflexivity.
  - exists d2. split; [reflexivity|]. split; [lia|]. intros i. rewrite N2'.
    replace (off1 + b)%nat with (off + n)%nat by lia.
    destruct ((off <=? i)%nat && (i <? off + n)%nat); [reflexivity|].
    replace ((off + n <=? i)%nat && (i <? 8 * ((off + n + 7) / 8))%nat) with false by lia. reflexivity.
Qed.
