From Verif Require Import Base IntHelpers IntHelpersSpec.
From Coq Require Import Znumtheory.
Open Scope Z_scope.

Lemma in_signed_iff w z : in_signed w z = true <-> - 2 ^ (Z.of_N w - 1) <= z < 2 ^ (Z.of_N w - 1).
Proof. unfold in_signed. lia. Qed.
Lemma sgn_ok w z : in_signed w z = true -> sgn w z = Ok z.
Proof. unfold sgn. now intros ->. Qed.
Lemma sgn_inv w z r : sgn w z = Ok r -> r = z /\ in_signed w z = true.
Proof. unfold sgn. destruct in_signed; intros E; [injection E as <-; auto|discriminate]. Qed.
Lemma half_pos w : (0 < w)%N -> 0 < 2 ^ (Z.of_N w - 1).
Proof. intros. apply Z.pow_pos_nonneg; lia. Qed.

Lemma quot_abs_le x m : m <> 0 -> Z.abs (Z.quot x m) <= Z.abs x.
Proof.
  intros H. pose proof (Z.quot_abs x m H) as E. rewrite <- E.
  rewrite Z.quot_div_nonneg by lia. apply Z.div_le_upper_bound; nia.
Qed.
(** quot towards zero, spelled out *)
Lemma quot_pos x m : 0 <= x -> 0 < m -> exists r, x = m * Z.quot x m + r /\ 0 <= r < m.
Proof. intros. exists (Z.rem x m). split; [apply Z.quot_rem'|]. pose proof (Z.rem_bound_pos x m ltac:(lia) ltac:(lia)). lia. Qed.
Lemma quot_neg x m : x <= 0 -> 0 < m -> exists r, x = m * Z.quot x m - r /\ 0 <= r < m.
Proof.
  intros. exists (- Z.rem x m). split; [pose proof (Z.quot_rem' x m); lia|].
  pose proof (Z.rem_bound_pos (-x) m ltac:(lia) ltac:(lia)) as B. rewrite Z.rem_opp_l' in B. lia.
Qed.

Lemma div_gap m k a b : 0 < m -> k * m <= a * m + b -> b < m -> k <= a.
Proof. intros. nia. Qed.

(** nearest from a distance bound *)
Lemma nearest_intro x y q : y <> 0 -> 2 * Z.abs (x - q * y) <= Z.abs y ->
  (2 * Z.abs (x - q * y) = Z.abs y -> Z.abs x <= Z.abs (q * y)) -> is_nearest x y q.
Proof.
  intros Hy D T. split.
  - intros p. destruct (Z.eq_dec p q) as [->|N]; [lia|].
    assert (1 <= Z.abs (p - q)) by lia.
    assert (Z.abs y <= Z.abs ((p - q) * y)) by (rewrite Z.abs_mul; nia).
    replace (x - p * y) with ((x - q * y) - (p - q) * y) by ring. lia.
  - intros p E N.
    assert (Z.abs y <= Z.abs ((p - q) * y)) by (rewrite Z.abs_mul; assert (1 <= Z.abs (p - q)) by lia; nia).
    replace (x - p * y) with ((x - q * y) - (p - q) * y) in E by ring.
    assert (2 * Z.abs (x - q * y) = Z.abs y) as K by lia. specialize (T K).
    assert (Hq : q <> 0) by (intros ->; lia).
    assert (Z.abs y <= Z.abs (q * y)) by (rewrite Z.abs_mul; assert (1 <= Z.abs q) by lia; nia).
    replace (p * y) with (q * y + (p - q) * y) by ring. lia.
Qed.

Lemma half_odd y : 0 <= y -> y = 2 * (y / 2) \/ y = 2 * (y / 2) + 1.
Proof. intros. pose proof (Z.div_mod y 2 ltac:(lia)). pose proof (Z.mod_pos_bound y 2 ltac:(lia)). lia. Qed.

(** The core computation on magnitudes. *)
Lemma round_pos x y : 0 <= x -> 0 < y -> is_nearest x y ((x + y / 2) / y).
Proof.
  intros Hx Hy. pose proof (Z.div_mod (x + y / 2) y ltac:(lia)) as E.
  pose proof (Z.mod_pos_bound (x + y / 2) y ltac:(lia)) as B. set (q := (x + y / 2) / y) in *.
  destruct (half_odd y ltac:(lia)) as [P|P]; apply nearest_intro; try nia.
Qed.
Lemma nearest_opp_l x y q : is_nearest x y q -> is_nearest (- x) y (- q).
Proof.
  intros [A B]. split.
  - intros p. specialize (A (- p)). replace (- x - - q * y) with (- (x - q * y)) by ring.
    replace (- x - p * y) with (- (x - - p * y)) by ring. rewrite !Z.abs_opp. exact A.
  - intros p E N. specialize (B (- p)). replace (- x - - q * y) with (- (x - q * y)) in E by ring.
    replace (- x - p * y) with (- (x - - p * y)) in E by ring. rewrite !Z.abs_opp in E.
    specialize (B E ltac:(lia)). replace (- q * y) with (- (q * y)) by ring. replace (p * y) with (- (- p * y)) by ring.
    rewrite !Z.abs_opp. exact B.
Qed.
Lemma nearest_opp_r x y q : is_nearest x y q -> is_nearest x (- y) (- q).
Proof.
  intros [A B]. split.
  - intros p. specialize (A (- p)). replace (- q * - y) with (q * y) by ring. replace (p * - y) with (- p * y) by ring. exact A.
  - intros p E N. specialize (B (- p)). replace (- q * - y) with (q * y) in * by ring.
    replace (p * - y) with (- p * y) in * by ring. apply B; [exact E|lia].
Qed.

Definition round_z (x y : Z) : Z := Z.quot (x + Z.quot (if Bool.eqb (x <? 0) (y <? 0) then y else - y) 2) y.
Lemma quot_half_opp y : Z.quot (- y) 2 = - Z.quot y 2.
Proof. apply Z.quot_opp_l. lia. Qed.

Lemma round_z_nearest x y : y <> 0 -> is_nearest x y (round_z x y).
Proof.
  intros Hy. unfold round_z. destruct (x <? 0) eqn:Ex, (y <? 0) eqn:Ey; cbn [Bool.eqb].
  - (* both negative *)
    replace (Z.quot (x + Z.quot y 2) y) with ((- x + (- y) / 2) / (- y)).
    { replace x with (- - x) at 1 by ring. replace y with (- - y) at 1 by ring.
      replace ((- x + - y / 2) / - y) with (- - ((- x + - y / 2) / - y)) by ring.
      apply nearest_opp_l, nearest_opp_r, round_pos; lia. }
    rewrite <- (Z.quot_div_nonneg (- y) 2) by lia. rewrite quot_half_opp.
    replace (- x + - Z.quot y 2) with (- (x + Z.quot y 2)) by ring.
    rewrite <- Z.quot_div_nonneg.
    + now rewrite Z.quot_opp_opp by lia.
    + assert (Z.quot y 2 <= 0) by (rewrite <- (Z.opp_involutive y), quot_half_opp; pose proof (Z.quot_pos (- y) 2); lia). lia.
    + lia.
  - replace (Z.quot (x + Z.quot (- y) 2) y) with (- ((- x + y / 2) / y)).
    { replace x with (- - x) at 1 by ring. apply nearest_opp_l, round_pos; lia. }
    rewrite quot_half_opp, <- (Z.quot_div_nonneg y 2) by lia.
    replace (x + - Z.quot y 2) with (- (- x + Z.quot y 2)) by ring. rewrite Z.quot_opp_l by lia. f_equal.
    symmetry. apply Z.quot_div_nonneg; [|lia]. pose proof (Z.quot_pos y 2). lia.
  - replace (Z.quot (x + Z.quot (- y) 2) y) with (- ((x + (- y) / 2) / (- y))).
    { replace y with (- - y) at 1 by ring. apply nearest_opp_r, round_pos; lia. }
    rewrite (Z.quot_div_nonneg (- y) 2) by lia.
    rewrite <- (Z.quot_div_nonneg _ (- y)); [| |lia].
    + rewrite Z.quot_opp_r by lia. lia.
    + pose proof (Z.div_pos (- y) 2). lia.
  - rewrite (Z.quot_div_nonneg y 2) by lia. rewrite Z.quot_div_nonneg; [apply round_pos; lia| |lia].
    pose proof (Z.div_pos y 2). lia.
Qed.

Lemma round_integer_ok w x y r : round_integer w x y = Ok r -> y <> 0 /\ r = round_z x y.
Proof.
  unfold round_integer, round_z. intros E.
  set (s := if Bool.eqb (x <? 0) (y <? 0) then y else - y).
  assert (K : bind (if Bool.eqb (x <? 0) (y <? 0) then Ok y else sgn w (- y)) (fun s => do a <- sgn w (x + Z.quot s 2); if y =? 0 then Oob else sgn w (Z.quot a y)) = Ok r -> bind (sgn w (x + Z.quot s 2)) (fun a => if y =? 0 then Oob else sgn w (Z.quot a y)) = Ok r).
  { subst s. destruct Bool.eqb; cbn [bind]; [auto|]. unfold sgn at 1. destruct in_signed; cbn [bind]; [auto|discriminate]. }
  specialize (K E). clear E. unfold sgn at 1 in K. destruct (in_signed w (x + Z.quot s 2)); [|discriminate]. cbn [bind] in K.
  destruct (y =? 0) eqn:Ey; [discriminate|]. apply sgn_inv in K. split; [lia|tauto].
Qed.
Lemma round_integer_def w x y : y <> 0 -> Z.abs x + Z.abs y < 2 ^ (Z.of_N w - 1) ->
  round_integer w x y = Ok (round_z x y).
Proof.
  intros H0 H. unfold round_integer, round_z.
  assert (S : (if Bool.eqb (x <? 0) (y <? 0) then Ok y else sgn w (- y)) = Ok (if Bool.eqb (x <? 0) (y <? 0) then y else - y)).
  { destruct Bool.eqb eqn:E; [reflexivity|]. apply sgn_ok, in_signed_iff. lia. }
  rewrite S. cbn [bind]. set (s := if Bool.eqb (x <? 0) (y <? 0) then y else - y).
  assert (A : Z.abs s = Z.abs y) by (subst s; destruct Bool.eqb; lia).
  pose proof (quot_abs_le s 2 ltac:(lia)). rewrite sgn_ok by (apply in_signed_iff; lia). cbn [bind].
  destruct (y =? 0) eqn:Ey; [lia|]. apply sgn_ok, in_signed_iff.
  pose proof (quot_abs_le (x + Z.quot s 2) y H0). lia.
Qed.

Lemma mult_leq_val w x m : in_signed w x = true -> 1 <= m -> multiple_leq w x m = Ok (Z.quot x m * m).
Proof.
  intros Hx Hm. unfold multiple_leq. replace (1 <=? m) with true by lia. cbn [guard]. apply in_signed_iff in Hx.
  assert (A : - 2 ^ (Z.of_N w - 1) <= Z.quot x m < 2 ^ (Z.of_N w - 1)).
  { pose proof (quot_abs_le x m ltac:(lia)). destruct (Z_le_gt_dec 0 x); [lia|].
    destruct (quot_neg x m ltac:(lia) ltac:(lia)) as (r & E & B). assert (Z.quot x m <= 0) by nia. lia. }
  rewrite sgn_ok by (now apply in_signed_iff). cbn [bind]. apply sgn_ok, in_signed_iff.
  destruct (Z_le_gt_dec 0 x).
  - destruct (quot_pos x m ltac:(lia) ltac:(lia)) as (r & E & B). assert (0 <= Z.quot x m) by (apply Z.quot_pos; lia). nia.
  - destruct (quot_neg x m ltac:(lia) ltac:(lia)) as (r & E & B). assert (Z.quot x m <= 0) by nia. nia.
Qed.

(** Divisor bounds *)
Lemma mult_below_unique x m a b : is_mult_below x m a -> is_mult_below x m b -> a = b.
Proof. intros (D1 & L1 & M1) (D2 & L2 & M2). pose proof (M1 b D2 L2). pose proof (M2 a D1 L1). lia. Qed.

Lemma quot_below x m : 0 <= x -> 1 <= m -> is_mult_below x m (Z.quot x m * m).
Proof.
  intros Hx Hm. destruct (quot_pos x m ltac:(lia) ltac:(lia)) as (r & E & B). split; [exists (Z.quot x m); ring|].
  split; [lia|]. intros k (c & ->) K. assert (c <= Z.quot x m) by nia. nia.
Qed.
Lemma quot_above x m : x <= 0 -> 1 <= m -> is_mult_above x m (Z.quot x m * m).
Proof.
  intros Hx Hm. destruct (quot_neg x m ltac:(lia) ltac:(lia)) as (r & E & B). split; [exists (Z.quot x m); ring|].
  split; [lia|]. intros k (c & ->) K. assert (Z.quot x m <= c) by nia. nia.
Qed.
Lemma quot_above_next x m : 0 <= x -> 1 <= m -> Z.quot x m * m < x -> is_mult_above x m (Z.quot x m * m + m).
Proof.
  intros Hx Hm H. destruct (quot_pos x m ltac:(lia) ltac:(lia)) as (r & E & B). split; [exists (Z.quot x m + 1); ring|].
  split; [lia|]. intros k (c & ->) K. assert (Z.quot x m + 1 <= c) by nia. nia.
Qed.

Lemma mult_geq_val w x m : in_signed w x = true -> 1 <= m ->
  (0 <= x -> in_signed w (x + m - 1) = true) ->
  exists l, multiple_geq w x m = Ok l /\ is_mult_above x m l.
Proof.
  intros Hx Hm Hr. unfold multiple_geq. rewrite mult_leq_val by assumption. cbn [bind].
  destruct (Z.quot x m * m <? x) eqn:L.
  - assert (0 <= x). { destruct (Z_le_gt_dec 0 x); [auto|]. pose proof (quot_above x m ltac:(lia) Hm) as (_ & K & _). lia. }
    pose proof (quot_above_next x m H Hm ltac:(lia)) as A. exists (Z.quot x m * m + m). split; [|exact A].
    apply sgn_ok, in_signed_iff. specialize (Hr H). apply in_signed_iff in Hr. apply in_signed_iff in Hx.
    destruct A as (_ & A & _). lia.
  - exists (Z.quot x m * m). split; [reflexivity|]. destruct (Z_le_gt_dec 0 x).
    + pose proof (quot_below x m l Hm) as (D & L1 & M). split; [exact D|]. split; [lia|]. intros. lia.
    + apply quot_above; lia.
Qed.

Open Scope N_scope.
Lemma ceil_exact w x y : x < 2 ^ w -> y < 2 ^ w -> 0 < y -> x + y - 1 < 2 ^ w ->
  exists q, ceil_divide_integer w x y = Ok q /\ is_ceil x y q.
Proof.
  intros Hx Hy Y H. unfold ceil_divide_integer. replace (y =? 0) with false by lia.
  replace (x + y + (2 ^ w - 1)) with (x + y - 1 + 1 * 2 ^ w) by lia.
  rewrite N.mod_add, N.mod_small by lia. eexists. split; [reflexivity|].
  pose proof (N.div_mod (x + y - 1) y ltac:(lia)). pose proof (N.mod_lt (x + y - 1) y ltac:(lia)).
  set (q := (x + y - 1) / y) in *. split; [nia|]. intros p Hp. nia.
Qed.
Lemma ceil_wraps w x y : x < 2 ^ w -> y < 2 ^ w -> 2 ^ w <= x + y - 1 ->
  ceil_divide_integer w x y = Ok 0 /\ ~ is_ceil x y 0.
Proof.
  intros Hx Hy H. unfold ceil_divide_integer. replace (y =? 0) with false by lia. split.
  - replace (x + y + (2 ^ w - 1)) with (x + y - 1 - 2 ^ w + 2 * 2 ^ w) by lia.
    rewrite N.mod_add, N.mod_small by lia. rewrite N.div_small by lia. reflexivity.
  - intros (A & _). lia.
Qed.

Lemma round_u_exact w x y : 0 < y -> x + y / 2 < 2 ^ w ->
  exists q, round_integer_u w x y = Ok q /\ is_nearest (Z.of_N x) (Z.of_N y) (Z.of_N q).
Proof.
  intros Y H. unfold round_integer_u. replace (y =? 0) with false by lia. rewrite N.mod_small by lia.
  eexists. split; [reflexivity|]. rewrite N2Z.inj_div, N2Z.inj_add, N2Z.inj_div. apply round_pos; lia.
Qed.

Lemma shifted_one_val w i : (i < 32)%nat -> (N.of_nat i < w) -> (w <= 32 \/ (i < 31)%nat) -> shifted_one w i = Ok (2 ^ N.of_nat i).
Proof.
  intros Hi Hw H. unfold shifted_one. destruct (i <? 31)%nat eqn:E.
  - rewrite N.mod_small by (apply N.pow_lt_mono_r; lia). reflexivity.
  - assert (i = 31)%nat by lia. subst i. assert (w = 32) by lia. subst w. reflexivity.
Qed.
Lemma bitmask_from_val w k i r : (i + k <= 32)%nat -> N.of_nat (i + k) <= w -> (w <= 32 \/ (i + k <= 31)%nat) ->
  bitmask_from w k i r = Ok (N.lor r (N.shiftl (N.ones (N.of_nat k)) (N.of_nat i))).
Proof.
  revert i r. induction k as [|k IH]; intros i r H1 H2 H3.
  - cbn [bitmask_from]. change (N.ones (N.of_nat 0)) with 0. rewrite N.shiftl_0_l, N.lor_0_r. reflexivity.
  - cbn [bitmask_from]. rewrite shifted_one_val by lia. cbn [bind]. rewrite IH by lia. f_equal.
    rewrite <- N.lor_assoc. f_equal. apply N.bits_inj. intros j. rewrite N.lor_spec.
    rewrite N.pow2_bits_eqb. destruct (N.ltb_spec j (N.of_nat i)) as [L|L].
    + rewrite !N.shiftl_spec_low by lia. lia.
    + rewrite (N.shiftl_spec_high' _ (N.of_nat i)) by lia.
      destruct (N.eq_dec j (N.of_nat i)) as [->|J].
      * rewrite N.eqb_refl, N.sub_diag. cbn [orb]. symmetry. apply N.ones_spec_low. lia.
      * rewrite N.shiftl_spec_high' by lia. replace (N.of_nat i =? j) with false by lia. cbn [orb].
        destruct (N.ltb_spec j (N.of_nat i + N.of_nat (S k))).
        -- rewrite !N.ones_spec_low by lia. reflexivity.
        -- rewrite !N.ones_spec_high by lia. reflexivity.
Qed.
