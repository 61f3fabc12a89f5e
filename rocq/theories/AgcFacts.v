From Verif Require Import Base Agc AgcSpec.
Open Scope Z_scope.

(** ** Steps *)
Lemma agc_new_inv c c' : agc_new c = Ok c' -> c' = c /\ (0 < g_antennas c <= 8)%nat /\ 0 < g_multiple c /\
  (exists k, g_min c = k * g_multiple c /\ 0 < k) /\ (exists k, g_max c = k * g_multiple c) /\ g_min c <= g_max c.
Proof.
  unfold agc_new, is_positive_multiple. intros H.
  destruct (_ && _) eqn:A; [cbn [guard] in H|discriminate]. apply andb_prop in A as [A1 A2].
  destruct (_ <=? _) eqn:B1 in H; [cbn [guard] in H|discriminate]. destruct (_ <=? _) eqn:B2 in H; [cbn [guard] in H|discriminate].
  destruct (_ <=? _) eqn:B3 in H; [cbn [guard] in H|discriminate].
  destruct (0 <? g_max c) eqn:C1 in H; [cbn [guard] in H|discriminate]. destruct (0 <? g_multiple c) eqn:C2 in H; [cbn [guard bind] in H|discriminate].
  destruct (g_max c mod g_multiple c =? 0) eqn:C3 in H; [cbn [guard] in H|discriminate].
  destruct (0 <? g_min c) eqn:C4 in H; [cbn [guard bind] in H|discriminate].
  destruct (g_min c mod g_multiple c =? 0) eqn:C5 in H; [cbn [guard] in H|discriminate]. injection H as <-.
  apply Nat.ltb_lt in A1. apply Nat.leb_le in A2. rewrite Z.ltb_lt in *. rewrite Z.leb_le in *. rewrite Z.eqb_eq in *.
  split; [reflexivity|]. split; [lia|]. split; [assumption|]. split; [|split; [|assumption]].
  - apply Z.mod_divide in C5 as [k K]; [|lia]. exists k. split; [exact K|]. nia.
  - apply Z.mod_divide in C3 as [k K]; [|lia]. exists k. exact K.
Qed.

Section Quantize.
Variable c : agc_config.
Hypothesis M : 0 < g_multiple c.
Hypothesis MIN : exists k, g_min c = k * g_multiple c /\ 0 < k.
Hypothesis MAX : exists k, g_max c = k * g_multiple c.
Hypothesis MM : g_min c <= g_max c.
Lemma quantize_ok x : step_for c x (quantize c x).
Proof using All.
  destruct MIN as (k1 & E1 & K1). destruct MAX as (k2 & E2). unfold step_for, quantize, round_div, dead. set (m := g_multiple c) in *.
  set (k := (2 * Z.abs x + m) / (2 * m)).
  assert (KB : 2 * m * k <= 2 * Z.abs x + m < 2 * m * k + 2 * m).
  { unfold k. pose proof (Z.div_mod (2 * Z.abs x + m) (2 * m)) as D. pose proof (Z.mod_pos_bound (2 * Z.abs x + m) (2 * m)). nia. }
  assert (K0 : 0 <= k) by (unfold k; apply Z.div_pos; lia).
  assert (KK : k <= k1 - 1 \/ k1 <= k) by lia. assert (KK2 : k <= k2 \/ k2 + 1 <= k) by lia.
  assert (K12 : k1 <= k2) by (rewrite E1, E2 in MM; nia).
  assert (P1 : k <= k1 - 1 -> k * m <= k1 * m - m) by nia. assert (P2 : k1 <= k -> k1 * m <= k * m) by nia.
  assert (P3 : k <= k2 -> k * m <= k2 * m) by nia. assert (P4 : k2 + 1 <= k -> k2 * m + m <= k * m) by nia.
  assert (P5 : m <= k1 * m) by nia.
  rewrite E1, E2 in *. set (km := k * m) in *. set (a := k1 * m) in *. set (b := k2 * m) in *.
  replace (2 * m * k) with (2 * km) in KB by (unfold km; lia).
  assert (SG : Z.sgn x * k * m = Z.sgn x * km) by (unfold km; ring). rewrite SG.
  assert (X : (0 < x /\ Z.sgn x = 1 /\ Z.abs x = x) \/ (x = 0 /\ Z.sgn x = 0 /\ Z.abs x = 0) \/ (x < 0 /\ Z.sgn x = -1 /\ Z.abs x = - x))
    by (clear; lia).
  assert (KM : km = k * m) by reflexivity. assert (B2 : b = k2 * m) by reflexivity. clearbody k m km a b. clear E1 E2 SG.
  destruct X as [(X & S & AX)|[(X & S & AX)|(X & S & AX)]]; rewrite S; rewrite AX in *.
  - rewrite Z.mul_1_l. destruct (Z.ltb_spec (- a) km); [|lia]. cbn [andb]. destruct (Z.ltb_spec km a).
    + split; [reflexivity|]. intros D. destruct D. destruct KK; [specialize (P1 ltac:(assumption))|specialize (P2 ltac:(assumption))]; lia.
    + destruct (Z.ltb_spec b km).
      * split; [intros D; destruct KK2; [specialize (P3 ltac:(assumption))|specialize (P4 ltac:(assumption))]; lia|].
        intros _. destruct KK2; [specialize (P3 ltac:(assumption)); lia|specialize (P4 ltac:(assumption))].
        split; [clear - X P5 H H0 H1 M MM KB; nia|]. split; [clear - X P5 H H0 H1 M MM KB; lia|]. split; [exists k2; exact B2|]. right. lia.
      * destruct (Z.ltb_spec km (- b)); [lia|]. split; [intros D; lia|]. intros _. split; [clear - X P5 H H0 H1 M MM KB; nia|]. split; [clear - X P5 H H0 H1 M MM KB; lia|]. split; [exists k; exact KM|]. left. lia.
  - rewrite Z.mul_0_l. replace (- a <? 0) with true by lia. replace (0 <? a) with true by lia. cbn [andb]. split; [reflexivity|].
    intros D. destruct D. lia.
  - replace (-1 * km) with (- km) by lia. destruct (Z.ltb_spec (- a) (- km)); cbn [andb].
    + destruct (Z.ltb_spec (- km) a); [|lia].
      split; [reflexivity|]. intros D. destruct D. destruct KK; [specialize (P1 ltac:(assumption))|specialize (P2 ltac:(assumption))]; lia.
    + destruct (Z.ltb_spec b (- km)); [lia|]. destruct (Z.ltb_spec (- km) (- b)).
      * split; [intros D; destruct KK2; [specialize (P3 ltac:(assumption))|specialize (P4 ltac:(assumption))]; lia|].
        intros _. destruct KK2; [specialize (P3 ltac:(assumption)); lia|specialize (P4 ltac:(assumption))].
        split; [clear - X P5 H H0 H1 M MM KB; nia|]. split; [clear - X P5 H H0 H1 M MM KB; lia|]. split; [exists (- k2); rewrite B2; ring|]. right. lia.
      * split; [intros D; lia|]. intros _. split; [clear - X P5 H H0 H1 M MM KB; nia|]. split; [clear - X P5 H H0 H1 M MM KB; lia|]. split; [exists (- k); rewrite KM; ring|]. left. lia.
Qed.
End Quantize.

(** ** The round robin passes everything *)
Lemma upd_nth i (l : list Z) x j : (i < length l)%nat -> nth j (upd l i x) 0 = if (j =? i)%nat then x else nth j l 0.
Proof. intros H. destruct (Nat.eqb_spec j i) as [->|N]; [apply nth_upd_same, H|apply nth_upd_other; congruence]. Qed.
Lemma process_loop_ok k n (ant : list Z) : length ant = n -> forall idx ret, (k <= n)%nat -> (idx < n)%nat -> length ret = n ->
  (forall j, (j < n)%nat -> nth j ret 0 = 0 \/ nth j ret 0 = nth j ant 0) ->
  exists ret' idx', process_loop k n idx ant ret = Ok (ret', idx') /\ (idx' < n)%nat /\ length ret' = n /\ (idx' = (idx + k) mod n)%nat /\
    forall j, (j < n)%nat -> nth j ret' 0 = if ((j + n - idx) mod n <? k)%nat then nth j ant 0 else nth j ret 0.
Proof.
  intros L. induction k as [|k IH]; intros idx ret K I LR H; cbn [process_loop].
  - exists ret, idx. split; [reflexivity|]. split; [assumption|]. split; [assumption|]. split; [rewrite Nat.add_0_r, Nat.mod_small; auto|]. intros j J. reflexivity.
  - rewrite (rd_ok ant idx 0) by lia. cbn [bind].
    assert (exists r1, (if nth idx ant 0 =? 0 then Ok ret else if (idx <? length ret)%nat then Ok (upd ret idx (nth idx ant 0)) else Oob) = Ok r1 /\
      length r1 = n /\ forall j, (j < n)%nat -> nth j r1 0 = if (j =? idx)%nat then nth j ant 0 else nth j ret 0) as (r1 & E & L1 & H1).
    { destruct (Z.eqb_spec (nth idx ant 0) 0) as [Z0|Z0].
      - exists ret. split; [reflexivity|]. split; [assumption|]. intros j J. destruct (Nat.eqb_spec j idx) as [->|_]; [|reflexivity].
        destruct (H idx I) as [Q|Q]; congruence.
      - replace (idx <? length ret)%nat with true by (symmetry; apply Nat.ltb_lt; lia). eexists. split; [reflexivity|]. split; [rewrite upd_length; assumption|].
        intros j J. rewrite upd_nth by lia. destruct (Nat.eqb_spec j idx) as [->|_]; reflexivity. }
    rewrite E. cbn [bind].
    set (i2 := if (S idx =? n)%nat then 0%nat else S idx).
    assert (I2 : (i2 < n)%nat) by (unfold i2; destruct (Nat.eqb_spec (S idx) n); lia).
    destruct (IH i2 r1) as (ret' & idx' & E' & B & L' & X & H'); [lia|assumption..| |].
    { intros j J. rewrite H1 by assumption. destruct (j =? idx)%nat; [right; reflexivity|auto]. }
    exists ret', idx'. split; [exact E'|]. split; [assumption|]. split; [assumption|]. split.
    + rewrite X. unfold i2. destruct (Nat.eqb_spec (S idx) n).
      * replace (idx + S k)%nat with (k + 1 * n)%nat by lia. rewrite Nat.mod_add by lia. reflexivity.
      * f_equal. lia.
    + intros j J. rewrite H' by assumption. rewrite H1 by assumption.
      assert (Y : ((j + n - idx) mod n = if (j <? idx)%nat then j + n - idx else j - idx)%nat).
      { destruct (Nat.ltb_spec j idx); [apply Nat.mod_small; lia|]. replace (j + n - idx)%nat with (j - idx + 1 * n)%nat by lia.
        rewrite Nat.mod_add by lia. apply Nat.mod_small. lia. }
      assert (Y2 : ((j + n - i2) mod n = if (j <? i2)%nat then j + n - i2 else j - i2)%nat).
      { destruct (Nat.ltb_spec j i2); [apply Nat.mod_small; lia|]. replace (j + n - i2)%nat with (j - i2 + 1 * n)%nat by lia.
        rewrite Nat.mod_add by lia. apply Nat.mod_small. lia. }
      rewrite Y, Y2. clear Y Y2. subst i2.
      destruct (Nat.ltb_spec j idx); destruct (Nat.eqb_spec (S idx) n); destruct (Nat.eqb_spec j idx);
        match goal with |- context [if (j <? ?b)%nat then _ else _] => destruct (Nat.ltb_spec j b) end;
        repeat match goal with |- context [(?a <? ?b)%nat] => destruct (Nat.ltb_spec a b) end; try reflexivity; exfalso; lia.
Qed.
Lemma list_ext (a b : list Z) : length a = length b -> (forall j, (j < length a)%nat -> nth j a 0 = nth j b 0) -> a = b.
Proof. intros L H. apply (nth_ext a b 0 0 L H). Qed.
Definition robin_ok (o : roundrobin) (n : nat) : Prop := o_antennas o = n /\ o_simultaneous o = n /\ (o_idx o < n)%nat.
Lemma robin_new n : (0 < n <= 8)%nat -> robin_ok (roundrobin_new n) n.
Proof. intros H. unfold robin_ok, roundrobin_new. cbn [o_antennas o_simultaneous o_idx]. lia. Qed.
Lemma process_all o ant : robin_ok o (length ant) -> process o ant = Ok (ant, o).
Proof.
  intros (A & B & C). unfold process. rewrite A, B.
  destruct (process_loop_ok (length ant) (length ant) ant eq_refl (o_idx o) (repeat 0 (length ant))) as (ret & idx & E & I & L & X & H).
  { lia. } { assumption. } { apply repeat_length. } { intros j J. left. apply nth_repeat. }
  rewrite E. cbn [bind]. replace ret with ant.
  - rewrite X. replace (o_idx o + length ant)%nat with (o_idx o + 1 * length ant)%nat by lia. rewrite Nat.mod_add, Nat.mod_small by lia.
    destruct o; cbn in *; subst; reflexivity.
  - apply list_ext; [auto|]. intros j J. rewrite H by assumption.
    pose proof (Nat.mod_upper_bound (j + length ant - o_idx o) (length ant)). replace (_ <? _)%nat with true; [reflexivity|]. symmetry. apply Nat.ltb_lt. lia.
Qed.

(** ** Maxima *)
Lemma max_from_ok l : forall m, m <= max_from m l /\ Forall (fun x => x <= max_from m l) l /\ (max_from m l = m \/ In (max_from m l) l).
Proof.
  induction l as [|x l IH]; intros m; cbn [max_from]; [split; [lia|split; [constructor|auto]]|].
  destruct (IH (Z.max m x)) as (A & B & C). split; [lia|]. split; [constructor; [lia|exact B]|].
  destruct C as [C|C]; [|right; right; exact C]. rewrite C. destruct (Z.max_spec m x) as [[_ ->]|[_ ->]]; [right; left; reflexivity|left; reflexivity].
Qed.
Lemma get_max_ok l : l <> [] -> exists m, get_max l = Ok m /\ greatest m l.
Proof.
  destruct l as [|x l]; [congruence|]. intros _. exists (max_from x l). split; [reflexivity|]. destruct (max_from_ok l x) as (A & B & C).
  split; [destruct C as [C|C]; [left; auto|right; auto]|constructor; auto].
Qed.
Lemma greatest_unique m m' l : greatest m l -> greatest m' l -> m = m'.
Proof. intros (I & F) (I' & F'). rewrite Forall_forall in *. specialize (F _ I'). specialize (F' _ I). lia. Qed.
Lemma get_max_is l m : greatest m l -> get_max l = Ok m.
Proof.
  intros G. destruct (get_max_ok l) as (m' & E & G'); [destruct G as [I _]; destruct l; [contradiction|discriminate]|].
  rewrite (greatest_unique _ _ _ G G'). exact E.
Qed.
(** ** One level *)
Section Walk.
Variable c : agc_config.
Hypothesis M : 0 < g_multiple c.
Hypothesis MG : g_multiple c < g_min c.
Variables lo hi want : Z.
Hypothesis LH : lo <= hi.
(** One step for [x], which is in the direction of the wanted level and not beyond. *)
Definition toward (p x : Z) : Prop := Z.abs x <= Z.abs (want - p) /\ 0 <= x * (want - p) /\ (dead c x -> dead c (want - p)).
Definition moved (p s : Z) : Z := if s =? 0 then p else set_power lo hi (p + s).
Lemma moved_settled p x s : settled c lo hi want p -> toward p x -> step_for c x s -> settled c lo hi want (moved p s).
Proof using All.
  unfold settled, toward, step_for, moved, set_power, dead. intros S (T1 & T2 & T3) (D1 & D2).
  destruct (Z_lt_dec (2 * Z.abs x) (2 * g_min c - g_multiple c)) as [D|D].
  - rewrite (D1 D). exact S.
  - destruct (D2 D) as (P & B & _ & N). clear D1 D2. destruct (Z.eqb_spec s 0); [exact S|].
    destruct S as [S|[(-> & S)|(-> & S)]].
    + lia.
    + assert (0 < x) by nia. assert (0 < s) by nia. right. left. lia.
    + assert (x < 0) by nia. assert (s < 0) by nia. right. right. lia.
Qed.
Lemma moved_closer p x s k : lo <= p <= hi -> toward p x -> step_for c x s -> Z.abs (want - p) <= (k + 1) * g_min c ->
  settled c lo hi want (moved p s) \/ Z.abs (want - moved p s) <= k * g_min c.
Proof using All.
  unfold settled, toward, step_for, moved, set_power, dead. intros PB (T1 & T2 & T3) (D1 & D2) K.
  destruct (Z_lt_dec (2 * Z.abs x) (2 * g_min c - g_multiple c)) as [D|D].
  - rewrite (D1 D). left. left. cbn [Z.eqb]. lia.
  - destruct (D2 D) as (P & B & _ & N). clear D1 D2 T3. replace ((k + 1) * g_min c) with (k * g_min c + g_min c) in K by ring. set (kg := k * g_min c) in *. clearbody kg.
    destruct (Z.eqb_spec s 0); [lia|].
    assert (X : (0 < x /\ 0 < s /\ 0 <= want - p) \/ (x < 0 /\ s < 0 /\ want - p <= 0)) 
      by (clear - P T2; set (e := want - p) in *; clearbody e; destruct (Z.lt_trichotomy x 0) as [Q|[->|Q]];
          [right; split; [exact Q|split; nia]|lia|left; split; [exact Q|split; nia]]). clear P T2.
    destruct X as [(X1 & X2 & X3)|(X1 & X2 & X3)].
    + rewrite (Z.abs_eq x), (Z.abs_eq (want - p)) in T1 by lia. rewrite (Z.abs_eq x) in * by lia. rewrite (Z.abs_eq s) in * by lia. rewrite (Z.abs_eq (want - p)) in * by lia.
      assert (SB : 2 * (s - x) <= g_multiple c) by (destruct N as [N|N]; lia). clear N.
      destruct (Z.le_gt_cases (p + s) hi).
      * replace (Z.min hi (Z.max lo (p + s))) with (p + s) by lia. destruct (Z.le_gt_cases (p + s) want); [right; lia|left; left; lia].
      * replace (Z.min hi (Z.max lo (p + s))) with hi by lia. left. destruct (Z.le_gt_cases want hi); [left; lia|right; left; lia].
    + rewrite (Z.abs_neq x), (Z.abs_neq (want - p)) in T1 by lia. rewrite (Z.abs_neq x) in * by lia. rewrite (Z.abs_neq s) in * by lia. rewrite (Z.abs_neq (want - p)) in * by lia.
      assert (SB : 2 * (x - s) <= g_multiple c) by (destruct N as [N|N]; lia). clear N.
      destruct (Z.le_gt_cases lo (p + s)).
      * replace (Z.min hi (Z.max lo (p + s))) with (p + s) by lia. destruct (Z.le_gt_cases want (p + s)); [right; lia|left; left; lia].
      * replace (Z.min hi (Z.max lo (p + s))) with lo by lia. left. destruct (Z.le_gt_cases lo want); [left; lia|right; right; lia].
Qed.
Lemma moved_within p s : lo <= p <= hi -> lo <= moved p s <= hi.
Proof using LH. unfold moved, set_power. destruct (s =? 0); lia. Qed.
Lemma settled_0 p : Z.abs (want - p) <= 0 -> settled c lo hi want p.
Proof using M MG. intros H. left. unfold dead. lia. Qed.
End Walk.

(** ** Strongest antenna *)
Lemma idx_from_ok l : forall best m i pre, length pre = i -> (best < i)%nat -> nth best pre None = m ->
  strongest best pre -> strongest (idx_from best m i l) (pre ++ l).
Proof.
  induction l as [|x l IH]; intros best m i pre L B N S; cbn [idx_from]; [rewrite app_nil_r; exact S|].
  replace (pre ++ x :: l) with ((pre ++ [x]) ++ l) by (rewrite <- app_assoc; reflexivity).
  assert (L1 : length (pre ++ [x]) = Datatypes.S i) by (rewrite app_length; cbn; lia).
  assert (NX : nth i (pre ++ [x]) None = x) by (rewrite app_nth2 by lia; rewrite L, Nat.sub_diag; reflexivity).
  destruct S as [_ S]. destruct (rms_less m x) eqn:R.
  - apply IH; [exact L1|lia|exact NX|]. split; [lia|]. intros j J. rewrite NX.
    destruct (Nat.eq_dec j i) as [->|NE].
    + rewrite NX. destruct x; [lia|exact I].
    + rewrite app_nth1 by lia. specialize (S j ltac:(lia)). rewrite N in S. destruct m as [m|], x as [x|]; cbn [rms_less] in R; try discriminate.
      * destruct (nth j pre None); [lia|exact I].
      * destruct (nth j pre None); [contradiction|exact I].
  - apply IH; [exact L1|lia|rewrite app_nth1 by lia; exact N|]. split; [lia|]. intros j J. rewrite (app_nth1 _ _ _ (n := best)) by lia. rewrite N.
    destruct (Nat.eq_dec j i) as [->|NE].
    + rewrite NX. destruct m as [m|], x as [x|]; cbn [rms_less] in R; try discriminate; try exact I. lia.
    + rewrite app_nth1 by lia. specialize (S j ltac:(lia)). rewrite N in S. exact S.
Qed.
Lemma index_of_max_ok rms : rms <> [] -> exists i, index_of_max rms = Ok i /\ strongest i rms.
Proof.
  destruct rms as [|x l]; [congruence|]. intros _. eexists. split; [reflexivity|]. apply (idx_from_ok l 0 x 1 [x]); [reflexivity|lia|reflexivity|].
  split; [cbn; lia|]. intros j J. cbn [length] in J. replace j with 0%nat by lia. cbn. destruct x; [lia|exact I].
Qed.
