(** Lemmas on the packet size model. *)
From Verif Require Import Base IntHelpers IntHelpersSpec IntHelpersFacts PacketSizes PacketSizesSpec.
Open Scope N_scope.

Lemma mul32_small a b : a * b < 4294967296 -> mul32 a b = a * b.
Proof. intros. unfold mul32. apply N.mod_small; auto. Qed.
Lemma add32_small a b : a + b < 4294967296 -> add32 a b = a + b.
Proof. intros. unfold add32. apply N.mod_small; auto. Qed.
Lemma sub32_small a b : b <= a -> a < 4294967296 -> sub32 a b = a - b.
Proof.
  intros. unfold sub32. replace (a + (4294967296 - b)) with ((a - b) + 1 * 4294967296) by lia.
  rewrite N.mod_add, N.mod_small; lia.
Qed.
Lemma guard_true {A} c (k : res A) : c = true -> guard c k = k.
Proof. intros ->. reflexivity. Qed.
Lemma ceil_ok x y : 0 < y -> x + y <= 4294967296 ->
  ceil_divide_integer 32 x y = Ok ((x + y - 1) / y).
Proof.
  intros Y H. unfold ceil_divide_integer. replace (y =? 0) with false by lia.
  change (2 ^ 32) with 4294967296.
  replace (x + y + (4294967296 - 1)) with (x + y - 1 + 1 * 4294967296) by lia.
  rewrite N.mod_add, N.mod_small by lia. reflexivity.
Qed.

(** * Code block table *)
Definition step_ok (a b : N) : bool :=
  (40 <=? a) && (b <=? 6144) &&
  (if b <=? 512 then (b - a =? 8) && (a mod 8 =? 0) && (a <? b)
   else if b <=? 1024 then (512 <=? a) && (b - a =? 16) && (a mod 16 =? 0)
   else if b <=? 2048 then (1024 <=? a) && (b - a =? 32) && (a mod 32 =? 0)
   else (2048 <=? a) && (b - a =? 64) && (a mod 64 =? 0)).
Fixpoint steps_ok (l : list N) : bool :=
  match l with
  | a :: (b :: _) as t => step_ok a b && steps_ok t
  | _ => true
  end.
Lemma table_steps : steps_ok tc_cb_sizes = true.
Proof. vm_compute. reflexivity. Qed.
Lemma steps_nth l i a b : steps_ok l = true -> nth_error l i = Some a -> nth_error l (S i) = Some b ->
  step_ok a b = true.
Proof.
  revert i. induction l as [|x l IH]; intros i H A B; [destruct i; discriminate|].
  destruct l as [|y l]; [destruct i; [discriminate|destruct i; discriminate]|].
  cbn [steps_ok] in H. apply andb_prop in H. destruct H as (H1 & H2).
  destruct i; [cbn in A, B; injection A as <-; injection B as <-; exact H1|].
  eapply IH; eauto.
Qed.
Lemma cbindex_from_spec l : forall j k, (exists x, In x l /\ k <= x) ->
  exists i x, cbindex_from l j k = Some (j + i)%nat /\ nth_error l i = Some x /\ k <= x /\
    (forall i' y, (i' < i)%nat -> nth_error l i' = Some y -> y < k).
Proof.
  induction l as [|h t IH]; intros j k (x & I & Hx); [destruct I|]. cbn [cbindex_from].
  destruct (h <? k) eqn:E.
  - destruct I as [->|I]; [lia|]. destruct (IH (S j) k) as (i & y & E1 & E2 & E3 & E4); eauto.
    exists (S i), y. split; [rewrite E1; f_equal; lia|]. split; [exact E2|]. split; [exact E3|].
    intros [|i'] z L Z; [cbn in Z; injection Z as <-; lia|]. eapply E4; [|exact Z]. lia.
  - exists 0%nat, h. split; [f_equal; lia|]. split; [reflexivity|]. split; [lia|]. intros; lia.
Qed.
(** The table lookup: the smallest entry not below [k], and its predecessor. *)
Lemma cbindex_spec k : 1 <= k <= 6144 ->
  exists i k1 k2, cbindex k = Some i /\ cbsize i = Some k1 /\ cbsize (i - 1) = Some k2 /\ k <= k1 /\
    ((i = 0%nat /\ k1 = 40 /\ k2 = 40) \/ (i <> 0%nat /\ k2 < k /\ step_ok k2 k1 = true)).
Proof.
  intros K. destruct (cbindex_from_spec tc_cb_sizes 0 k) as (i & x & E1 & E2 & E3 & E4).
  { exists 6144. split; [|lia]. vm_compute. tauto. }
  destruct i as [|i].
  - exists 0%nat, x, x. unfold cbindex. rewrite E1. unfold cbsize. cbn [Nat.sub]. rewrite E2.
    repeat split; auto. left. change (Some 40 = Some x) in E2. injection E2 as <-. auto.
  - assert (exists y, nth_error tc_cb_sizes i = Some y) as (y & Y).
    { destruct (nth_error tc_cb_sizes i) eqn:N; eauto. apply nth_error_None in N.
      assert (nth_error tc_cb_sizes (S i) <> None) by congruence. apply nth_error_Some in H. lia. }
    exists (S i), x, y. unfold cbindex. rewrite E1. unfold cbsize.
    replace (S i - 1)%nat with i by lia. rewrite Y, E2. repeat split; auto. right.
    split; [lia|]. split; [apply (E4 i); auto|]. eapply steps_nth; eauto. exact table_steps.
Qed.
Lemma step_turbo a b : step_ok a b = true -> turbo_size a /\ turbo_size b /\ a < b /\ 40 <= a /\ b <= 6144.
Proof.
  unfold step_ok, turbo_size. intros H.
  destruct (b <=? 512) eqn:B1; [|destruct (b <=? 1024) eqn:B2; [|destruct (b <=? 2048) eqn:B3]]; lia.
Qed.
Lemma step_hit a b k : step_ok a b = true -> a < k -> k <= b -> turbo_size k -> b = k.
Proof.
  unfold step_ok, turbo_size. intros H A B T.
  destruct (b <=? 512) eqn:B1; [|destruct (b <=? 1024) eqn:B2; [|destruct (b <=? 2048) eqn:B3]]; lia.
Qed.
Lemma step_gap a b : step_ok a b = true -> exists g m, b - a = g /\ g * m = 64 /\ 0 < g <= 64 /\ b mod g = 0.
Proof.
  unfold step_ok. intros H.
  destruct (b <=? 512) eqn:B1; [exists 8, 8|destruct (b <=? 1024) eqn:B2; [exists 16, 4|
    destruct (b <=? 2048) eqn:B3; [exists 32, 2|exists 64, 1]]]; lia.
Qed.

(** * Segmentation of any transport block *)
Definition well_segmented (tbs Z : N) (s : segm) : Prop :=
  sg_C1 s + sg_C2 s = sg_C s /\ 1 <= sg_C1 s /\
  turbo_size (sg_K1 s) /\ sg_K1 s <= Z /\
  (sg_C2 s = 0 \/ (turbo_size (sg_K2 s) /\ sg_K2 s <= Z)) /\
  sg_C1 s * sg_K1 s + sg_C2 s * sg_K2 s =
    tbs + 24 + (if sg_C s =? 1 then 0 else 24 * sg_C s) + sg_F s /\
  sg_F s < 64 /\
  (* as few blocks as possible *)
  (if tbs + 24 <=? Z then sg_C s = 1 else (sg_C s - 1) * (Z - 24) < tbs + 24 <= sg_C s * (Z - 24)).

Lemma gap_turbo_lt k k1 k2 : step_ok k2 k1 = true -> k2 < k -> k <= k1 -> k1 - k < 64.
Proof.
  unfold step_ok. intros H A B.
  destruct (k1 <=? 512) eqn:B1; [|destruct (k1 <=? 1024) eqn:B2; [|destruct (k1 <=? 2048) eqn:B3]]; lia.
Qed.
Lemma turbo_z Z : In Z [2048; 6144] -> turbo_size Z /\ 2048 <= Z <= 6144.
Proof. unfold turbo_size. intros [<-|[<-|[]]]; split; try lia; right; right; vm_compute; intuition congruence. Qed.
Lemma le_z a b k Z : step_ok a b = true -> a < k -> k <= b -> k <= Z -> turbo_size Z -> b <= Z.
Proof.
  unfold step_ok, turbo_size. intros H A B C T.
  destruct (b <=? 512) eqn:B1; [|destruct (b <=? 1024) eqn:B2; [|destruct (b <=? 2048) eqn:B3]]; lia.
Qed.

Lemma seg_one tbs Z : In Z [2048; 6144] -> 0 < tbs -> tbs + 24 <= Z ->
  exists k1, cbsegm tbs Z = Ok (Some (mkSegm 1 1 k1 0 0 (k1 - (tbs + 24)) tbs)) /\
    tbs + 24 <= k1 <= Z /\ turbo_size k1 /\ k1 - (tbs + 24) < 64 /\
    (turbo_size (tbs + 24) -> k1 = tbs + 24).
Proof.
  intros HZ T L. destruct (turbo_z Z HZ) as (TZ & BZ). unfold cbsegm.
  replace (tbs =? 0) with false by lia. rewrite add32_small by lia.
  unfold cb_size. replace (tbs + 24 <=? Z) with true by lia. cbn [bind].
  replace (1 =? 0) with false by lia. rewrite sub32_small by lia. rewrite N.div_1_r.
  rewrite add32_small by lia. replace (tbs + 24 - 1 + 1) with (tbs + 24) by lia.
  destruct (cbindex_spec (tbs + 24)) as (i & k1 & k2 & E1 & E2 & E3 & E4 & E5); [lia|].
  rewrite E1, E2, E3. replace (1 =? 1) with true by lia.
  assert (B : turbo_size k1 /\ k1 <= Z /\ k1 - (tbs + 24) < 64 /\ (turbo_size (tbs + 24) -> k1 = tbs + 24)).
  { destruct E5 as [(-> & -> & ->)|(I & K & ST)].
    - repeat split; try lia; [left; vm_compute; intuition congruence|].
      intros TT. unfold turbo_size in TT. lia.
    - pose proof (step_turbo _ _ ST) as (_ & T1 & _ & _ & B1). repeat split; auto.
      + eapply le_z; eauto.
      + eapply gap_turbo_lt; eauto.
      + intros TT. eapply step_hit; eauto. }
  destruct B as (B1 & B2 & B3 & B4). exists k1.
  rewrite !mul32_small by lia. rewrite add32_small by lia. rewrite sub32_small by lia.
  replace (1 * k1 + 0 * 0) with k1 by lia. repeat split; auto.
Qed.

(** Arithmetic of several blocks. *)
Lemma split_blocks C K1 K2 B g :
  0 < C -> K1 - K2 = g -> 0 < g -> K2 < K1 -> C * K2 < B -> B <= C * K1 ->
  let c2 := (C * K1 - B) / g in
  c2 < C /\ (C - c2) * K1 + c2 * K2 = B + (C * K1 - B) mod g.
Proof.
  intros HC HG G K H1 H2 c2.
  pose proof (N.div_mod (C * K1 - B) g ltac:(lia)) as D. fold c2 in D.
  pose proof (N.mod_lt (C * K1 - B) g ltac:(lia)) as M. set (r := (C * K1 - B) mod g) in *.
  assert (A : c2 < C).
  { destruct (N.le_gt_cases C c2); [|assumption]. exfalso.
    assert (g * C <= g * c2) by (apply N.mul_le_mono_l; assumption).
    assert (g * C + C * K2 = C * K1). { subst g. rewrite N.mul_sub_distr_r, (N.mul_comm K1), (N.mul_comm K2).
      assert (C * K2 <= C * K1) by (apply N.mul_le_mono_l; lia). lia. }
    lia. }
  split; [exact A|].
  assert (E : (C - c2) * K1 + c2 * K1 = C * K1).
  { rewrite <- N.mul_add_distr_r. f_equal. lia. }
  assert (F : c2 * K1 = c2 * K2 + g * c2). { subst g. replace K1 with (K2 + (K1 - K2)) at 1 by lia. rewrite N.mul_add_distr_l. f_equal. apply N.mul_comm. }
  lia.
Qed.

Lemma seg_many tbs Z : In Z [2048; 6144] -> Z < tbs + 24 -> tbs < 2147483648 ->
  exists C c2 K1 K2 F, cbsegm tbs Z =
      Ok (Some (mkSegm C (C - c2) K1 c2 K2 F tbs)) /\
    2 <= C /\ c2 < C /\ turbo_size K1 /\ turbo_size K2 /\ K2 < K1 <= Z /\
    (C - 1) * (Z - 24) < tbs + 24 <= C * (Z - 24) /\
    (C - c2) * K1 + c2 * K2 = tbs + 24 + 24 * C + F /\
    F < 64 /\
    ((tbs + 24 + 24 * C) mod 64 = 0 -> F = 0).
Proof.
  intros HZ L T. destruct (turbo_z Z HZ) as (TZ & BZ). unfold cbsegm.
  replace (tbs =? 0) with false by lia. rewrite add32_small by lia.
  unfold cb_size. replace (tbs + 24 <=? Z) with false by lia.
  rewrite sub32_small by lia. replace (Z - 24 =? 0) with false by lia.
  rewrite (sub32_small (Z - 24) 1) by lia. rewrite (add32_small (tbs + 24)) by lia.
  set (C := (tbs + 24 + (Z - 24 - 1)) / (Z - 24)).
  assert (HC : (C - 1) * (Z - 24) < tbs + 24 <= C * (Z - 24) /\ 2 <= C).
  { pose proof (N.div_mod (tbs + 24 + (Z - 24 - 1)) (Z - 24) ltac:(lia)) as D. fold C in D.
    pose proof (N.mod_lt (tbs + 24 + (Z - 24 - 1)) (Z - 24) ltac:(lia)) as M.
    set (r := (tbs + 24 + (Z - 24 - 1)) mod (Z - 24)) in *.
    assert (2 <= C). { destruct (N.le_gt_cases 2 C); auto. assert (C = 0 \/ C = 1) as [X|X] by lia; rewrite X in D; lia. }
    split; [|assumption]. rewrite N.mul_sub_distr_r, (N.mul_comm C). split; [|lia].
    assert (1 * (Z - 24) <= (Z - 24) * C) by nia. lia. }
  destruct HC as (HC & HC2). clearbody C.
  assert (CB : C <= 2147483648) by nia.
  assert (CB' : C * 2000 <= tbs + 24 + 6200). { assert ((C - 1) * 2000 <= (C - 1) * (Z - 24)) by (apply N.mul_le_mono_l; lia). lia. }
  rewrite (mul32_small 24 C) by lia. rewrite (add32_small (tbs + 24)) by lia. cbn [bind].
  replace (C =? 0) with false by lia.
  set (B := tbs + 24 + 24 * C) in *. assert (HB : B < 4294967296) by lia.
  rewrite (sub32_small B 1) by lia.
  assert (BZ2 : B <= C * Z). { unfold B. replace (C * Z) with (C * (Z - 24) + C * 24) by (rewrite <- N.mul_add_distr_l; f_equal; lia). lia. }
  set (k := (B - 1) / C).
  pose proof (N.div_mod (B - 1) C ltac:(lia)) as D. fold k in D.
  pose proof (N.mod_lt (B - 1) C ltac:(lia)) as M. set (r := (B - 1) mod C) in *.
  assert (KZ : k < Z). { destruct (N.le_gt_cases Z k); auto. assert (C * Z <= C * k) by (apply N.mul_le_mono_l; auto). lia. }
  assert (K40 : 1000 <= k).
  { destruct (N.le_gt_cases 1000 k); auto. exfalso. assert (C * k <= C * 999) by (apply N.mul_le_mono_l; lia).
    assert (HH : (C - 1) * 2000 <= (C - 1) * (Z - 24)) by (apply N.mul_le_mono_l; lia). lia. }
  rewrite (add32_small k) by lia.
  destruct (cbindex_spec (k + 1)) as (i & k1 & k2 & E1 & E2 & E3 & E4 & E5); [lia|].
  rewrite E1, E2, E3. destruct E5 as [(-> & -> & ->)|(I & K & ST)]; [lia|].
  pose proof (step_turbo _ _ ST) as (T2 & T1 & LT & A2 & A1).
  destruct (step_gap _ _ ST) as (g & m & G1 & G2 & G3 & G4).
  assert (K1Z : k1 <= Z) by (apply (le_z k2 k1 (k + 1) Z); auto; lia).
  replace (C =? 1) with false by lia. rewrite (sub32_small k1 k2) by lia.
  replace (k1 - k2 =? 0) with false by lia.
  assert (S1 : C * k2 < B). { assert (C * k2 <= C * k) by (apply N.mul_le_mono_l; lia). lia. }
  assert (S2 : B <= C * k1). { assert (C * (k + 1) <= C * k1) by (apply N.mul_le_mono_l; lia). lia. }
  assert (S3 : C * k1 < 4294967296). { assert (C * k1 <= C * (k2 + 64)) by (apply N.mul_le_mono_l; lia). lia. }
  rewrite (mul32_small C k1) by lia. rewrite (sub32_small (C * k1) B) by lia. rewrite G1.
  destruct (split_blocks C k1 k2 B g ltac:(lia) G1 ltac:(lia) LT S1 S2) as (P1 & P2).
  assert (MG : (C * k1 - B) mod g < g) by (apply N.mod_lt; lia).
  assert (Z64 : B mod 64 = 0 -> (C * k1 - B) mod g = 0).
  { intros Z64. apply N.mod_divide; [lia|].
    apply N.mod_divide in G4; [|lia]. apply N.mod_divide in Z64; [|lia].
    destruct G4 as (x & X). destruct Z64 as (y & Y). exists (C * x - y * m).
    rewrite N.mul_sub_distr_r. f_equal; [rewrite X; lia|]. rewrite Y, <- G2. lia. }
  set (rr := (C * k1 - B) mod g) in *. set (c2 := (C * k1 - B) / g) in *.
  clearbody rr c2. clear D M KZ K40 E1 E2 E3 E4 K ST k r i I.
  rewrite (sub32_small C c2) by lia.
  assert (Q1 : (C - c2) * k1 <= C * k1) by (apply N.mul_le_mono_r; lia).
  assert (Q2 : c2 * k2 <= C * k2) by (apply N.mul_le_mono_r; lia).
  rewrite !mul32_small by lia. rewrite add32_small by lia. rewrite P2. rewrite sub32_small by lia.
  replace (B + rr - B) with rr by lia.
  exists C, c2, k1, k2, rr. fold B.
  split; [reflexivity|]. repeat split; auto; try lia.
Qed.
Lemma cbsegm_well tbs Z : In Z [2048; 6144] -> 0 < tbs < 2147483648 ->
  exists s, cbsegm tbs Z = Ok (Some s) /\ well_segmented tbs Z s.
Proof.
  intros HZ T. destruct (N.le_gt_cases (tbs + 24) Z) as [L|L].
  - destruct (seg_one tbs Z HZ ltac:(lia) L) as (k1 & E & A1 & A2 & A3 & A4).
    eexists. split; [exact E|]. unfold well_segmented. cbn [sg_C sg_C1 sg_C2 sg_K1 sg_K2 sg_F].
    replace (tbs + 24 <=? Z) with true by lia. change (1 =? 1) with true. cbv iota.
    repeat split; auto; lia.
  - destruct (seg_many tbs Z HZ L ltac:(lia)) as (C & c2 & K1 & K2 & F & E & A1 & A2 & A3 & A4 & A5 & A6 & A7 & A8 & _).
    eexists. split; [exact E|]. unfold well_segmented. cbn [sg_C sg_C1 sg_C2 sg_K1 sg_K2 sg_F].
    replace (tbs + 24 <=? Z) with false by lia. replace (C =? 1) with false by lia.
    repeat split; auto; try lia. right. split; [assumption|lia].
Qed.

(** * Transport block size *)
Definition granule (bits : N) : N :=
  if bits <=? 512 then 8 else if bits <=? 1024 then 16 else if bits <=? 2048 then 32 else 64.
Definition granted (bits : N) : N := bits / granule bits * granule bits.
Lemma granted_spec bits : granted bits <= bits < granted bits + granule bits /\
  8 <= granule bits <= 64 /\ (bits <= 512 -> granted bits <= 512).
Proof. unfold granted, granule. repeat match goal with |- context [?x <=? ?y] => destruct (N.leb_spec x y) end; lia. Qed.
Lemma granted_turbo bits Z : 40 <= bits -> granted bits <= Z -> Z <= 6144 -> turbo_size (granted bits).
Proof.
  unfold granted, granule, turbo_size. intros B L Z6.
  destruct (N.leb_spec bits 512); [left; lia|]. destruct (N.leb_spec bits 1024).
  { assert (bits / 16 * 16 = 512 \/ 512 < bits / 16 * 16) by lia. destruct H1; [left|right; left]; lia. }
  destruct (N.leb_spec bits 2048).
  { assert (bits / 32 * 32 = 1024 \/ 1024 < bits / 32 * 32) by lia. destruct H2; [right; left|right; right; left]; lia. }
  assert (bits / 64 * 64 = 2048 \/ 2048 < bits / 64 * 64) by lia. destruct H2; [right; right; left|right; right; right]; lia.
Qed.
(** Number of code blocks by the formula of clause 5.3. *)
Definition tb_blocks (nm Z : N) : N := (nm - 24 + Z - 1) / Z.
Lemma tb_small bits Z : In Z [2048; 6144] -> bits < 40 ->
  exists t, tb_of_bits bits Z = Ok t /\ (t = 0 \/ t = 8) /\ (t = 8 -> granted bits = 32).
Proof.
  intros HZ B. unfold tb_of_bits. fold (granule bits).
  pose proof (granted_spec bits) as (G1 & G2 & G3).
  rewrite mul32_small by (fold (granted bits); lia). fold (granted bits).
  assert (granted bits mod 8 = 0). { unfold granted, granule. replace (bits <=? 512) with true by lia. lia. }
  destruct (granted bits =? 0) eqn:E1; [exists 0; split; [reflexivity|lia]|].
  destruct (granted bits <=? 24) eqn:E2; [exists 0; split; [reflexivity|lia]|].
  replace (granted bits <=? Z) with true by (destruct HZ as [<-|[<-|[]]]; lia).
  rewrite sub32_small by lia. exists (granted bits - 24). split; [reflexivity|]. lia.
Qed.
Lemma tb_one bits Z : In Z [2048; 6144] -> 40 <= bits -> granted bits <= Z ->
  tb_of_bits bits Z = Ok (granted bits - 24).
Proof.
  intros HZ B L. unfold tb_of_bits. fold (granule bits).
  pose proof (granted_spec bits) as (G1 & G2 & G3). assert (Z <= 6144) by (destruct HZ as [<-|[<-|[]]]; lia).
  rewrite mul32_small by (fold (granted bits); lia). fold (granted bits).
  assert (40 <= granted bits). { destruct (granted_turbo bits Z B L H) as [|[|[|]]]; lia. }
  replace (granted bits =? 0) with false by lia. replace (granted bits <=? 24) with false by lia.
  replace (granted bits <=? Z) with true by lia. rewrite sub32_small by lia. reflexivity.
Qed.
Lemma tb_blocks_spec nm Z : 2048 <= Z -> Z < nm ->
  (tb_blocks nm Z - 1) * Z < nm - 24 <= tb_blocks nm Z * Z /\ 1 <= tb_blocks nm Z /\ tb_blocks nm Z * 2048 <= nm + 6144 + Z.
Proof.
  intros HZ L. unfold tb_blocks. set (c := (nm - 24 + Z - 1) / Z).
  pose proof (N.div_mod (nm - 24 + Z - 1) Z ltac:(lia)) as D. fold c in D.
  pose proof (N.mod_lt (nm - 24 + Z - 1) Z ltac:(lia)) as M. set (r := (nm - 24 + Z - 1) mod Z) in *.
  assert (1 <= c). { destruct (N.le_gt_cases 1 c); auto. assert (X : c = 0) by lia. rewrite X in D. lia. }
  rewrite N.mul_sub_distr_r, (N.mul_comm c). assert (1 * Z <= Z * c) by nia. nia.
Qed.
Lemma tb_many bits Z : In Z [2048; 6144] -> Z < granted bits -> bits < 2147483648 ->
  tb_of_bits bits Z = Ok (granted bits - (tb_blocks (granted bits) Z + 1) * 24) /\
  (tb_blocks (granted bits) Z + 1) * 24 < granted bits.
Proof.
  intros HZ L B. unfold tb_of_bits. fold (granule bits).
  pose proof (granted_spec bits) as (G1 & G2 & G3).
  assert (BZ : 2048 <= Z <= 6144) by (destruct HZ as [<-|[<-|[]]]; lia).
  rewrite mul32_small by (fold (granted bits); lia). fold (granted bits).
  replace (granted bits =? 0) with false by lia. replace (granted bits <=? 24) with false by lia.
  replace (granted bits <=? Z) with false by lia. rewrite sub32_small by lia.
  rewrite ceil_ok by lia. cbn [bind]. fold (tb_blocks (granted bits) Z).
  pose proof (tb_blocks_spec (granted bits) Z ltac:(lia) L) as (P1 & P2 & P3).
  set (c := tb_blocks (granted bits) Z) in *. assert (c * 2048 <= granted bits + 12288) by lia.
  assert (Q : (c + 1) * 24 < granted bits).
  { destruct (N.le_gt_cases c 2); [lia|]. assert ((c - 1) * 2048 <= (c - 1) * Z) by (apply N.mul_le_mono_l; lia). lia. }
  rewrite add32_small by lia. rewrite mul32_small by lia. rewrite sub32_small by lia. auto.
Qed.
(** The two formulas for the number of code blocks agree, and the bits granted are used up exactly. *)
Lemma tb_segmented bits Z : In Z [2048; 6144] -> 40 <= bits < 2147483648 ->
  exists t s, tb_of_bits bits Z = Ok t /\ 0 < t /\ t mod 8 = 0 /\ t < 2147483648 /\
    cbsegm t Z = Ok (Some s) /\ sg_F s = 0 /\ well_segmented t Z s /\
    t + 24 + (if sg_C s =? 1 then 0 else 24 * sg_C s) = granted bits.
Proof.
  intros HZ B. pose proof (granted_spec bits) as (G1 & G2 & G3).
  assert (BZ : 2048 <= Z <= 6144) by (destruct HZ as [<-|[<-|[]]]; lia).
  assert (G8 : granted bits mod 8 = 0). { unfold granted, granule. repeat match goal with |- context [?x <=? ?y] => destruct (N.leb_spec x y) end; lia. }
  destruct (N.le_gt_cases (granted bits) Z) as [L|L].
  - pose proof (granted_turbo bits Z ltac:(lia) L ltac:(lia)) as T.
    assert (40 <= granted bits) by (destruct T as [|[|[|]]]; lia).
    rewrite (tb_one bits Z HZ ltac:(lia) L).
    destruct (seg_one (granted bits - 24) Z HZ ltac:(lia) ltac:(lia)) as (k1 & E & A1 & A2 & A3 & A4).
    replace (granted bits - 24 + 24) with (granted bits) in * by lia. specialize (A4 T). subst k1.
    eexists _, _. split; [reflexivity|]. split; [lia|]. split; [lia|]. split; [lia|]. split; [exact E|].
    unfold well_segmented. cbn [sg_C sg_C1 sg_C2 sg_K1 sg_K2 sg_F].
    replace (granted bits - 24 + 24) with (granted bits) by lia.
    replace (granted bits <=? Z) with true by lia. change (1 =? 1) with true. cbn [negb].
    repeat split; auto; try lia.
  - destruct (tb_many bits Z HZ L ltac:(lia)) as (E & Q). rewrite E.
    pose proof (tb_blocks_spec (granted bits) Z ltac:(lia) L) as (P1 & P2 & P3).
    set (c := tb_blocks (granted bits) Z) in *. clearbody c.
    assert (G64 : granted bits mod 64 = 0).
    { unfold granted, granule. replace (bits <=? 512) with false by lia. replace (bits <=? 1024) with false by lia.
      replace (bits <=? 2048) with false by lia. lia. }
    assert (c2 : 2 <= c).
    { destruct (N.le_gt_cases 2 c); auto. assert (c = 1) by lia. subst c. destruct HZ as [<-|[<-|[]]]; lia. }
    assert (M1 : Z + 24 * c < granted bits).
    { destruct (N.eq_dec c 2) as [->|]; [destruct HZ as [<-|[<-|[]]]; lia|].
      assert ((c - 2) * 2048 <= (c - 2) * Z) by (apply N.mul_le_mono_l; lia).
      assert ((c - 1) * Z = Z + (c - 2) * Z).
      { replace (c - 1) with (1 + (c - 2)) by lia. rewrite N.mul_add_distr_r. lia. }
      lia. }
    destruct (seg_many (granted bits - (c + 1) * 24) Z HZ) as (C & c' & K1 & K2 & F & E1 & A1 & A2 & A3 & A4 & A5 & A6 & A7 & A8 & A9); [destruct HZ as [<-|[<-|[]]]; lia|lia|].
    assert (C = c).
    { destruct (N.lt_trichotomy C c) as [X|[X|X]]; auto; exfalso.
      - assert (C * (Z - 24) <= (c - 1) * (Z - 24)) by (apply N.mul_le_mono_r; lia).
        assert ((c - 1) * Z = (c - 1) * (Z - 24) + (c - 1) * 24) by (rewrite <- N.mul_add_distr_l; f_equal; lia). lia.
      - assert (c * (Z - 24) <= (C - 1) * (Z - 24)) by (apply N.mul_le_mono_r; lia).
        assert (c * Z = c * (Z - 24) + c * 24) by (rewrite <- N.mul_add_distr_l; f_equal; lia).
        assert (granted bits - 24 <= c * Z < granted bits) by lia.
        clear - HZ G64 H1. destruct HZ as [<-|[<-|[]]]; lia. }
    subst C.
    replace (granted bits - (c + 1) * 24 + 24 + 24 * c) with (granted bits) in * by lia.
    specialize (A9 G64).
    eexists _, _. split; [reflexivity|]. split; [lia|]. split; [lia|]. split; [lia|]. split; [exact E1|].
    split; [exact A9|]. unfold well_segmented. cbn [sg_C sg_C1 sg_C2 sg_K1 sg_K2 sg_F].
    replace (c =? 1) with false by lia. subst F.
    replace (granted bits - (c + 1) * 24 + 24 <=? Z) with false by (destruct HZ as [<-|[<-|[]]]; lia).
    repeat split; auto; try lia. right. split; [assumption|lia].
Qed.

(** Closed form of the transport block size. *)
Definition tbf (nm Z : N) : N :=
  if nm <=? 24 then 0 else if nm <=? Z then nm - 24 else nm - (tb_blocks nm Z + 1) * 24.
Lemma tb_closed bits Z : In Z [2048; 6144] -> bits < 2147483648 -> tb_of_bits bits Z = Ok (tbf (granted bits) Z).
Proof.
  intros HZ B. pose proof (granted_spec bits) as (G1 & G2 & G3).
  assert (BZ : 2048 <= Z <= 6144) by (destruct HZ as [<-|[<-|[]]]; lia).
  destruct (N.le_gt_cases (granted bits) Z) as [L|L].
  - unfold tb_of_bits. fold (granule bits). rewrite mul32_small by (fold (granted bits); lia). fold (granted bits).
    unfold tbf. destruct (N.leb_spec (granted bits) 24).
    { destruct (granted bits =? 0); reflexivity. }
    replace (granted bits =? 0) with false by lia. replace (granted bits <=? Z) with true by lia.
    rewrite sub32_small by lia. reflexivity.
  - destruct (tb_many bits Z HZ L B) as (E & _). rewrite E. unfold tbf.
    replace (granted bits <=? 24) with false by lia. replace (granted bits <=? Z) with false by lia. reflexivity.
Qed.
Lemma granted_mono a b : a <= b -> granted a <= granted b.
Proof.
  unfold granted, granule. intros H.
  destruct (N.leb_spec a 512), (N.leb_spec b 512), (N.leb_spec a 1024), (N.leb_spec b 1024),
    (N.leb_spec a 2048), (N.leb_spec b 2048); lia.
Qed.
Lemma granted_64 bits Z : In Z [2048; 6144] -> Z < granted bits -> granted bits mod 64 = 0.
Proof.
  intros HZ L. pose proof (granted_spec bits) as (G1 & _). assert (2048 <= Z) by (destruct HZ as [<-|[<-|[]]]; lia).
  unfold granted, granule. replace (bits <=? 512) with false by lia. replace (bits <=? 1024) with false by lia.
  replace (bits <=? 2048) with false by lia. lia.
Qed.
Lemma blocks_mono a b Z : 2048 <= Z -> Z < a -> a <= b -> tb_blocks a Z <= tb_blocks b Z.
Proof. intros HZ L H. unfold tb_blocks. apply N.div_le_mono; lia. Qed.
Lemma tbf_mono a b Z : In Z [2048; 6144] -> a <= b ->
  (Z < a -> a mod 64 = 0) -> (Z < b -> b mod 64 = 0) -> tbf a Z <= tbf b Z.
Proof.
  intros HZ H A64 B64. assert (BZ : 2048 <= Z <= 6144) by (destruct HZ as [<-|[<-|[]]]; lia).
  unfold tbf. destruct (N.leb_spec a 24); [lia|]. replace (b <=? 24) with false by lia.
  destruct (N.leb_spec b Z) as [LB|LB].
  { replace (a <=? Z) with true by lia. lia. }
  pose proof (tb_blocks_spec b Z ltac:(lia) LB) as (P1 & P2 & P3). specialize (B64 LB).
  set (c := tb_blocks b Z) in *.
  destruct (N.leb_spec a Z) as [LA|LA].
  - assert (Z + 24 * c < b \/ c <= 1).
    { destruct (N.le_gt_cases c 1); [auto|left]. destruct (N.eq_dec c 2) as [E|].
      { rewrite E. destruct HZ as [<-|[<-|[]]]; lia. }
      assert ((c - 2) * 2048 <= (c - 2) * Z) by (apply N.mul_le_mono_l; lia).
      assert ((c - 1) * Z = Z + (c - 2) * Z).
      { replace (c - 1) with (1 + (c - 2)) by lia. rewrite N.mul_add_distr_r. lia. }
      lia. }
    destruct H1; [lia|]. assert (E : c = 1) by lia. rewrite E. destruct HZ as [<-|[<-|[]]]; lia.
  - pose proof (tb_blocks_spec a Z ltac:(lia) LA) as (Q1 & Q2 & Q3). specialize (A64 LA).
    pose proof (blocks_mono a b Z ltac:(lia) LA H) as M. fold c in M. set (c' := tb_blocks a Z) in *.
    clearbody c c'. destruct (N.eq_dec c c') as [->|NE]; [lia|].
    destruct (N.eq_dec c (c' + 1)) as [->|NE2].
    { assert (a <> b) by (intros ->; assert (c' + 1 - 1 = c') by lia; nia). lia. }
    assert ((c - 1 - c') * 2048 <= (c - 1 - c') * Z) by (apply N.mul_le_mono_l; lia).
    assert ((c - 1) * Z = c' * Z + (c - 1 - c') * Z) by (rewrite <- N.mul_add_distr_r; f_equal; lia).
    lia.
Qed.
Lemma tb_mono a b Z x y : In Z [2048; 6144] -> a <= b -> b < 2147483648 ->
  tb_of_bits a Z = Ok x -> tb_of_bits b Z = Ok y -> x <= y.
Proof.
  intros HZ H B X Y. rewrite tb_closed in X, Y by (auto; lia). injection X as <-. injection Y as <-.
  apply tbf_mono; auto using granted_mono; apply granted_64; auto.
Qed.

(** * Evaluation of get_packet_sizes *)
Lemma single_u u : In u [1; 2; 4; 8] <-> has_single_bit u && (u <=? 8) = true.
Proof.
  split; [intros [<-|[<-|[<-|[<-|[]]]]]; reflexivity|]. intros H. apply andb_prop in H. destruct H as (H & L).
  assert (u = 0 \/ u = 1 \/ u = 2 \/ u = 3 \/ u = 4 \/ u = 5 \/ u = 6 \/ u = 7 \/ u = 8) as C by lia.
  repeat destruct C as [->|C]; try discriminate H; try (cbn; tauto). subst u. cbn. tauto.
Qed.
Lemma single_b b : In b [1; 2; 4; 8; 12; 16] <-> (has_single_bit b && (b <=? 16)) || (b =? 12) = true.
Proof.
  split; [intros [<-|[<-|[<-|[<-|[<-|[<-|[]]]]]]]; reflexivity|]. intros H.
  assert (L : b <= 16) by (destruct (N.leb_spec b 16); [assumption|]; rewrite andb_false_r in H; cbn in H; lia).
  assert (b = 0 \/ b = 1 \/ b = 2 \/ b = 3 \/ b = 4 \/ b = 5 \/ b = 6 \/ b = 7 \/ b = 8 \/ b = 9 \/ b = 10 \/
    b = 11 \/ b = 12 \/ b = 13 \/ b = 14 \/ b = 15 \/ b = 16) as C by lia.
  repeat destruct C as [->|C]; try discriminate H; try (cbn; tauto). subst b. cbn. tauto.
Qed.
Lemma num_eval u b : In u [1; 2; 4; 8] -> In b [1; 2; 4; 8; 12; 16] ->
  get_numerologies u b = Ok (mkNum (10 * u) (2 * u) (64 * b) (8 * b) (56 * b) (4 * b - 1) (4 * b)).
Proof.
  intros U B. unfold get_numerologies. rewrite (proj1 (single_u u) U), (proj1 (single_b b) B). cbn [guard].
  destruct U as [<-|[<-|[<-|[<-|[]]]]]; destruct B as [<-|[<-|[<-|[<-|[<-|[<-|[]]]]]]]; vm_compute; reflexivity.
Qed.
Lemma upto_11 x : x <= 11 -> In x [0; 1; 2; 3; 4; 5; 6; 7; 8; 9; 10; 11].
Proof. intros H. cbn. lia. Qed.
Lemma tm_eval i : i <= 11 -> exists t, get_tm_mode i = Ok t /\ N_eff_TX t = eff_antennas i /\ N_SS t = streams i /\
  nth_error tm_table (N.to_nat i) = Some t.
Proof.
  intros H. apply upto_11 in H.
  repeat destruct H as [<-|H]; try (eexists; repeat split; vm_compute; reflexivity). destruct H.
Qed.
Lemma mcs_eval i : i <= 11 -> exists m, get_mcs i = Ok m /\ N_bps m = bits_per_cell i /\ R_num m = rate_num i /\
  R_den m = rate_den i /\ nth_error mcs_table (N.to_nat i) = Some m.
Proof.
  intros H. apply upto_11 in H.
  repeat destruct H as [<-|H]; try (eexists; repeat split; vm_compute; reflexivity). destruct H.
Qed.
Lemma eff_cases i : i <= 11 -> In (eff_antennas i) [1; 2; 4; 8].
Proof. intros H. apply upto_11 in H. repeat destruct H as [<-|H]; try (cbn; tauto). Qed.
Lemma streams_cases i : i <= 11 -> 1 <= streams i <= eff_antennas i /\ streams i <= 8.
Proof. intros H. apply upto_11 in H. repeat destruct H as [<-|H]; try (vm_compute; intuition congruence). Qed.
Lemma mcs_cases i : i <= 11 -> 1 <= bits_per_cell i <= 10 /\ 1 <= rate_num i <= 5 /\ 2 <= rate_den i <= 6 /\ rate_num i < rate_den i.
Proof. intros H. apply upto_11 in H. repeat destruct H as [<-|H]; try (repeat split; vm_compute; congruence). destruct H. Qed.

Section Eval.
Context (d : psdef) (S0 : supported d).
Notation u := (d_u d). Notation b := (d_b d). Notation n := (symbols d).
Notation e := (eff_antennas (d_tm d)). Notation occ := (56 * d_b d).
Let SU : In u [1; 2; 4; 8]. Proof. apply S0. Qed.
Let SB : In b [1; 2; 4; 8; 12; 16]. Proof. apply S0. Qed.
Let SE : In e [1; 2; 4; 8]. Proof. apply eff_cases, S0. Qed.

Lemma symbols_bounds : 5 <= n <= 1280 /\ n mod 5 = 0.
Proof.
  destruct S0 as (_ & _ & T & L & _). unfold symbols.
  destruct (d_type d =? 0); [lia|]. destruct SU as [<-|[<-|[<-|[<-|[]]]]]; lia.
Qed.
Lemma symbols_eval : get_N_PACKET_symb (d_type d) (d_length d) (10 * u) (2 * u) = Ok n.
Proof.
  destruct S0 as (_ & _ & T & L & _). unfold get_N_PACKET_symb, symbols.
  assert (0 < u <= 8) by (destruct SU as [<-|[<-|[<-|[<-|[]]]]]; lia).
  destruct (d_type d =? 0).
  - replace (2 * u =? 0) with false by lia. f_equal.
    destruct SU as [<-|[<-|[<-|[<-|[]]]]]; rewrite mul32_small by lia; lia.
  - f_equal. destruct SU as [<-|[<-|[<-|[<-|[]]]]]; rewrite mul32_small by lia; lia.
Qed.
Lemma df_eval : get_N_DF_symb u n = n - overhead u /\ overhead u + 1 <= n /\ 2 <= overhead u <= 4.
Proof.
  pose proof symbols_bounds as (B & _). unfold get_N_DF_symb, overhead.
  destruct SU as [<-|[<-|[<-|[<-|[]]]]]; cbn [N.eqb Pos.eqb orb]; rewrite sub32_small by lia; lia.
Qed.
Definition excluded : bool :=
  ((e =? 4) && (n <? 15)) || ((u =? 8) && (e =? 8) && ((n <? 20) || negb (n mod 10 =? 0))).
Lemma excluded_spec : excluded = false <-> room_for_reference d.
Proof. unfold excluded, room_for_reference. lia. Qed.
Lemma nof_drs_eval : excluded = false -> get_nof_DRS_symb u n e = Ok (reference_symbols d).
Proof.
  unfold excluded. intros X. apply orb_false_elim in X. destruct X as (X1 & X2).
  pose proof symbols_bounds as (B & M). unfold get_nof_DRS_symb. rewrite X1, X2. cbn [negb guard].
  unfold reference_symbols. destruct (e <=? 2) eqn:E; cbn [N.eqb Pos.eqb andb]; [reflexivity|].
  destruct (n mod 10 =? 0) eqn:T; cbn [negb]; [f_equal; lia|].
  rewrite (guard_true (n mod 5 =? 0)) by lia. rewrite add32_small by lia. f_equal. lia.
Qed.
Lemma refsym_le : reference_symbols d <= 256.
Proof. pose proof symbols_bounds. unfold reference_symbols. destruct (e <=? 2); lia. Qed.
Lemma drs_eval : excluded = false -> get_N_DRS_subc u n e occ = Ok (reference_cells d) /\ reference_cells d <= 14680064.
Proof.
  intros X. unfold get_N_DRS_subc. rewrite (nof_drs_eval X). cbn [bind]. pose proof refsym_le as R.
  unfold reference_cells. set (k := reference_symbols d) in *.
  destruct SE as [<-|[<-|[<-|[<-|[]]]]]; destruct SB as [<-|[<-|[<-|[<-|[<-|[<-|[]]]]]]];
    (split; [f_equal; match goal with |- mul32 ?x _ = _ => let y := eval vm_compute in x in change x with y end;
             rewrite mul32_small by lia; lia | lia]).
Qed.
Lemma pdc_eval : excluded = false -> get_N_PDC_subc n u e occ = Ok (Z.to_N (data_cells d)).
Proof.
  intros X. destruct (drs_eval X) as (D & DB). unfold get_N_PDC_subc. rewrite D. cbn [bind].
  destruct df_eval as (F & F1 & F2). rewrite F. pose proof symbols_bounds as (B & _).
  assert (b <= 16) by (destruct SB as [<-|[<-|[<-|[<-|[<-|[<-|[]]]]]]]; lia).
  assert ((n - overhead u) * (56 * b) <= 1280 * 896) by (apply N.mul_le_mono; lia).
  rewrite mul32_small by lia. rewrite add32_small by lia. unfold data_cells.
  destruct (N.leb_spec ((n - overhead u) * (56 * b)) (reference_cells d + 98)) as [L|L]; f_equal;
    set (P := (n - overhead u) * (56 * b)) in *; clearbody P; [lia|].
  rewrite (sub32_small P) by lia. rewrite sub32_small by lia. lia.
Qed.
Lemma cells_bound : Z.to_N (data_cells d) <= 1146880.
Proof.
  unfold data_cells. pose proof symbols_bounds as (B & _).
  assert (b <= 16) by (destruct SB as [<-|[<-|[<-|[<-|[<-|[<-|[]]]]]]]; lia).
  assert ((n - overhead u) * (56 * b) <= 1280 * 896) by (apply N.mul_le_mono; lia).
  set (P := (n - overhead u) * (56 * b)) in *. clearbody P. lia.
Qed.
Notation ss := (streams (d_tm d)). Notation bps := (bits_per_cell (d_mcs d)).
Lemma G_eval : get_G ss (Z.to_N (data_cells d)) bps = ss * Z.to_N (data_cells d) * bps /\
  ss * Z.to_N (data_cells d) * bps <= 91750400.
Proof.
  pose proof cells_bound as CB. destruct S0 as (_ & _ & _ & _ & T & M & _).
  destruct (streams_cases _ T) as (_ & S8). destruct (mcs_cases _ M) as (B10 & _).
  assert (ss * Z.to_N (data_cells d) <= 8 * 1146880) by (apply N.mul_le_mono; lia).
  assert (ss * Z.to_N (data_cells d) * bps <= 9175040 * 10) by (apply N.mul_le_mono; lia).
  unfold get_G. rewrite (mul32_small ss) by lia. rewrite mul32_small by lia. split; [reflexivity|lia].
Qed.
Lemma budget_bound : budget d < 2147483648.
Proof.
  destruct G_eval as (_ & G). destruct S0 as (_ & _ & _ & _ & _ & M & _). destruct (mcs_cases _ M) as (_ & R1 & R2 & _).
  unfold budget.
  assert (ss * Z.to_N (data_cells d) * bps * rate_num (d_mcs d) <= 91750400 * 5) by (apply N.mul_le_mono; lia).
  apply N.le_lt_trans with (91750400 * 5); [|lia].
  etransitivity; [apply N.div_le_mono with (c := rate_den (d_mcs d)); [lia|exact H]|].
  apply N.div_le_upper_bound; [lia|]. nia.
Qed.
Lemma bits_eval : get_N_PDC_bits ss (Z.to_N (data_cells d)) bps (rate_num (d_mcs d)) (rate_den (d_mcs d)) = Ok (budget d).
Proof.
  destruct G_eval as (E & G). destruct S0 as (_ & _ & _ & _ & _ & M & _). destruct (mcs_cases _ M) as (_ & R1 & R2 & _).
  unfold get_N_PDC_bits. replace (rate_den (d_mcs d) =? 0) with false by lia. rewrite E.
  assert (ss * Z.to_N (data_cells d) * bps * rate_num (d_mcs d) <= 91750400 * 5) by (apply N.mul_le_mono; lia).
  rewrite mul32_small by lia. reflexivity.
Qed.

Definition stf_len : N := if u =? 1 then 112 * b else 144 * b.
Definition gi_len : N := if u =? 1 then 32 * b else if u =? 8 then 144 * b else 72 * b.
Lemma samples_eval :
  get_N_samples_OFDM_symbol b = 72 * b /\ get_N_samples_STF u b = stf_len /\
  get_N_samples_STF_CP_only u b = stf_len - 64 * b /\ get_N_samples_GI u b = gi_len /\
  get_N_samples_DF u b n = 72 * b * (n - overhead u) /\
  add32 stf_len (72 * b * (n - overhead u)) = stf_len + 72 * b * (n - overhead u) /\
  add32 (stf_len + 72 * b * (n - overhead u)) gi_len = 72 * b * n /\
  add32 (add32 (add32 (stf_len - 64 * b) (mul32 64 b)) (72 * b * (n - overhead u))) gi_len = 72 * b * n /\
  mul32 (72 * b) n = 72 * b * n /\ 64 * b <= stf_len /\
  stf_len + 72 * b * (n - overhead u) + gi_len = 72 * b * n.
Proof.
  pose proof symbols_bounds as (B & _). destruct df_eval as (F & F1 & F2).
  unfold get_N_samples_DF. rewrite F.
  unfold stf_len, gi_len, get_N_samples_STF_CP_only, get_N_samples_STF, get_N_samples_GI, get_N_samples_OFDM_symbol.
  unfold overhead in *.
  destruct SU as [<-|[<-|[<-|[<-|[]]]]]; destruct SB as [<-|[<-|[<-|[<-|[<-|[<-|[]]]]]]];
    
    cbn [N.eqb Pos.eqb orb] in *; unfold mul32, add32, sub32 in *; repeat split; lia.
Qed.
End Eval.

Lemma supported_guards d : supported d ->
  has_single_bit (d_u d) && (d_u d <=? 8) = true /\
  (has_single_bit (d_b d) && (d_b d <=? 16)) || (d_b d =? 12) = true /\
  (d_type d <=? 1) = true /\ (0 <? d_length d) && (d_length d <=? 16) = true /\
  (d_tm d <=? 11) = true /\ (d_mcs d <=? 11) = true /\ (d_Z d =? 2048) || (d_Z d =? 6144) = true.
Proof.
  intros (U & B & T & L & M & C & Z). split; [apply single_u; auto|]. split; [apply single_b; auto|].
  repeat split; try lia. destruct Z as [<-|[<-|[]]]; reflexivity.
Qed.
Lemma unsupported_aborts d : ~ supported d -> get_packet_sizes d = Abort.
Proof.
  intros H. unfold get_packet_sizes.
  destruct (has_single_bit (d_u d) && (d_u d <=? 8)) eqn:E1; [|reflexivity]. cbn [guard].
  destruct (has_single_bit (d_b d) && (d_b d <=? 16) || (d_b d =? 12)) eqn:E2; [|reflexivity]. cbn [guard].
  destruct (d_type d <=? 1) eqn:E3; [|reflexivity]. cbn [guard].
  destruct ((0 <? d_length d) && (d_length d <=? 16)) eqn:E4; [|reflexivity]. cbn [guard].
  destruct (d_tm d <=? 11) eqn:E5; [|reflexivity]. cbn [guard].
  destruct (d_mcs d <=? 11) eqn:E6; [|reflexivity]. cbn [guard].
  destruct ((d_Z d =? 2048) || (d_Z d =? 6144)) eqn:E7; [|reflexivity]. exfalso. apply H.
  split; [apply single_u; auto|]. split; [apply single_b; auto|]. repeat split; try lia.
  cbn. lia.
Qed.

(** Everything up to the transport block size. *)
Definition rest (d : psdef) : res (option packet_sizes) :=
  do mc <- get_mcs (d_mcs d) ;
  do tm <- get_tm_mode (d_tm d) ;
  let n := symbols d in
  let pdc := Z.to_N (data_cells d) in
  do tb <- tb_of_bits (budget d) (d_Z d) ;
  if tb =? 0 then Ok None
  else
    do byte <- ceil_divide_integer 32 tb 8 ;
    do sg <- cbsegm tb (d_Z d) ;
    match sg with
    | None => Abort
    | Some sg =>
        if 0 <? sg_F sg then Ok None
        else Ok (Some (mkSizes d
               (mkNum (10 * d_u d) (2 * d_u d) (64 * d_b d) (8 * d_b d) (56 * d_b d) (4 * d_b d - 1) (4 * d_b d))
               mc tm n pdc (streams (d_tm d) * pdc * bits_per_cell (d_mcs d)) (budget d) tb byte (sg_C sg)
               (n - overhead (d_u d)) (reference_cells d) (72 * d_b d) (stf_len d) (stf_len d - 64 * d_b d)
               (72 * d_b d * (n - overhead (d_u d))) (gi_len d)
               (stf_len d + 72 * d_b d * (n - overhead (d_u d))) (72 * d_b d * n)))
    end.
Lemma sizes_eval d : supported d ->
  get_packet_sizes d =
  if excluded d then Ok None else if Z.to_N (data_cells d) =? 0 then Ok None else rest d.
Proof.
  intros S0. destruct (supported_guards d S0) as (E1 & E2 & E3 & E4 & E5 & E6 & E7).
  unfold get_packet_sizes, rest. rewrite E1, E2, E3, E4, E5, E6, E7. cbn [guard].
  pose proof S0 as (U & B & _ & _ & T & M & _).
  rewrite (num_eval _ _ U B). cbn [bind N_SLOT_u_symb N_SLOT_u_subslot N_b_OCC].
  rewrite (symbols_eval d S0). cbn [bind]. pose proof (symbols_bounds d S0) as (SB1 & SB2).
  rewrite guard_true by lia.
  destruct (tm_eval _ T) as (tm & TE & T1 & T2 & _). rewrite TE. cbn [bind]. rewrite T1, T2.
  unfold excluded. destruct ((eff_antennas (d_tm d) =? 4) && (symbols d <? 15)) eqn:X1; [reflexivity|].
  destruct ((d_u d =? 8) && (eff_antennas (d_tm d) =? 8) && ((symbols d <? 20) || negb (symbols d mod 10 =? 0))) eqn:X2; [reflexivity|].
  assert (X : excluded d = false) by (unfold excluded; rewrite X1, X2; reflexivity). cbn [orb].
  rewrite (pdc_eval d S0 X). cbn [bind]. destruct (Z.to_N (data_cells d) =? 0); [reflexivity|].
  destruct (mcs_eval _ M) as (mc & ME & M1 & M2 & M3 & _). rewrite ME. cbn [bind]. rewrite M1, M2, M3.
  unfold get_N_TB_bits. rewrite (bits_eval d S0). cbn [bind].
  destruct (tb_of_bits (budget d) (d_Z d)) as [tb| | |]; cbn [bind]; try reflexivity.
  destruct (tb =? 0); [reflexivity|].
  destruct (ceil_divide_integer 32 tb 8) as [by_| | |]; cbn [bind]; try reflexivity.
  destruct (cbsegm tb (d_Z d)) as [[sg|]| | |]; cbn [bind]; try reflexivity.
  destruct (0 <? sg_F sg); [reflexivity|].
  destruct (drs_eval d S0 X) as (DE & _). rewrite DE. cbn [bind].
  destruct (samples_eval d S0) as (P1 & P2 & P3 & P4 & P5 & P6 & P7 & P8 & P9 & P10 & P11).
  destruct (df_eval d S0) as (F1 & _). destruct (G_eval d S0) as (G1 & _).
  rewrite P1, P2, P3, P4, P5, P6, P7, P8, P9, F1, G1. rewrite !guard_true by apply N.eqb_refl. reflexivity.
Qed.

Lemma sum_app a b : sum (a ++ b) = sum a + sum b.
Proof. induction a as [|x a IH]; cbn; [reflexivity|]. unfold sum in *. rewrite IH. lia. Qed.
Lemma sum_repeat k n : sum (repeat k n) = N.of_nat n * k.
Proof. induction n as [|n IH]; cbn [repeat sum fold_right]; [reflexivity|]. unfold sum in IH. rewrite IH. lia. Qed.
(** The blocks of a segmentation result. *)
Definition blocks_of (s : segm) : list N :=
  repeat (sg_K1 s) (N.to_nat (sg_C1 s)) ++ repeat (sg_K2 s) (N.to_nat (sg_C2 s)).
Lemma blocks_length s t Z : well_segmented t Z s -> N.of_nat (length (blocks_of s)) = sg_C s.
Proof. intros (A & _). unfold blocks_of. rewrite app_length, !repeat_length. lia. Qed.
Lemma checksum_length l : l <> [] -> checksum_bits l = 24 + (if N.of_nat (length l) =? 1 then 0 else 24 * N.of_nat (length l)).
Proof.
  destruct l as [|x [|y l]]; [congruence| |]; intros _; cbn [checksum_bits length]; [reflexivity|].
  destruct (N.eqb_spec (N.of_nat (S (S (length l)))) 1); [lia|reflexivity].
Qed.
Lemma blocks_segmentation s t Z : well_segmented t Z s -> sg_F s = 0 -> segmentation t Z (blocks_of s).
Proof.
  intros W F. pose proof (blocks_length s t Z W) as L. destruct W as (A & B & C & D & E & G & _).
  assert (NE : blocks_of s <> []).
  { intros X. rewrite X in L. cbn in L. lia. }
  split; [exact NE|]. split.
  - unfold blocks_of. apply Forall_app. split; apply Forall_forall; intros k H; apply repeat_spec in H as Q; subst k.
    + auto.
    + destruct E as [E|E]; [rewrite E in H; destruct H|exact E].
  - rewrite checksum_length, L by exact NE. unfold blocks_of. rewrite sum_app, !sum_repeat, !N2Nat.id, G, F.
    destruct (sg_C s =? 1); lia.
Qed.

Lemma small_tb8 Z : In Z [2048; 6144] -> exists s, cbsegm 8 Z = Ok (Some s) /\ 0 < sg_F s.
Proof. intros [<-|[<-|[]]]; eexists; (split; [vm_compute; reflexivity|]); vm_compute; reflexivity. Qed.
Lemma rest_small d : supported d -> budget d < 40 -> rest d = Ok None.
Proof.
  intros S0 B. pose proof S0 as (_ & _ & _ & _ & T & M & Z). unfold rest.
  destruct (mcs_eval _ M) as (mc & -> & _). destruct (tm_eval _ T) as (tm & -> & _). cbn [bind].
  destruct (tb_small _ _ Z B) as (t & -> & [->| ->] & _); cbn [bind]; [reflexivity|].
  rewrite ceil_ok by lia. cbn [bind N.eqb Pos.eqb]. destruct (small_tb8 _ Z) as (s & -> & F). cbn [bind].
  replace (0 <? sg_F s) with true by lia. reflexivity.
Qed.
Lemma budget_cells d : 40 <= budget d -> Z.to_N (data_cells d) =? 0 = false.
Proof.
  intros B. destruct (N.eqb_spec (Z.to_N (data_cells d)) 0) as [E|]; [|reflexivity].
  exfalso. unfold budget in B. rewrite E in B. rewrite N.mul_0_r, !N.mul_0_l in B.
  destruct (rate_den (d_mcs d)); cbn in B; lia.
Qed.
(** The sizes of a possible packet. *)
Lemma sizes_possible d : supported d -> possible d ->
  exists mc tm t s,
    nth_error mcs_table (N.to_nat (d_mcs d)) = Some mc /\ nth_error tm_table (N.to_nat (d_tm d)) = Some tm /\
    tb_of_bits (budget d) (d_Z d) = Ok t /\ 0 < t /\ t mod 8 = 0 /\ cbsegm t (d_Z d) = Ok (Some s) /\
    sg_F s = 0 /\ well_segmented t (d_Z d) s /\
    t + 24 + (if sg_C s =? 1 then 0 else 24 * sg_C s) = granted (budget d) /\
    get_packet_sizes d = Ok (Some (mkSizes d
       (mkNum (10 * d_u d) (2 * d_u d) (64 * d_b d) (8 * d_b d) (56 * d_b d) (4 * d_b d - 1) (4 * d_b d))
       mc tm (symbols d) (Z.to_N (data_cells d))
       (streams (d_tm d) * Z.to_N (data_cells d) * bits_per_cell (d_mcs d)) (budget d) t (t / 8) (sg_C s)
       (symbols d - overhead (d_u d)) (reference_cells d) (72 * d_b d) (stf_len d) (stf_len d - 64 * d_b d)
       (72 * d_b d * (symbols d - overhead (d_u d))) (gi_len d)
       (stf_len d + 72 * d_b d * (symbols d - overhead (d_u d))) (72 * d_b d * symbols d))).
Proof.
  intros S0 (R & B). pose proof S0 as (_ & _ & _ & _ & T & M & Z).
  apply excluded_spec in R. pose proof (sizes_eval d S0) as E. rewrite R, (budget_cells d B) in E.
  unfold rest in E. destruct (mcs_eval _ M) as (mc & ME & _ & _ & _ & MN).
  destruct (tm_eval _ T) as (tm & TE & _ & _ & TN). rewrite ME, TE in E. cbn [bind] in E.
  destruct (tb_segmented (budget d) (d_Z d) Z) as (t & s & A1 & A2 & A3 & A4 & A5 & A6 & A7 & A8).
  { split; [exact B|apply budget_bound; exact S0]. }
  rewrite A1 in E. cbn [bind] in E. replace (t =? 0) with false in E by lia.
  rewrite ceil_ok in E by lia. cbn [bind] in E. rewrite A5 in E. cbn [bind] in E. rewrite A6 in E.
  change (0 <? 0) with false in E. cbv iota in E.
  replace ((t + 8 - 1) / 8) with (t / 8) in E by lia.
  exists mc, tm, t, s. do 9 (split; [assumption|]). exact E.
Qed.
Lemma possible_dec d : {possible d} + {~ possible d}.
Proof.
  unfold possible. destruct (excluded d) eqn:X.
  - right. intros (R & _). apply excluded_spec in R. congruence.
  - destruct (N.leb 40 (budget d)) eqn:B; [left|right]; [split; [apply excluded_spec; assumption|lia]|lia].
Qed.
Lemma sizes_impossible d : supported d -> ~ possible d -> get_packet_sizes d = Ok None.
Proof.
  intros S0 P. rewrite (sizes_eval d S0). destruct (excluded d) eqn:X; [reflexivity|].
  destruct (Z.to_N (data_cells d) =? 0); [reflexivity|]. apply rest_small; [exact S0|].
  destruct (N.le_gt_cases 40 (budget d)); [|assumption]. exfalso. apply P. split; [apply excluded_spec|]; assumption.
Qed.
Lemma sizes_consistent d q : supported d -> possible d -> get_packet_sizes d = Ok (Some q) -> consistent d q.
Proof.
  intros S0 P E. destruct (sizes_possible d S0 P) as (mc & tm & t & s & _ & _ & A1 & A2 & A3 & A4 & A5 & A6 & A7 & E').
  rewrite E in E'. injection E' as ->. clear E.
  destruct (df_eval d S0) as (_ & F1 & F2).
  destruct (samples_eval d S0) as (_ & _ & _ & _ & _ & _ & _ & _ & _ & P10 & P11).
  pose proof (budget_cells d (proj2 P)) as BC. pose proof (granted_spec (budget d)) as (G1 & G2 & _).
  unfold consistent.
  cbn [q_psdef q_N_PACKET_symb q_N_DF_symb q_N_DRS_subc q_N_PDC_subc q_G q_N_PDC_bits q_N_TB_bits q_N_TB_byte q_C
       q_OFDM_symbol q_STF q_STF_CP_only q_DF q_GI q_packet_no_GI q_packet].
  split; [reflexivity|]. split; [reflexivity|]. split; [lia|]. split; [reflexivity|].
  split. { apply N.eqb_neq in BC. unfold data_cells in *.
    set (X := (symbols d - overhead (d_u d)) * (56 * d_b d)) in *. clearbody X. lia. }
  split; [apply N.eqb_neq in BC; lia|]. split; [reflexivity|]. split; [reflexivity|]. split; [exact A2|]. split; [lia|].
  split. { exists (blocks_of s). pose proof (blocks_segmentation s t _ A6 A5) as SG. pose proof (blocks_length _ _ _ A6) as BL.
    split; [exact SG|]. split; [lia|]. destruct SG as (NE & _ & SM). rewrite SM, checksum_length, BL by exact NE.
    destruct (sg_C s =? 1); lia. }
  split; [reflexivity|]. split; [reflexivity|]. split; [lia|]. split; [lia|]. split; [reflexivity|]. split; [lia|]. lia.
Qed.
