(** Facts about the reports and tables of part 2. *)
From Coq Require Import QArith Qround Lqa.
From Verif Require Import Base Part2 Part2Spec.
Open Scope Z_scope.

Lemma floor_iff : forall x n, Qfloor x = n <-> (inject_Z n <= x < inject_Z n + 1)%Q.
Proof.
  intros x n. split.
  - intros <-. split; [apply Qfloor_le|]. assert (U := Qlt_floor x). rewrite inject_Z_plus in U. exact U.
  - intros [L U]. assert (A := Qfloor_le x). assert (B := Qlt_floor x). rewrite inject_Z_plus in B. change (inject_Z 1) with 1%Q in B.
    assert (C : (inject_Z (Qfloor x) < inject_Z (n + 1))%Q) by (rewrite inject_Z_plus; change (inject_Z 1) with 1%Q; lra).
    assert (D : (inject_Z n < inject_Z (Qfloor x + 1))%Q) by (rewrite inject_Z_plus; change (inject_Z 1) with 1%Q; lra).
    rewrite <- Zlt_Qlt in C, D. lia.
Qed.

Lemma Qnle : forall a b, Qle_bool a b = false -> (b < a)%Q.
Proof. intros a b H. apply Qnot_le_lt. intros Q. apply Qle_bool_iff in Q. congruence. Qed.

Lemma inj_le : forall a b, (inject_Z a < inject_Z b)%Q -> a < b.
Proof. intros a b H. rewrite Zlt_Qlt. exact H. Qed.

Ltac inj := rewrite ?inject_Z_plus, ?inject_Z_opp; unfold Z.sub; rewrite ?inject_Z_plus; cbn [inject_Z].

Lemma rssi_ok : forall x, (- inject_Z (2 ^ 30) <= x)%Q -> exists v, rssi_report (Fin x) = Ok v /\ rssi_means v x.
Proof.
  intros x H. unfold rssi_report. destruct (Qle_bool x (- 41 # 2)) eqn:E; cbn [negb bind].
  2: { exists 1. split; [reflexivity|]. left. split; [reflexivity|]. exact (Qnle _ _ E). }
  apply Qle_bool_iff in E. set (f := Qfloor ((- (41 # 2) - x) / (1 # 2))).
  destruct (proj1 (floor_iff _ f) eq_refl) as [L U].
  assert (Q : ((- (41 # 2) - x) / (1 # 2) == 2 * (- (41 # 2) - x))%Q) by field. rewrite Q in L, U. clear Q.
  change (inject_Z (2 ^ 30)) with 1073741824%Q in H.
  assert (F0 : 0 <= f).
  { assert ((inject_Z (- 1) < inject_Z f)%Q) by (change (inject_Z (- 1)) with (- (1))%Q; lra). apply inj_le in H0. lia. }
  assert (F1 : f < 2 ^ 31).
  { apply inj_le. change (inject_Z (2 ^ 31)) with 2147483648%Q. lra. }
  unfold cast_u32. rewrite (proj2 (Z.ltb_lt f (2 ^ 32))) by lia. cbn [bind]. rewrite Z.mod_small by lia.
  eexists. split; [reflexivity|]. destruct (Z.ltb_spec 182 (2 + f)) as [G|G].
  - right. right. split; [reflexivity|]. assert ((inject_Z 181 <= inject_Z f)%Q) by (rewrite <- Zle_Qle; lia).
    change (inject_Z 181) with 181%Q in H0. lra.
  - destruct (Z.eq_dec (2 + f) 182) as [G2|G2].
    + right. right. split; [exact G2|]. assert ((inject_Z 180 <= inject_Z f)%Q) by (rewrite <- Zle_Qle; lia).
      change (inject_Z 180) with 180%Q in H0. lra.
    + right. left. split; [lia|]. replace (2 + f - 1) with (f + 1) by lia. replace (2 + f - 2) with f by lia.
      rewrite inject_Z_plus. change (inject_Z 1) with 1%Q. set (y := inject_Z f) in *.
      assert (A : ((y + 1) / 2 == (1 # 2) * y + (1 # 2))%Q) by field. assert (B : (y / 2 == (1 # 2) * y)%Q) by field.
      rewrite A, B. split; lra.
Qed.

Lemma snr_ok : forall x, (x <= inject_Z (2 ^ 29))%Q -> exists v, snr_report (Fin x) = Ok v /\ snr_means v x.
Proof.
  intros x H. unfold snr_report. destruct (Qle_bool (- 19 # 4) x) eqn:E; cbn [negb bind].
  2: { exists 1. split; [reflexivity|]. left. split; [reflexivity|]. exact (Qnle _ _ E). }
  apply Qle_bool_iff in E. set (f := Qfloor (((19 # 4) + x) / (1 # 4))).
  destruct (proj1 (floor_iff _ f) eq_refl) as [L U].
  assert (Q : (((19 # 4) + x) / (1 # 4) == 4 * ((19 # 4) + x))%Q) by field. rewrite Q in L, U. clear Q.
  change (inject_Z (2 ^ 29)) with 536870912%Q in H.
  assert (F0 : 0 <= f).
  { assert ((inject_Z (- 1) < inject_Z f)%Q) by (change (inject_Z (- 1)) with (- (1))%Q; lra). apply inj_le in H0. lia. }
  assert (F1 : f < 2 ^ 31 + 100).
  { apply inj_le. change (inject_Z (2 ^ 31 + 100)) with 2147483748%Q. lra. }
  unfold cast_u32. rewrite (proj2 (Z.ltb_lt f (2 ^ 32))) by lia. cbn [bind]. rewrite Z.mod_small by lia.
  eexists. split; [reflexivity|]. destruct (Z.ltb_spec 201 (2 + f)) as [G|G].
  - right. right. split; [reflexivity|]. assert ((inject_Z 200 <= inject_Z f)%Q) by (rewrite <- Zle_Qle; lia).
    change (inject_Z 200) with 200%Q in H0. lra.
  - destruct (Z.eq_dec (2 + f) 201) as [G2|G2].
    + right. right. split; [exact G2|]. assert ((inject_Z 199 <= inject_Z f)%Q) by (rewrite <- Zle_Qle; lia).
      change (inject_Z 199) with 199%Q in H0. lra.
    + right. left. split; [lia|]. replace (2 + f - 1) with (f + 1) by lia. replace (2 + f - 2) with f by lia.
      rewrite inject_Z_plus. change (inject_Z 1) with 1%Q. set (y := inject_Z f) in *.
      assert (A : ((y + 1) / 4 == (1 # 4) * y + (1 # 4))%Q) by field. assert (B : (y / 4 == (1 # 4) * y)%Q) by field.
      rewrite A, B. split; lra.
Qed.

Lemma inj_nn : forall a b, a <= b -> (inject_Z a <= inject_Z b)%Q.
Proof. intros a b H. rewrite <- Zle_Qle. exact H. Qed.

(** A larger report stands for lower levels. *)
Lemma rssi_means_mono : forall v w x y, rssi_means v x -> rssi_means w y -> (x <= y)%Q -> w <= v.
Proof.
  intros v w x y Hv Hw H. destruct (Z_le_gt_dec w v) as [G|G]; [exact G|exfalso].
  assert (D : forall z, (inject_Z z / 2 == (1 # 2) * inject_Z z)%Q) by (intros z; field).
  destruct Hv as [[-> A]|[[B0 [B1 B2]]|[-> C]]]; destruct Hw as [[-> A']|[[B0' [B1' B2']]|[-> C']]]; try lia;
    rewrite ?D in *.
  - assert (0 <= inject_Z (w - 2))%Q by (apply (inj_nn 0); lia). lra.
  - lra.
  - assert (Q := inj_nn (v - 1) (w - 2) ltac:(lia)). lra.
  - assert (Q := inj_nn (v - 1) 180 ltac:(lia)). change (inject_Z 180) with 180%Q in Q. lra.
Qed.

Lemma snr_means_mono : forall v w x y, snr_means v x -> snr_means w y -> (x <= y)%Q -> v <= w.
Proof.
  intros v w x y Hv Hw H. destruct (Z_le_gt_dec v w) as [G|G]; [exact G|exfalso].
  assert (D : forall z, (inject_Z z / 4 == (1 # 4) * inject_Z z)%Q) by (intros z; field).
  destruct Hv as [[-> A]|[[B0 [B1 B2]]|[-> C]]]; destruct Hw as [[-> A']|[[B0' [B1' B2']]|[-> C']]]; try lia;
    rewrite ?D in *.
  - assert (0 <= inject_Z (v - 2))%Q by (apply (inj_nn 0); lia). lra.
  - assert (Q := inj_nn (w - 1) (v - 2) ltac:(lia)). lra.
  - lra.
  - assert (Q := inj_nn (w - 1) 199 ltac:(lia)). change (inject_Z 199) with 199%Q in Q. lra.
Qed.
