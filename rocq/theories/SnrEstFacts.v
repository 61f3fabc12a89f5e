(** Facts about the estimator of the signal-to-noise ratio. *)
From Coq Require Import QArith Lqa Permutation.
From Verif Require Import Base SnrEst SnrEstSpec.
Open Scope nat_scope.

Lemma qsum_cons : forall A (f : A -> Q) x l, qsum f (x :: l) = (f x + qsum f l)%Q.
Proof. reflexivity. Qed.
Lemma qsum_nil : forall A (f : A -> Q), qsum f [] = 0%Q.
Proof. reflexivity. Qed.
Lemma qsum_app : forall A (f : A -> Q) l r, (qsum f (l ++ r) == qsum f l + qsum f r)%Q.
Proof. induction l as [|x l IH]; intros r; cbn [app]; rewrite ?qsum_cons, ?qsum_nil; [ring|]. rewrite IH. ring. Qed.
Lemma qsum_ext : forall A (f g : A -> Q) l, (forall x, In x l -> f x == g x)%Q -> (qsum f l == qsum g l)%Q.
Proof.
  induction l as [|x l IH]; intros H; [reflexivity|]. rewrite !qsum_cons.
  rewrite (H x (or_introl eq_refl)), IH; [reflexivity|]. intros y Hy. apply H. right. exact Hy.
Qed.
Lemma qsum_nonneg : forall A (f : A -> Q) l, (forall x, 0 <= f x)%Q -> (0 <= qsum f l)%Q.
Proof. induction l as [|x l IH]; intros H; rewrite ?qsum_cons, ?qsum_nil; [lra|]. assert (A1 := H x). assert (A2 := IH H). lra. Qed.
Lemma qsum_le : forall A (f g : A -> Q) l, (forall x, f x <= g x)%Q -> (qsum f l <= qsum g l)%Q.
Proof. induction l as [|x l IH]; intros H; rewrite ?qsum_cons, ?qsum_nil; [lra|]. assert (A1 := H x). assert (A2 := IH H). lra. Qed.
Lemma qsum_scale : forall A (f : A -> Q) k l, (qsum (fun x => k * f x) l == k * qsum f l)%Q.
Proof. induction l as [|x l IH]; rewrite ?qsum_cons, ?qsum_nil; [ring|]. rewrite IH. ring. Qed.
Lemma qsum_map : forall A B (f : B -> Q) (g : A -> B) l, qsum f (map g l) = qsum (fun x => f (g x)) l.
Proof. induction l as [|x l IH]; [reflexivity|]. cbn [map]. rewrite !qsum_cons, IH. reflexivity. Qed.
Lemma qsum_perm : forall A (f : A -> Q) l r, Permutation l r -> (qsum f l == qsum f r)%Q.
Proof.
  intros A f l r H. induction H; rewrite ?qsum_cons.
  - reflexivity.
  - rewrite IHPermutation. reflexivity.
  - ring.
  - rewrite IHPermutation1. exact IHPermutation2.
Qed.

Lemma sq_nonneg : forall a, (0 <= a * a)%Q.
Proof. intros a. nra. Qed.
Lemma mag_nonneg : forall z, (0 <= mag z)%Q.
Proof. intros z. unfold mag. assert (A := sq_nonneg (fst z)). assert (B := sq_nonneg (snd z)). lra. Qed.

Lemma self_dot_sum : forall l, self_dot l = qsum mag l.
Proof. induction l as [|z l IH]; [reflexivity|]. cbn [self_dot]. rewrite qsum_cons, IH. reflexivity. Qed.

Lemma pairwise_map : forall (v : vec) n k, pairwise (map v (seq k n)) =
  map (fun i => ((fst (v i) - fst (v (S i)))%Q, (snd (v i) - snd (v (S i)))%Q)) (seq k (n - 1)).
Proof.
  induction n as [|n IH]; intros k; [reflexivity|]. destruct n as [|n]; [reflexivity|].
  change (seq k (S (S n))) with (k :: S k :: seq (S (S k)) n). cbn [map].
  specialize (IH (S k)). change (seq (S k) (S n)) with (S k :: seq (S (S k)) n) in IH. cbn [map] in IH.
  change (S (S n) - 1) with (S n). change (seq k (S n)) with (k :: seq (S k) n). cbn [map].
  change (S n - 1) with n in IH || replace (S n - 1) with n in IH by lia. rewrite <- IH. reflexivity.
Qed.

Lemma packed_energy : forall n (v : vec), (self_dot (map v (seq 0 n)) == energy n v)%Q.
Proof. intros. rewrite self_dot_sum, qsum_map. reflexivity. Qed.
Lemma packed_roughness : forall n (v : vec), (self_dot (pairwise (map v (seq 0 n))) / 2 == roughness n v)%Q.
Proof.
  intros. rewrite pairwise_map, self_dot_sum, qsum_map. unfold roughness.
  rewrite (qsum_ext _ _ (fun i => mag ((fst (v (S i)) - fst (v i))%Q, (snd (v (S i)) - snd (v i))%Q))).
  - field.
  - intros i _. unfold mag. cbn [fst snd]. ring.
Qed.

Lemma energy_nonneg : forall n v, (0 <= energy n v)%Q.
Proof. intros. apply qsum_nonneg. intros i. apply mag_nonneg. Qed.
Lemma roughness_nonneg : forall n v, (0 <= roughness n v)%Q.
Proof.
  intros. unfold roughness. assert (A := qsum_nonneg _ (fun i => mag ((fst (v (S i)) - fst (v i))%Q, (snd (v (S i)) - snd (v i))%Q)) (seq 0 (n - 1)) (fun i => mag_nonneg _)).
  lra.
Qed.

(** There is no noise without energy. *)
Lemma rough_le : forall n v, (roughness n v <= 2 * energy n v)%Q.
Proof.
  intros n v. unfold roughness, energy.
  assert (G : forall n k, (qsum (fun i => mag ((fst (v (S i)) - fst (v i))%Q, (snd (v (S i)) - snd (v i))%Q)) (seq k (n - 1))
                      <= 4 * qsum (fun i => mag (v i)) (seq k n) - match n with O => 0 | _ => 2 * mag (v k) end)%Q).
  { clear n. induction n as [|n IH]; intros k; [cbn; lra|]. destruct n as [|n].
    - cbn [Nat.sub seq]. rewrite qsum_cons, !qsum_nil. assert (A := mag_nonneg (v k)). lra.
    - specialize (IH (S k)). change (S (S n) - 1) with (S n). change (S n - 1) with n in IH || replace (S n - 1) with n in IH by lia.
      change (seq k (S (S n))) with (k :: seq (S k) (S n)). change (seq k (S n)) with (k :: seq (S k) n).
      rewrite (qsum_cons _ _ k (seq (S k) n)), (qsum_cons _ _ k (seq (S k) (S n))).
      set (X := qsum _ (seq (S k) n)) in *. set (Y := qsum _ (seq (S k) (S n))) in *.
      assert (B : (mag ((fst (v (S k)) - fst (v k))%Q, (snd (v (S k)) - snd (v k))%Q) <= 2 * mag (v (S k)) + 2 * mag (v k))%Q).
      { unfold mag. cbn [fst snd]. assert (P := sq_nonneg (fst (v (S k)) + fst (v k))). assert (Q := sq_nonneg (snd (v (S k)) + snd (v k))). lra. }
      lra. }
  specialize (G n 0). assert (A := mag_nonneg (v 0)). destruct n; lra.
Qed.

(** Value of the accumulator, with counters as multiples. *)
Definition holds (n : nat) (a : acc) (S R : Q) (k : nat) : Prop :=
  (S_plus_N_sum a == S)%Q /\ S_plus_N_cnt a = k * n /\ (N_sum a == R)%Q /\ N_cnt a = k * (n - 1).

Lemma holds_add : forall n a S R k (v : vec), holds n a S R k ->
  holds n (acc_add a (packed (map v (seq 0 n)))) (S + energy n v) (R + roughness n v) (k + 1).
Proof.
  intros n a S R k v [H1 [H2 [H3 H4]]]. unfold holds, acc_add, packed. cbn [S_plus_N_sum S_plus_N_cnt N_sum N_cnt].
  rewrite map_length, seq_length, packed_energy, packed_roughness, H1, H2, H3, H4. repeat split; lia || reflexivity.
Qed.

Lemma holds_fold : forall n (l : list vec) a S R k, holds n a S R k ->
  holds n (fold_left (fun x v => acc_add x (packed (map v (seq 0 n)))) l a)
    (S + qsum (energy n) l) (R + qsum (roughness n) l) (k + length l).
Proof.
  induction l as [|v l IH]; intros a S R k H; cbn [fold_left length]; rewrite ?qsum_cons, ?qsum_nil.
  - destruct H as [H1 [H2 [H3 H4]]]. unfold holds. rewrite H1, H2, H3, H4. repeat split; try lra; lia.
  - destruct (IH _ _ _ _ (holds_add n a S R k v H)) as [H1 [H2 [H3 H4]]]. unfold holds.
    rewrite H1, H2, H3, H4. repeat split; try lra; lia.
Qed.

Lemma fold_map : forall A B C (f : C -> B -> C) (g : A -> B) l c, fold_left f (map g l) c = fold_left (fun x y => f x (g y)) l c.
Proof. induction l as [|x l IH]; intros c; [reflexivity|]. cbn [map fold_left]. apply IH. Qed.
Lemma fold_flat : forall A B C (f : C -> B -> C) (g : A -> list B) l c,
  fold_left f (flat_map g l) c = fold_left (fun x y => fold_left f (g y) x) l c.
Proof. induction l as [|x l IH]; intros c; [reflexivity|]. cbn [flat_map fold_left]. rewrite fold_left_app. apply IH. Qed.

Lemma streams : forall f l, seq f (Nat.min l 7 + 1 - f) = filter (fun ts => (f <=? ts) && (ts <=? l)) (seq 0 8).
Proof.
  intros f l.
  assert (G : forall n k, filter (fun ts => (f <=? ts) && (ts <=? l)) (seq k n) = seq (Nat.max f k) (Nat.min (l + 1) (k + n) - Nat.max f k)).
  { induction n as [|n IH]; intros k; cbn [seq filter].
    - replace (Nat.min (l + 1) (k + 0) - Nat.max f k) with 0 by lia. reflexivity.
    - rewrite IH. destruct (Nat.leb_spec f k); destruct (Nat.leb_spec k l); cbn [andb].
      + replace (Nat.max f k) with k by lia. replace (Nat.max f (S k)) with (S k) by lia.
        replace (Nat.min (l + 1) (k + S n) - k) with (S (Nat.min (l + 1) (S k + n) - S k)) by lia. reflexivity.
      + replace (Nat.min (l + 1) (S k + n) - Nat.max f (S k)) with 0 by lia.
        replace (Nat.min (l + 1) (k + S n) - Nat.max f k) with 0 by lia. reflexivity.
      + replace (Nat.max f (S k)) with (Nat.max f k) by lia. f_equal. lia.
      + replace (Nat.min (l + 1) (S k + n) - Nat.max f (S k)) with 0 by lia.
        replace (Nat.min (l + 1) (k + S n) - Nat.max f k) with 0 by lia. reflexivity. }
  rewrite G. replace (Nat.max f 0) with f by lia. f_equal. lia.
Qed.

Lemma drs_fold : forall n ants f l a,
  fold_left (fun x ant => fold_left (fun y ts => acc_add y (packed (chestim n ant ts))) (seq f (Nat.min l (8 - 1) + 1 - f)) x) ants a =
  fold_left (fun x v => acc_add x (packed (map v (seq 0 n))))
    (flat_map (fun ant : antenna => map ant (filter (fun ts => (f <=? ts) && (ts <=? l)) (seq 0 8))) ants) a.
Proof.
  intros n ants f l. change (8 - 1) with 7. rewrite streams. intros a. rewrite fold_flat. revert a.
  induction ants as [|x ants IH]; intros a; [reflexivity|]. cbn [fold_left]. rewrite IH, fold_map. reflexivity.
Qed.

Definition total_S (n : nat) (h : list ev) : Q :=
  ((qsum (energy n) (stf_vecs h) - qsum (roughness n) (stf_vecs h)) * (1 # 4) + qsum (roughness n) (stf_vecs h)
   + qsum (energy n) (drs_vecs h))%Q.
Definition total_R (n : nat) (h : list ev) : Q := (qsum (roughness n) (stf_vecs h) + qsum (roughness n) (drs_vecs h))%Q.
Definition count (h : list ev) : nat := length (stf_vecs h) + length (drs_vecs h).

Lemma run_snoc : forall h e x, run e (h ++ [x]) = do e1 <- run e h ; step e1 x.
Proof.
  induction h as [|y h IH]; intros e x; cbn [run app bind].
  - destruct (step e x); reflexivity.
  - destruct (step e y); cbn [bind]; try reflexivity. apply IH.
Qed.

Lemma holds_eq : forall n a S R k S' R' k', holds n a S R k -> (S == S')%Q -> (R == R')%Q -> k = k' -> holds n a S' R' k'.
Proof. intros n a S R k S' R' k' [H1 [H2 [H3 H4]]] E1 E2 <-. unfold holds. rewrite H1, H3, E1, E2. repeat split; assumption || reflexivity. Qed.

Lemma run_holds : forall h b e, 1 <= b -> run (reset b) h = Ok e ->
  pilots e = b * 14 /\ holds (b * 14) (snr_acc e) (total_S (b * 14) h) (total_R (b * 14) h) (count h).
Proof.
  induction h as [|x h IH] using rev_ind; intros b e Hb H.
  - cbn in H. injection H as <-. split; [reflexivity|]. unfold holds, total_S, total_R, count. cbn. repeat split; lra.
  - rewrite run_snoc in H. destruct (run (reset b) h) as [e1| | |] eqn:E1; cbn [bind] in H; try discriminate.
    destruct (IH b e1 Hb E1) as [Hp Hh]. set (n := b * 14) in *.
    assert (Es : stf_vecs (h ++ [x]) = stf_vecs h ++ match x with Stf ants => map (fun a : antenna => a 0) ants | _ => [] end).
    { unfold stf_vecs. rewrite flat_map_app. cbn [flat_map]. rewrite app_nil_r. reflexivity. }
    assert (Ed : drs_vecs (h ++ [x]) = drs_vecs h ++ match x with Stf _ => [] | Drs ants f l =>
         flat_map (fun a : antenna => map a (filter (fun ts => (f <=? ts) && (ts <=? l)) (seq 0 8))) ants end).
    { unfold drs_vecs. rewrite flat_map_app. cbn [flat_map]. rewrite app_nil_r. reflexivity. }
    destruct x as [ants|ants f l]; cbn [step] in H.
    + unfold process_stf, guard in H.
      destruct (Nat.eqb_spec (S_plus_N_cnt (snr_acc e1)) 0) as [C|]; [|discriminate].
      destruct (Nat.eqb_spec (N_cnt (snr_acc e1)) 0) as [_|]; [|discriminate]. injection H as <-. cbn [pilots snr_acc].
      split; [exact Hp|]. rewrite Hp.
      assert (K : count h = 0). { destruct Hh as [_ [H2 _]]. rewrite H2 in C. apply Nat.eq_mul_0 in C. unfold n in C. lia. }
      assert (Z1 : stf_vecs h = []) by (unfold count in K; destruct (stf_vecs h); [reflexivity|cbn [length] in K; lia]).
      assert (Z2 : drs_vecs h = []) by (unfold count in K; destruct (drs_vecs h); [reflexivity|cbn [length] in K; lia]).
      assert (F := holds_fold n (map (fun a : antenna => a 0) ants) _ _ _ _ Hh). rewrite fold_map in F.
      unfold chestim. set (a := fold_left _ ants (snr_acc e1)) in *. fold a.
      destruct F as [F1 [F2 [F3 F4]]]. unfold holds, total_S, total_R, count in *. cbn [S_plus_N_sum S_plus_N_cnt N_sum N_cnt].
      rewrite Es, Ed, Z1, Z2 in *. cbn [app length] in *. rewrite ?qsum_nil in *. rewrite F1, F2, F3, F4.
      set (E := qsum (energy n) _) in *. set (R := qsum (roughness n) _) in *. cbn [app].
      repeat split; try (cbn [Nat.add]; lia); try (unfold Qdiv; change (/ 4)%Q with (1 # 4)%Q; lra).
    + injection H as <-. cbn [pilots snr_acc process_drs]. split; [exact Hp|]. rewrite Hp, drs_fold.
      assert (F := holds_fold n (flat_map (fun ant : antenna => map ant (filter (fun ts => (f <=? ts) && (ts <=? l)) (seq 0 8))) ants) _ _ _ _ Hh).
      refine (holds_eq _ _ _ _ _ _ _ _ F _ _ _).
      * unfold total_S. rewrite Es, Ed, app_nil_r, qsum_app. lra.
      * unfold total_R. rewrite Es, Ed, app_nil_r, qsum_app. lra.
      * unfold count. rewrite Es, Ed, app_nil_r, app_length. lia.
Qed.
