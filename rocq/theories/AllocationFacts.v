From Verif Require Import Base IntHelpers IntHelpersSpec IntHelpersFacts Duration Allocation AllocationSpec.
Open Scope Z_scope.

Lemma b63 : 2 ^ (Z.of_N 64 - 1) = 9223372036854775808. Proof. reflexivity. Qed.
Ltac in64 := apply in_signed_iff; rewrite b63; lia.

Definition small (d : duration) : Prop := (du_N d < 2 ^ 32)%N.
Definition well (r : resource) : Prop := first r < last_plus_one r <= 2 ^ 32.

Lemma well_iff r : small (rs_offset r) -> small (rs_length r) -> is_well_defined r = true <-> well r.
Proof.
  unfold small, is_well_defined, is_positive_length, is_causal, get_first_sample_index, get_last_sample_index, well, last_plus_one, first, u32.
  change (2 ^ 32)%N with 4294967296%N. change (2 ^ 32) with 4294967296. intros. rewrite andb_true_iff, !N.leb_le. split; intros; lia.
Qed.
Lemma last_val r : well r -> Z.of_N (get_last_sample_index r) = last_plus_one r - 1.
Proof.
  unfold well, get_last_sample_index, last_plus_one, first, u32. change (2 ^ 32)%N with 4294967296%N. change (2 ^ 32) with 4294967296. lia.
Qed.
Lemma first_val r : Z.of_N (get_first_sample_index r) = first r.
Proof. reflexivity. Qed.
Lemma first_nonneg r : 0 <= first r. Proof. unfold first. lia. Qed.

Lemma disjoint_iff r q : well r -> well q -> disjoint r q <-> last_plus_one q <= first r \/ last_plus_one r <= first q.
Proof.
  unfold well, disjoint, covers. intros W V. split.
  - intros D. destruct (Z.le_gt_cases (last_plus_one q) (first r)) as [A|A]; [auto|].
    destruct (Z.le_gt_cases (last_plus_one r) (first q)) as [B|B]; [auto|].
    exfalso. apply (D (Z.max (first r) (first q))). lia.
  - intros D s. lia.
Qed.
Lemma disjoint_sym r q : disjoint r q -> disjoint q r.
Proof. unfold disjoint. firstorder. Qed.
Lemma orth_val r q : well r -> is_well_defined q = true -> well q ->
  is_orthogonal r q = Ok ((last_plus_one q <=? first r) || (last_plus_one r <=? first q)).
Proof.
  intros W D V. unfold is_orthogonal, is_orthogonal_earlier, is_orthogonal_later. rewrite D. cbn [guard bind].
  pose proof (last_val r W). pose proof (last_val q V). pose proof (first_val r). pose proof (first_val q).
  replace (get_last_sample_index q <? get_first_sample_index r)%N with (last_plus_one q <=? first r) by lia.
  replace (get_last_sample_index r <? get_first_sample_index q)%N with (last_plus_one r <=? first q) by lia.
  destruct (last_plus_one q <=? first r); reflexivity.
Qed.
Lemma vec_orth_val l q : Forall well l -> is_well_defined q = true -> well q ->
  vec_orthogonal l q = Ok (forallb (fun r => (last_plus_one q <=? first r) || (last_plus_one r <=? first q)) l).
Proof.
  intros W D V. induction W as [|r l Wr W IH]; [reflexivity|]. cbn [vec_orthogonal forallb].
  rewrite orth_val by auto. cbn [bind]. rewrite IH. destruct ((_ <=? _) || _); reflexivity.
Qed.

(** Invariant of an allocation. *)
Definition vec_ok (P : Z) (l : list resource) : Prop :=
  Forall (inside P) l /\ pairwise_disjoint l /\ (length l <= 8)%nat.
Definition pt_ok (a : allocation_pt) : Prop :=
  small (pa_period a) /\ forall d, vec_ok (Z.of_N (du_N (pa_period a))) (of_direction a d).

Lemma inside_well P r : P <= 2 ^ 32 -> inside P r -> well r.
Proof. unfold inside, well. lia. Qed.
Lemma pairwise_snoc l r : pairwise_disjoint l -> (forall q, In q l -> disjoint q r) -> pairwise_disjoint (l ++ [r]).
Proof.
  intros P D i j x y N I J.
  assert (B : forall k z, nth_error (l ++ [r]) k = Some z -> (nth_error l k = Some z /\ (k < length l)%nat) \/ (k = length l /\ z = r)).
  { intros k z K. destruct (Nat.lt_ge_cases k (length l)) as [L|L].
    - left. rewrite nth_error_app1 in K by exact L. auto.
    - right. rewrite nth_error_app2 in K by exact L. destruct (k - length l)%nat as [|m] eqn:E.
      + cbn in K. split; [lia|congruence].
      + cbn in K. destruct m; discriminate. }
  destruct (B i x I) as [(I' & _)|(-> & ->)], (B j y J) as [(J' & _)|(-> & ->)].
  - eapply P; eauto.
  - apply D. eapply nth_error_In; eauto.
  - apply disjoint_sym, D. eapply nth_error_In; eauto.
  - congruence.
Qed.

Definition with_vec (a : allocation_pt) (d : direction) (l : list resource) : allocation_pt :=
  match d with ul => with_ul a l | dl => with_dl a l | both => a end.
(** What add_resource accepts. *)
Definition acceptable (a : allocation_pt) (d : direction) (r : resource) : Prop :=
  d <> both /\ inside (Z.of_N (du_N (pa_period a))) r /\ (forall q, In q (of_direction a d) -> disjoint q r) /\
  (length (of_direction a d) < 8)%nat.

Lemma pt_orth_val a d q : pt_ok a -> d <> both -> is_well_defined q = true -> well q ->
  pt_orthogonal a d q = Ok (forallb (fun r => (last_plus_one q <=? first r) || (last_plus_one r <=? first q)) (of_direction a d)).
Proof.
  intros (S & O) N D V. specialize (O d). destruct O as (I & _).
  assert (W : Forall well (of_direction a d)).
  { eapply Forall_impl; [|exact I]. intros r. apply inside_well. unfold small in S. change (2 ^ 32)%N with 4294967296%N in S. change (2 ^ 32) with 4294967296. lia. }
  destruct d; [| |congruence]; cbn [pt_orthogonal of_direction] in *;
    (destruct (Nat.eqb_spec (length (pa_ul a)) 0) + destruct (Nat.eqb_spec (length (pa_dl a)) 0)); try (apply vec_orth_val; auto);
    match goal with |- Ok true = Ok (forallb _ ?l) => destruct l; [reflexivity|discriminate] end.
Qed.

Lemma add_resource_yes a d o l : small o -> small l -> pt_ok a -> acceptable a d (mkRes o l) ->
  add_resource a d o l = Ok (with_vec a d (of_direction a d ++ [mkRes o l])).
Proof.
  intros So Sl O (N & I & D & L). pose proof O as (S & _).
  assert (P32 : Z.of_N (du_N (pa_period a)) <= 2 ^ 32) by (unfold small in S; change (2 ^ 32)%N with 4294967296%N in S; change (2 ^ 32) with 4294967296; lia).
  pose proof (inside_well _ _ P32 I) as W.
  assert (WD : is_well_defined (mkRes o l) = true) by (apply well_iff; auto).
  unfold add_resource, resource_new. rewrite WD. cbn [guard bind].
  assert (B : is_within_beacon_period a (mkRes o l) = true).
  { unfold is_within_beacon_period. pose proof (last_val _ W). unfold inside in I. lia. }
  rewrite B. cbn [guard]. rewrite pt_orth_val by auto. cbn [bind].
  assert (F : forallb (fun r => (last_plus_one (mkRes o l) <=? first r) || (last_plus_one r <=? first (mkRes o l))) (of_direction a d) = true).
  { apply forallb_forall. intros q Q. specialize (D q Q). apply disjoint_iff in D; [lia| |auto].
    destruct O as (_ & O). destruct (O d) as (Iq & _). rewrite Forall_forall in Iq. eapply inside_well; eauto. }
  rewrite F. cbn [guard].
  destruct d; [| |congruence]; cbn [of_direction with_vec] in *; rewrite app_length; cbn [length];
    match goal with |- guard ?b _ = _ => replace b with true by lia end; reflexivity.
Qed.
Lemma add_resource_no a d o l : small o -> small l -> pt_ok a -> ~ acceptable a d (mkRes o l) -> add_resource a d o l = Abort.
Proof.
  intros So Sl O N. unfold add_resource, resource_new.
  destruct (is_well_defined (mkRes o l)) eqn:WD; [|reflexivity]. cbn [guard bind].
  assert (W : well (mkRes o l)) by (apply well_iff; auto).
  destruct (is_within_beacon_period a (mkRes o l)) eqn:B; [|reflexivity]. cbn [guard].
  assert (I : inside (Z.of_N (du_N (pa_period a))) (mkRes o l)).
  { unfold is_within_beacon_period in B. pose proof (last_val _ W). pose proof (first_nonneg (mkRes o l)). unfold inside. unfold well in W. lia. }
  destruct d; [| |reflexivity].
  all: rewrite pt_orth_val by (auto; discriminate); cbn [bind];
    destruct (forallb _ _) eqn:F; [|reflexivity]; cbn [guard];
    rewrite app_length; cbn [length];
    match goal with |- guard ?b _ = _ => destruct b eqn:L; [exfalso|reflexivity] end;
    apply N; split; [discriminate|]; split; [exact I|]; split; [|cbn [of_direction]; lia];
    intros q Q; rewrite forallb_forall in F; specialize (F q Q); apply disjoint_iff; [|exact W|lia];
    pose proof O as (S & O'); match type of Q with In _ (of_direction _ ?d) => destruct (O' d) as (Iq & _) end; rewrite Forall_forall in Iq;
    eapply inside_well; [|apply Iq, Q]; unfold small in S; change (2 ^ 32)%N with 4294967296%N in S; change (2 ^ 32) with 4294967296; lia.
Qed.
Lemma of_with a d l e : d <> both -> of_direction (with_vec a d l) e = match d, e with ul, ul => l | dl, dl => l | _, _ => of_direction a e end.
Proof. destruct d, e; try reflexivity; congruence. Qed.
Lemma period_with a d l : pa_period (with_vec a d l) = pa_period a /\ pa_lut (with_vec a d l) = pa_lut a.
Proof. destruct d; auto. Qed.
Lemma add_keeps a d r : pt_ok a -> acceptable a d r -> pt_ok (with_vec a d (of_direction a d ++ [r])).
Proof.
  intros (S & O) (N & I & D & L). split; [now rewrite (proj1 (period_with _ _ _))|]. intros e. rewrite (proj1 (period_with _ _ _)), of_with by auto.
  assert (K : vec_ok (Z.of_N (du_N (pa_period a))) (of_direction a d ++ [r])).
  { destruct (O d) as (A & B & C). split; [apply Forall_app; auto|]. split; [apply pairwise_snoc; auto|]. rewrite app_length; cbn [length]; lia. }
  pose proof (O e). destruct d, e; auto.
Qed.

(** *** The search. *)
Lemma ascending_tail r l : ascending (r :: l) -> ascending l.
Proof. destruct l; [intros; exact I|]. intros (_ & H). exact H. Qed.
Lemma ascending_head r l q : ascending (r :: l) -> In q l -> first r < first q.
Proof.
  revert r. induction l as [|s l IH]; intros r A Q; [destruct Q|]. destruct A as (A & B). destruct Q as [->|Q]; [exact A|].
  specialize (IH s B Q). lia.
Qed.
Lemma ascending_mid pre r l q : ascending (pre ++ r :: l) -> In q l -> first r < first q.
Proof. induction pre as [|p pre IH]; intros A Q; [eapply ascending_head; eauto|]. apply IH; [|auto]. eapply ascending_tail; exact A. Qed.

(** A search ends at a date D: a hit or the first date beyond the limit. *)
Lemma search_spec P e l rvec : 0 < P < 2 ^ 32 -> l < 2 ^ 62 -> Forall (inside P) rvec -> rvec <> [] ->
  forall fuel n pre todo A, rvec = pre ++ todo -> todo <> [] -> - 2 ^ 62 <= A <= 2 ^ 62 + 2 ^ 33 ->
  l - A <= Z.of_nat n * P -> (n * length rvec + length todo <= fuel)%nat ->
  exists r k, In r rvec /\ 0 <= k /\ let D := A + k * P + first r in
    (e <= D < l /\ search fuel P e l rvec todo A = Ok (mkOpp D (last_plus_one r - first r)) \/
     l <= D /\ ~ (e <= D < l) /\ search fuel P e l rvec todo A = Ok no_opportunity) /\
    (ascending rvec -> (forall q, In q pre -> A + first q < e) ->
     forall q j, In q rvec -> 0 <= j -> A + j * P + first q < e \/ D <= A + j * P + first q).
Proof.
  intros HP HL FI NE. change (2 ^ 62) with 4611686018427387904 in *. change (2 ^ 32) with 4294967296 in *. change (2 ^ 33) with 8589934592 in *.
  induction fuel as [|fuel IH]; intros n pre todo A E NT HA Hn Fu.
  - exfalso. destruct todo; [congruence|]. cbn [length] in Fu. lia.
  - destruct todo as [|r todo]; [congruence|]. cbn [search].
    assert (Ir : In r rvec) by (rewrite E; apply in_or_app; right; now left).
    assert (IN : forall q, In q rvec -> inside P q) by (rewrite Forall_forall in FI; auto).
    pose proof (IN r Ir) as INr. unfold inside in INr.
    rewrite sgn_ok by (change (Z.of_N (du_N (rs_offset r))) with (first r); in64). cbn [bind].
    change (Z.of_N (du_N (rs_offset r))) with (first r).
    assert (Stop : forall q j, ascending rvec -> (forall q, In q pre -> A + first q < e) -> In q rvec -> 0 <= j ->
      A + j * P + first q < e \/ A + 0 * P + first r <= A + j * P + first q).
    { intros q j As Pre Q J. pose proof (IN q Q) as INq. unfold inside in INq. destruct (Z.eq_dec j 0) as [->|J0]; [|right; nia].
      rewrite E in Q. apply in_app_or in Q. destruct Q as [Q|[->|Q]]; [left; specialize (Pre q Q); lia|right; lia|].
      right. rewrite E in As. pose proof (ascending_mid _ _ _ _ As Q). lia. }
    destruct ((e <=? A + first r) && (A + first r <? l)) eqn:C.
    { exists r, 0. split; [auto|]. split; [lia|]. split; [|intros; apply Stop; auto].
      left. split; [lia|]. f_equal. unfold last_plus_one. f_equal; lia. }
    destruct (Z.leb_spec l (A + first r)) as [K|K].
    { exists r, 0. split; [auto|]. split; [lia|]. split; [|intros; apply Stop; auto]. right. split; [lia|]. split; [lia|reflexivity]. }
    destruct todo as [|r' todo].
    + rewrite sgn_ok by in64. cbn [bind].
      destruct n as [|n]; [lia|]. destruct (IH n [] rvec (A + P)) as (q & k & Iq & K0 & R & Comp); auto; try lia.
      { cbn [length Nat.mul] in Fu. lia. }
      exists q, (k + 1). split; [auto|]. split; [lia|]. replace (A + (k + 1) * P + first q) with (A + P + k * P + first q) by lia.
      split; [exact R|]. intros As Pre s j Is J. destruct (Z.eq_dec j 0) as [->|J0].
      * left. rewrite E in Is. apply in_app_or in Is. destruct Is as [Is|[->|[]]]; [specialize (Pre _ Is); lia|lia].
      * specialize (Comp As (fun _ F => match F with end) s (j - 1) Is). replace (A + P + (j - 1) * P + first s) with (A + j * P + first s) in Comp by lia.
        apply Comp. lia.
    + destruct (IH n (pre ++ [r]) (r' :: todo) A) as (q & k & Iq & K0 & R & Comp); auto; try discriminate.
      { rewrite <- app_assoc. exact E. }
      { cbn [length] in *. lia. }
      exists q, k. split; [auto|]. split; [auto|]. split; [exact R|]. intros As Pre. apply Comp; auto.
      intros s Is. apply in_app_or in Is. destruct Is as [Is|[->|[]]]; [auto|lia].
Qed.

Lemma fuel_enough P l A len : 0 < P -> exists n, l - A <= Z.of_nat n * P /\
  (n * len + len <= Z.to_nat (Z.max 0 (Z.quot (l - A) P) + 2) * len)%nat.
Proof.
  intros HP. exists (Z.to_nat (Z.max 0 (Z.quot (l - A) P) + 1)). split.
  - destruct (Z.lt_ge_cases (l - A) 0) as [L|L]; [nia|]. rewrite Z.quot_div_nonneg by lia.
    assert (0 <= (l - A) / P) by (apply Z.div_pos; lia). rewrite Z.max_r, Z2Nat.id by lia.
    pose proof (Z.mod_pos_bound (l - A) P HP). pose proof (Z.div_mod (l - A) P). nia.
  - replace (Z.to_nat (Z.max 0 (Z.quot (l - A) P) + 2)) with (S (Z.to_nat (Z.max 0 (Z.quot (l - A) P) + 1))) by lia. cbn [Nat.mul]. lia.
Qed.

Definition t61 (t : Z) : Prop := - 2 ^ 60 <= t <= 2 ^ 60.
(** The generic search: what it returns, and when nothing is missed. *)
Lemma generic_spec a e l rvec : vec_ok (period a) rvec -> small (pa_period a) -> t61 (pa_beacon a) -> - 2 ^ 61 - 2 ^ 32 <= e <= 2 ^ 61 + 2 ^ 32 ->
  - 2 ^ 61 - 2 ^ 33 <= l <= 2 ^ 61 + 2 ^ 33 ->
  (get_tx_opportunity_generic a e l rvec = Ok no_opportunity /\
     (ascending rvec -> forall t, ~ legal (pa_beacon a) (period a) rvec e l t)) \/
  exists r t, get_tx_opportunity_generic a e l rvec = Ok (mkOpp t (last_plus_one r - first r)) /\ In r rvec /\
     starts_at (pa_beacon a) (period a) r t /\ e <= t < l /\
     (ascending rvec -> forall t', legal (pa_beacon a) (period a) rvec e l t' -> t <= t').
Proof.
  intros (FI & _ & _) S HB He Hl. unfold get_tx_opportunity_generic.
  unfold t61, small in *. change (2 ^ 61) with 2305843009213693952 in *. change (2 ^ 60) with 1152921504606846976 in *. change (2 ^ 32)%N with 4294967296%N in *. change (2 ^ 32) with 4294967296 in *. change (2 ^ 33) with 8589934592 in *.
  destruct (Nat.eqb_spec (length rvec) 0) as [L0|L0].
  { left. split; [reflexivity|]. intros _ t (_ & r & I & _). destruct rvec; [destruct I|discriminate]. }
  assert (NE : rvec <> []) by (destruct rvec; [cbn in L0; lia|discriminate]).
  destruct (Z.ltb_spec l e) as [LE|LE].
  { left. split; [reflexivity|]. intros _ t (K & _). lia. }
  assert (HP : 0 < period a < 2 ^ 32).
  { change (2 ^ 32) with 4294967296. unfold period. split; [|lia]. destruct rvec as [|r]; [congruence|]. inversion FI. unfold inside, period in *. lia. }
  fold (period a).
  assert (AA : exists j A, 0 <= j /\ A = pa_beacon a + j * period a /\ (A <= e \/ (A = pa_beacon a /\ e <= pa_beacon a)) /\
     (e < A + period a \/ e <= pa_beacon a) /\
     (if pa_beacon a <? e then do B <- sgn 64 (e - pa_beacon a) ; do C <- multiple_leq 64 B (period a) ; do A <- sgn 64 (pa_beacon a + C) ; guard (A <=? e) (Ok A)
      else Ok (pa_beacon a)) = Ok A).
  { change (2 ^ 32) with 4294967296 in HP. destruct (Z.ltb_spec (pa_beacon a) e) as [G|G].
    - rewrite sgn_ok by in64. cbn [bind].
      assert (M : multiple_leq 64 (e - pa_beacon a) (period a) = Ok ((e - pa_beacon a) / period a * period a)).
      { unfold multiple_leq. replace (1 <=? period a) with true by lia. cbn [guard]. rewrite Z.quot_div_nonneg by lia.
        assert (0 <= (e - pa_beacon a) / period a) by (apply Z.div_pos; lia).
        assert ((e - pa_beacon a) / period a * period a <= e - pa_beacon a) by (rewrite Z.mul_comm; apply Z.mul_div_le; lia).
        assert ((e - pa_beacon a) / period a <= e - pa_beacon a) by nia.
        rewrite sgn_ok by in64. cbn [bind]. rewrite sgn_ok by in64. reflexivity. }
      rewrite M. cbn [bind]. pose proof (Z.div_mod (e - pa_beacon a) (period a)). pose proof (Z.mod_pos_bound (e - pa_beacon a) (period a)).
      assert (0 <= (e - pa_beacon a) / period a) by (apply Z.div_pos; lia). set (j := (e - pa_beacon a) / period a) in *.
      exists j, (pa_beacon a + j * period a). split; [auto|]. split; [auto|]. split; [left; lia|]. split; [left; lia|].
      assert (0 <= j * period a) by nia. rewrite sgn_ok by in64. cbn [bind]. replace (pa_beacon a + j * period a <=? e) with true by lia. reflexivity.
    - exists 0, (pa_beacon a). split; [lia|]. split; [lia|]. split; [right; lia|]. split; [right; lia|reflexivity]. }
  destruct AA as (j & A & J0 & EA & A1 & A2 & ->). cbn [bind]. unfold search_fuel.
  destruct (fuel_enough (period a) l A (length rvec)) as (n & N1 & N2); [lia|].
  destruct (search_spec (period a) e l rvec HP ltac:(change (2 ^ 62) with 4611686018427387904; lia) FI NE _ n [] rvec A eq_refl NE
      ltac:(change (2 ^ 62) with 4611686018427387904; change (2 ^ 33) with 8589934592; lia) N1 N2) as (r & k & Ir & K0 & R & Comp).
  assert (Cov : ascending rvec -> forall t', legal (pa_beacon a) (period a) rvec e l t' -> A + k * period a + first r <= t').
  { intros As t' ((T1 & T2) & q & Iq & m & M0 & ->). rewrite Forall_forall in FI. pose proof (FI q Iq) as INq. unfold inside in INq.
    assert (j <= m).
    { destruct (Z.lt_ge_cases m j) as [G|G]; [|auto]. exfalso. clear Comp R N1 N2.
      assert (G1 : m * period a <= (j - 1) * period a) by (apply Z.mul_le_mono_nonneg_r; lia).
      assert (G2 : 1 * period a <= j * period a) by (apply Z.mul_le_mono_nonneg_r; lia).
      rewrite Z.mul_sub_distr_r in G1. destruct A1 as [A1|(A1 & _)]; lia. }
    destruct (Comp As (fun _ F => match F with end) q (m - j) Iq) as [C|C]; [lia| |];
      replace ((m - j) * period a) with (m * period a - j * period a) in C by ring; clear - C EA T1; lia. }
  destruct R as [(R1 & R)|(R1 & _ & R)].
  - right. exists r, (A + k * period a + first r). split; [exact R|]. split; [auto|]. split; [exists (j + k); split; [lia|rewrite EA; ring]|]. split; [auto|exact Cov].
  - left. split; [exact R|]. intros As t L. pose proof (Cov As t L). destruct L as ((_ & L) & _). lia.
Qed.

(** *** Histories. *)
Lemma pt_ok_new lut p v w t : small p -> pt_ok (allocation_pt_new lut p v w t).
Proof.
  intros S. split; [exact S|]. intros d. assert (of_direction (allocation_pt_new lut p v w t) d = []) as -> by (destruct d; reflexivity).
  split; [constructor|]. split; [|cbn; lia]. intros i j r q _ I. destruct i; discriminate.
Qed.
Lemma duration_new_small sr ec m d : duration_new sr ec m = Ok d -> small d.
Proof.
  unfold duration_new, small. intros H. destruct (0 <? sr)%N; [|discriminate]. destruct (0 <? m)%N; [|discriminate]. cbn [guard] in H.
  destruct (sr mod _ =? 0)%N; [|discriminate]. cbn [guard] in H. destruct (0 <? _)%N; [|discriminate]. cbn [guard] in H.
  destruct (_ <=? 2147483647)%N; [|discriminate]. cbn [guard] in H. injection H as <-. cbn [du_N]. apply N.mod_lt. discriminate.
Qed.
Definition same_setup (a b : allocation_pt) : Prop :=
  pa_lut b = pa_lut a /\ pa_period b = pa_period a /\ pa_after_beacon b = pa_after_beacon a /\ pa_after_now b = pa_after_now a /\
  pa_turnaround b = pa_turnaround a.
Lemma acceptable_dec a d r : pt_ok a -> small (rs_offset r) -> small (rs_length r) -> acceptable a d r \/ ~ acceptable a d r.
Proof.
  intros O S1 S2. destruct r as [o l]. cbn in S1, S2. destruct (add_resource a d o l) eqn:E.
  - left. pose proof (add_resource_no a d o l S1 S2 O) as K.
    assert (W : forall P : Prop, (~ P -> False) -> ~ ~ P) by tauto.
    (* decidable by its components *)
    destruct d; [| |exfalso; unfold add_resource in E; destruct (resource_new o l); try discriminate; cbn [bind] in E; destruct (is_within_beacon_period a _); discriminate].
    all: unfold add_resource, resource_new in E; destruct (is_well_defined (mkRes o l)) eqn:WD; [|discriminate]; cbn [guard bind] in E;
      assert (W1 : well (mkRes o l)) by (apply well_iff; auto);
      destruct (is_within_beacon_period a (mkRes o l)) eqn:B; [|discriminate]; cbn [guard] in E;
      rewrite pt_orth_val in E by (auto; discriminate); cbn [bind] in E; destruct (forallb _ _) eqn:F; [|discriminate]; cbn [guard] in E;
      rewrite app_length in E; cbn [length] in E;
      match type of E with guard ?b _ = _ => destruct b eqn:L; [|discriminate] end;
      (split; [discriminate|]; split; [unfold is_within_beacon_period in B; pose proof (last_val _ W1); pose proof (first_nonneg (mkRes o l)); unfold inside; unfold well in W1; lia|];
       split; [|cbn [of_direction]; lia]);
      intros q Q; rewrite forallb_forall in F; specialize (F q Q); apply disjoint_iff; [|exact W1|lia];
      pose proof O as (S & O'); match type of Q with In _ (of_direction _ ?d) => destruct (O' d) as (Iq & _) end; rewrite Forall_forall in Iq;
      eapply inside_well; [|apply Iq, Q]; unfold small in S; change (2 ^ 32)%N with 4294967296%N in S; change (2 ^ 32) with 4294967296; lia.
  - right. intros A. rewrite add_resource_yes in E by auto. discriminate.
  - right. intros A. rewrite add_resource_yes in E by auto. discriminate.
  - right. intros A. rewrite add_resource_yes in E by auto. discriminate.
Qed.
Lemma add_resource_inv a d o l b : small o -> small l -> pt_ok a -> add_resource a d o l = Ok b ->
  acceptable a d (mkRes o l) /\ b = with_vec a d (of_direction a d ++ [mkRes o l]) /\ pt_ok b /\ same_setup a b.
Proof.
  intros S1 S2 O E. destruct (acceptable_dec a d (mkRes o l) O S1 S2) as [A|A].
  - split; [auto|]. rewrite add_resource_yes in E by auto. injection E as <-. split; [auto|]. split; [apply add_keeps; auto|].
    destruct d; repeat split.
  - rewrite add_resource_no in E by auto. discriminate.
Qed.
Lemma same_trans a b c : same_setup a b -> same_setup b c -> same_setup a c.
Proof. unfold same_setup. intuition congruence. Qed.
Lemma add_from_inv d of_ le st ec n : forall i a b, pt_ok a -> add_from a d of_ le st ec i n = Ok b -> pt_ok b /\ same_setup a b.
Proof.
  induction n as [|n IH]; intros i a b O E; cbn [add_from] in E.
  - injection E as <-. split; [auto|]. repeat split.
  - apply bind_ok_inv in E. destruct E as (x & X & E). apply bind_ok_inv in E. destruct E as (y & Y & E).
    apply bind_ok_inv in E. destruct E as (c & C & E). apply duration_new_small in X, Y.
    destruct (add_resource_inv _ _ _ _ _ X Y O C) as (_ & _ & O' & S). destruct (IH _ _ _ O' E) as (O2 & S2). split; [auto|].
    eapply same_trans; eauto.
Qed.
Lemma pt_run_inv ops : forall a b, Forall op_u32 ops -> pt_ok a -> pt_run a ops = Ok b -> pt_ok b /\ same_setup a b.
Proof.
  induction ops as [|o ops IH]; intros a b F O E; cbn [pt_run] in E.
  - injection E as <-. split; [auto|]. repeat split.
  - apply bind_ok_inv in E. destruct E as (c & C & E). inversion F as [|? ? U F']; subst.
    assert (K : pt_ok c /\ same_setup a c).
    { destruct o as [d x y|d x y s n ec|t]; cbn [pt_step] in C.
      - destruct U as (U1 & U2). destruct (add_resource_inv _ _ _ _ _ U1 U2 O C) as (_ & _ & K). exact K.
      - eapply add_from_inv; eauto.
      - injection C as <-. split; [exact O|]. repeat split. }
    destruct K as (O' & S). destruct (IH _ _ F' O' E) as (O2 & S2). split; [auto|]. eapply same_trans; eauto.
Qed.
Lemma reachable_ok a : reachable a -> pt_ok a /\ small (pa_after_beacon a) /\ small (pa_after_now a).
Proof.
  intros (lut & p & v & w & t & ops & U1 & U2 & U3 & F & E).
  destruct (pt_run_inv ops _ _ F (pt_ok_new lut p v w t U1) E) as (O & (_ & S2 & S3 & S4 & _)). split; [exact O|]. cbn in S3, S4. rewrite S3, S4. auto.
Qed.
