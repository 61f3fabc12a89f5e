(** Lemmas and tactics about byte memory and wire formats. *)
From Verif Require Import Base Bytes WireSpec BitSolve.
Open Scope N_scope.

Lemma u8_lt x : u8 x < 256.
Proof.
  unfold u8. change 255 with (N.ones 8). rewrite N.land_ones. apply N.mod_lt. discriminate.
Qed.

Lemma land_lt x w : N.land x (N.ones w) < 2 ^ w.
Proof. rewrite N.land_ones. apply N.mod_lt. apply N.pow_nonzero. discriminate. Qed.

Lemma land_le x y : N.land x y <= y.
Proof.
  rewrite <- (N.lor_land_distr_l 0 x y) || idtac.
  assert (N.ldiff y (N.land x y) + N.land x y = y).
  { rewrite N.add_nocarry_lxor.
    - apply N.bits_inj. intros n. rewrite N.lxor_spec, N.ldiff_spec, N.land_spec.
      destruct (N.testbit x n), (N.testbit y n); reflexivity.
    - apply N.bits_inj. intros n. rewrite N.land_spec, N.ldiff_spec, N.land_spec, N.bits_0.
      destruct (N.testbit x n), (N.testbit y n); reflexivity. }
  lia.
Qed.

(** Replace memory [m], known to hold at least [n] bytes, by explicit cells. *)
Ltac cells m n :=
  match n with
  | O => idtac
  | S ?k =>
      let b := fresh "b0" in
      destruct m as [|b m]; [exfalso; cbn [length] in *; lia | cells m k]
  end.

Ltac mcbn :=
  cbn [bind guard st orst andst cp seg ld rd nth_error upd firstn skipn app length Nat.leb Nat.add
       Nat.sub l2b_lower l2b_lower_bytes l2b_upper b2l_lower b2l_upper rev le_bytes le_val repeat
       at_off fst snd negb andb orb].
Tactic Notation "mcbn" "in" hyp(H) :=
  cbn [bind guard st orst andst cp seg ld rd nth_error upd firstn skipn app length Nat.leb Nat.add
       Nat.sub l2b_lower l2b_lower_bytes l2b_upper b2l_lower b2l_upper rev le_bytes le_val repeat
       at_off fst snd negb andb orb] in H.

(** Bounds of all explicit cells from [bytes]. *)
Lemma bytes_cons b l : bytes (b :: l) <-> b < 256 /\ bytes l.
Proof. unfold bytes. split; [intros H; inversion H; auto | intros [H1 H2]; auto]. Qed.
Ltac inv_bytes :=
  repeat match goal with
  | H : bytes (_ :: _) |- _ =>
      let H1 := fresh "Hbyte" in let H2 := fresh "Hbytes" in
      apply bytes_cons in H; destruct H as [H1 H2]
  | H : bytes [] |- _ => clear H
  end.

Ltac bytes_tac :=
  unfold bytes; repeat (apply Forall_cons; [first [apply u8_lt | assumption | unfold u8; bits_lt 8%nat]|]); try apply Forall_nil.

Ltac fit_tac :=
  unfold fields_fit;
  repeat (apply Forall_cons;
          [cbn [fst snd];
           match goal with |- _ < ?p => let v := eval vm_compute in p in change p with v end; lia |]);
  apply Forall_nil.

Ltac spell_tac :=
  unfold be_number, cat_fields; cbn [firstn fold_left fst snd]; unfold u8; bits.

(** [writes n m m' l] for explicit memories. *)
Ltac writes_tac :=
  split; [reflexivity|]; split; [reflexivity|]; split; [cbn [firstn]; bytes_tac|];
  split; [cbn [length]; lia|]; split; [vm_compute; reflexivity|]; split; [fit_tac|spell_tac].

Lemma andb4 a b c d : a && b && c && d = true <-> a = true /\ b = true /\ c = true /\ d = true.
Proof. rewrite !andb_true_iff. tauto. Qed.

(** Bit fields of the same widths spelling the same number are the same fields. *)
Lemma cat_fields_app l f : cat_fields (l ++ [f]) = N.lor (N.shiftl (cat_fields l) (fst f)) (snd f).
Proof. unfold cat_fields. now rewrite fold_left_app. Qed.

Lemma lor_shiftl_inj a b w x y :
  x < 2 ^ w -> y < 2 ^ w -> N.lor (N.shiftl a w) x = N.lor (N.shiftl b w) y -> a = b /\ x = y.
Proof.
  intros Hx Hy H. split; apply N.bits_inj; intros n.
  - assert (E : N.testbit (N.lor (N.shiftl a w) x) (n + w) = N.testbit (N.lor (N.shiftl b w) y) (n + w)) by now rewrite H.
    rewrite !N.lor_spec, !N.shiftl_spec_high', (testbit_high x w), (testbit_high y w), !orb_false_r in E by lia.
    now replace (n + w - w) with n in E by lia.
  - destruct (N.lt_ge_cases n w) as [Hn|Hn].
    + assert (E : N.testbit (N.lor (N.shiftl a w) x) n = N.testbit (N.lor (N.shiftl b w) y) n) by now rewrite H.
      now rewrite !N.lor_spec, !N.shiftl_spec_low in E by lia.
    + now rewrite (testbit_high x w), (testbit_high y w) by lia.
Qed.

Lemma cat_fields_inj l1 l2 :
  map fst l1 = map fst l2 -> fields_fit l1 -> fields_fit l2 -> cat_fields l1 = cat_fields l2 -> l1 = l2.
Proof.
  revert l2. induction l1 as [|f1 l1 IH] using rev_ind; intros l2 Hw H1 H2 Hc.
  - destruct l2; [auto|discriminate].
  - destruct l2 as [|f2 l2 _] using rev_ind; [rewrite map_app in Hw; destruct (map fst l1); discriminate|].
    rewrite !map_app in Hw. cbn in Hw. apply app_inj_tail in Hw. destruct Hw as [Hw Hf].
    unfold fields_fit in *. apply Forall_app in H1, H2. destruct H1 as [H1 F1], H2 as [H2 F2].
    inversion F1; subst. inversion F2; subst.
    rewrite !cat_fields_app in Hc. rewrite <- Hf in *.
    apply lor_shiftl_inj in Hc; auto. destruct Hc as [Hc Hx].
    rewrite (IH l2) by auto. f_equal. destruct f1, f2; cbn in *. congruence.
Qed.

Lemma writes_spells n m m' l : writes n m m' l -> spells n m' l.
Proof. intros (_ & _ & _ & H). exact H. Qed.

(** Concatenation of wire formats. *)
Lemma width_from l a : fold_left (fun acc (f : N * N) => acc + fst f) l a = a + width l.
Proof.
  unfold width. revert a. induction l as [|f l IH]; intros a; cbn [fold_left]; [lia|].
  rewrite IH, (IH (0 + fst f)). lia.
Qed.
Lemma width_cons f l : width (f :: l) = fst f + width l.
Proof. unfold width at 1. cbn [fold_left]. rewrite width_from. lia. Qed.
Lemma width_app a b : width (a ++ b) = width a + width b.
Proof. induction a as [|f a IH]; [reflexivity|]. cbn [app]. rewrite !width_cons, IH. lia. Qed.

Lemma cat_app a b : cat_fields (a ++ b) = N.lor (N.shiftl (cat_fields a) (width b)) (cat_fields b).
Proof.
  revert a. induction b as [|f b IH] using rev_ind; intros a.
  - rewrite app_nil_r. cbn. now rewrite N.shiftl_0_r, N.lor_0_r.
  - rewrite app_assoc, !cat_fields_app, IH, width_app. cbn [width fold_left].
    rewrite N.shiftl_lor, N.shiftl_shiftl, N.lor_assoc. unfold width at 2. cbn [fold_left].
    do 3 f_equal.
Qed.

Lemma cat_lt l : fields_fit l -> cat_fields l < 2 ^ width l.
Proof.
  induction l as [|f l IH] using rev_ind; intros H; [reflexivity|].
  apply Forall_app in H. destruct H as [H1 H2]. inversion H2 as [|? ? Hf _]; subst.
  rewrite cat_fields_app, width_app, width_cons. replace (fst f + width []) with (fst f) by (cbn; lia).
  specialize (IH H1). apply lt_pow2_bits. intros n Hn.
  rewrite N.lor_spec, (testbit_high _ _ n Hf), orb_false_r by lia.
  rewrite N.shiftl_spec_high' by lia. apply (testbit_high _ _ _ IH). lia.
Qed.

Definition byte_fields (l : list N) : list (N * N) := map (fun b => (8, b)) l.
Lemma be_number_cat l : be_number l = cat_fields (byte_fields l).
Proof.
  unfold be_number, cat_fields, byte_fields. generalize 0. induction l as [|b l IH]; intros a; cbn [fold_left map]; auto.
Qed.
Lemma byte_fields_width l : width (byte_fields l) = 8 * N.of_nat (length l).
Proof.
  induction l as [|b l IH]; [reflexivity|]. unfold byte_fields in *. cbn [map length].
  rewrite width_cons, IH. cbn [fst]. lia.
Qed.
Lemma byte_fields_fit l : bytes l -> fields_fit (byte_fields l).
Proof.
  unfold bytes, fields_fit, byte_fields. intros H. apply Forall_map.
  eapply Forall_impl; [|exact H]. intros a Ha. exact Ha.
Qed.

Lemma firstn_plus {A} n k (l : list A) : firstn (n + k) l = firstn n l ++ firstn k (skipn n l).
Proof.
  revert l. induction n as [|n IH]; intros l; [reflexivity|]. destruct l as [|x l]; cbn.
  - now rewrite firstn_nil.
  - now rewrite IH.
Qed.

Lemma spells_app n k m l1 l2 :
  spells n m l1 -> spells k (skipn n m) l2 -> spells (n + k) m (l1 ++ l2).
Proof.
  intros (L1 & W1 & F1 & C1) (L2 & W2 & F2 & C2). rewrite skipn_length in L2.
  split; [lia|]. split; [rewrite width_app; lia|]. split; [now apply Forall_app|].
  rewrite firstn_plus, be_number_cat. unfold byte_fields. rewrite map_app. fold (byte_fields (firstn n m)).
  fold (byte_fields (firstn k (skipn n m))). rewrite !cat_app, <- !be_number_cat, C1, C2.
  rewrite byte_fields_width, firstn_length, skipn_length, W2. do 2 f_equal. lia.
Qed.

Lemma spells_split n k m l1 l2 :
  bytes (firstn (n + k) m) -> width l1 = 8 * N.of_nat n ->
  spells (n + k) m (l1 ++ l2) -> spells n m l1 /\ spells k (skipn n m) l2.
Proof.
  intros Hb W1 (L & W & F & C). rewrite width_app in W. apply Forall_app in F. destruct F as [F1 F2].
  rewrite firstn_plus in Hb, C. apply Forall_app in Hb. destruct Hb as [B1 B2].
  rewrite be_number_cat in C. unfold byte_fields in C. rewrite map_app in C.
  fold (byte_fields (firstn n m)) in C. fold (byte_fields (firstn k (skipn n m))) in C.
  rewrite !cat_app, byte_fields_width, firstn_length, skipn_length in C.
  replace (8 * N.of_nat (Nat.min k (length m - n))) with (width l2) in C by lia.
  apply lor_shiftl_inj in C.
  - destruct C as [C1 C2]. split; (split; [rewrite ?skipn_length; lia|]); (split; [lia|]); (split; [assumption|]);
      rewrite be_number_cat; assumption.
  - eapply N.lt_le_trans; [apply cat_lt; now apply byte_fields_fit|].
    apply N.pow_le_mono_r; [lia|]. rewrite byte_fields_width, firstn_length, skipn_length. lia.
  - now apply cat_lt.
Qed.

(** Fields of the same widths read off the same bytes are the same fields. *)
Lemma spells_inj n m l1 l2 : spells n m l1 -> spells n m l2 -> map fst l1 = map fst l2 -> l1 = l2.
Proof.
  intros (_ & _ & F1 & C1) (_ & _ & F2 & C2) Hw. apply cat_fields_inj; auto. congruence.
Qed.
