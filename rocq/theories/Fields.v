(** Bit fields as bytes: the byte string that spells a list of fields, readers and writers at a cursor.
    Proof support: nothing of the model is defined here. *)
From Verif Require Import Base Bytes WireSpec BitSolve ByteFacts.
Open Scope N_scope.

Definition field_bytes (l : list (N * N)) : list N := rev (le_bytes (N.to_nat (width l / 8)) (cat_fields l)).
Definition whole (l : list (N * N)) : Prop := fields_fit l /\ width l mod 8 = 0.
Definition nbytes (l : list (N * N)) : nat := N.to_nat (width l / 8).

Lemma le_bytes_length k x : length (le_bytes k x) = k.
Proof. revert x. induction k as [|k IH]; intros x; cbn [le_bytes length]; auto. Qed.
Lemma fb_length l : length (field_bytes l) = nbytes l.
Proof. unfold field_bytes. now rewrite rev_length, le_bytes_length. Qed.
Lemma le_bytes_bytes k x : bytes (le_bytes k x).
Proof. revert x. induction k as [|k IH]; intros x; cbn [le_bytes]; [constructor|constructor; [apply u8_lt|apply IH]]. Qed.
Lemma fb_bytes l : bytes (field_bytes l).
Proof. unfold field_bytes, bytes. apply Forall_rev. apply le_bytes_bytes. Qed.

Lemma be_number_snoc l b : be_number (l ++ [b]) = N.lor (N.shiftl (be_number l) 8) b.
Proof. unfold be_number. now rewrite fold_left_app. Qed.
Lemma be_le k x : x < 2 ^ (8 * N.of_nat k) -> be_number (rev (le_bytes k x)) = x.
Proof.
  revert x. induction k as [|k IH]; intros x H.
  - cbn in *. lia.
  - cbn [le_bytes rev]. rewrite be_number_snoc, IH.
    + apply N.bits_inj. intros n. rewrite N.lor_spec. change 255 with (N.ones 8). rewrite N.land_spec.
      destruct (N.lt_ge_cases n 8).
      * rewrite N.shiftl_spec_low, N.ones_spec_low by lia. now rewrite andb_true_r.
      * rewrite N.shiftl_spec_high', N.ones_spec_high, N.shiftr_spec' by lia. rewrite andb_false_r, orb_false_r. f_equal. lia.
    + rewrite N.shiftr_div_pow2. apply N.div_lt_upper_bound; [apply N.pow_nonzero; lia|].
      rewrite <- N.pow_add_r. replace (8 + 8 * N.of_nat k) with (8 * N.of_nat (S k)) by lia. exact H.
Qed.
Lemma width_nbytes l : width l mod 8 = 0 -> width l = 8 * N.of_nat (nbytes l).
Proof. intros H. unfold nbytes. rewrite N2Nat.id. apply N.div_exact; [lia|exact H]. Qed.
Lemma fb_number l : whole l -> be_number (field_bytes l) = cat_fields l.
Proof. intros (F & W). unfold field_bytes. fold (nbytes l). apply be_le. rewrite <- width_nbytes by exact W. now apply cat_lt. Qed.

Lemma be_number_inj a b : bytes a -> bytes b -> length a = length b -> be_number a = be_number b -> a = b.
Proof.
  revert b. induction a as [|x a IH] using rev_ind; intros b A B L E.
  - destruct b; [auto|discriminate].
  - destruct b as [|y b _] using rev_ind; [rewrite app_length in L; cbn in L; lia|].
    rewrite !app_length in L. cbn [length] in L. unfold bytes in *. apply Forall_app in A, B. destruct A as (A1 & A2), B as (B1 & B2).
    inversion A2; subst. inversion B2; subst. rewrite !be_number_snoc in E. apply lor_shiftl_inj in E; auto.
    destruct E as (E & ->). rewrite (IH b); auto. lia.
Qed.
Lemma fb_spells l t : whole l -> spells (nbytes l) (field_bytes l ++ t) l.
Proof.
  intros H. pose proof H as (F & W). split; [rewrite app_length, fb_length; lia|]. split; [now apply width_nbytes|]. split; [exact F|].
  rewrite <- (fb_length l), firstn_app, Nat.sub_diag, firstn_O, app_nil_r, firstn_all. now apply fb_number.
Qed.
Lemma spells_fb n m l : spells n m l -> bytes (firstn n m) -> whole l /\ n = nbytes l /\ m = field_bytes l ++ skipn n m.
Proof.
  intros (L & W & F & C) B.
  assert (H : whole l) by (split; [exact F|]; rewrite W, N.mul_comm; apply N.mod_mul; lia).
  assert (E : n = nbytes l) by (destruct H as (_ & H); apply width_nbytes in H; lia). split; [exact H|]. split; [exact E|].
  rewrite <- (firstn_skipn n m) at 1. f_equal. apply be_number_inj; auto using fb_bytes.
  - rewrite firstn_length, fb_length. lia.
  - rewrite fb_number by exact H. exact C.
Qed.
Lemma fb_writes l m : whole l -> (nbytes l <= length m)%nat -> writes (nbytes l) m (field_bytes l ++ skipn (nbytes l) m) l.
Proof.
  intros H L. split; [rewrite app_length, fb_length, skipn_length; lia|]. split.
  - rewrite <- (fb_length l) at 1. rewrite skipn_app, skipn_all, Nat.sub_diag. reflexivity.
  - split; [|now apply fb_spells]. rewrite <- (fb_length l) at 1. rewrite firstn_app, Nat.sub_diag, firstn_O, app_nil_r, firstn_all. apply fb_bytes.
Qed.

Lemma whole_app a b : whole a -> whole b -> whole (a ++ b).
Proof.
  intros (F1 & W1) (F2 & W2). split; [now apply Forall_app|]. rewrite width_app. rewrite N.add_mod, W1, W2 by lia. reflexivity.
Qed.
Lemma nbytes_app a b : whole a -> nbytes (a ++ b) = (nbytes a + nbytes b)%nat.
Proof.
  intros (_ & W1). unfold nbytes. rewrite width_app. apply N.mod_divide in W1; [|lia]. destruct W1 as (k & ->).
  rewrite N.div_mul by lia. replace (k * 8 + width b) with (width b + k * 8) by lia. rewrite N.div_add by lia. lia.
Qed.
Lemma le_bytes_app k j x y : y < 2 ^ (8 * N.of_nat k) -> le_bytes (k + j) (N.lor (N.shiftl x (8 * N.of_nat k)) y) = le_bytes k y ++ le_bytes j x.
Proof.
  revert y. induction k as [|k IH]; intros y H.
  - cbn [Nat.add le_bytes app]. change (8 * N.of_nat 0) with 0 in *. rewrite N.shiftl_0_r. assert (y = 0) as -> by (cbn in H; lia). now rewrite N.lor_0_r.
  - cbn [Nat.add le_bytes app]. f_equal.
    + apply N.bits_inj. intros n. rewrite !N.land_spec, N.lor_spec. change 255 with (N.ones 8). destruct (N.lt_ge_cases n 8).
      * rewrite N.shiftl_spec_low by lia. reflexivity.
      * rewrite N.ones_spec_high by lia. now rewrite !andb_false_r.
    + rewrite <- IH.
      * f_equal. rewrite N.shiftr_lor. f_equal. replace (8 * N.of_nat (S k)) with (8 * N.of_nat k + 8) by lia.
        rewrite <- N.shiftl_shiftl. apply N.bits_inj. intros n. rewrite N.shiftr_spec', N.shiftl_spec_high' by lia. f_equal. lia.
      * rewrite N.shiftr_div_pow2. apply N.div_lt_upper_bound; [apply N.pow_nonzero; lia|].
        rewrite <- N.pow_add_r. replace (8 + 8 * N.of_nat k) with (8 * N.of_nat (S k)) by lia. exact H.
Qed.
Lemma fb_app a b : whole a -> whole b -> field_bytes (a ++ b) = field_bytes a ++ field_bytes b.
Proof.
  intros A B. pose proof B as (F & W). unfold field_bytes at 1. change (N.to_nat (width (a ++ b) / 8)) with (nbytes (a ++ b)).
  rewrite nbytes_app by exact A. rewrite cat_app. rewrite (width_nbytes b W). rewrite Nat.add_comm, le_bytes_app.
  - rewrite rev_app_distr. reflexivity.
  - rewrite <- width_nbytes by exact W. now apply cat_lt.
Qed.
Lemma fb_nil : field_bytes [] = []. Proof. reflexivity. Qed.
Lemma whole_nil : whole []. Proof. split; [constructor|reflexivity]. Qed.

(** Any byte string is spelled by fields of any given widths that add up. *)
Lemma parse_number ws v : v < 2 ^ fold_right N.add 0 ws -> exists l, map fst l = ws /\ fields_fit l /\ cat_fields l = v.
Proof.
  revert v. induction ws as [|w ws IH] using rev_ind; intros v H.
  - exists []. cbn in *. split; [reflexivity|]. split; [constructor|]. unfold cat_fields. cbn. lia.
  - assert (S : fold_right N.add 0 (ws ++ [w]) = fold_right N.add 0 ws + w).
    { clear. induction ws as [|x ws IH]; cbn [app fold_right]; [lia|]. rewrite IH. lia. }
    rewrite S in H. destruct (IH (v / 2 ^ w)) as (l & L1 & L2 & L3).
    { apply N.div_lt_upper_bound; [apply N.pow_nonzero; lia|]. rewrite <- N.pow_add_r. now rewrite N.add_comm. }
    exists (l ++ [(w, v mod 2 ^ w)]). split; [rewrite map_app, L1; reflexivity|]. split.
    + apply Forall_app. split; [exact L2|]. constructor; [|constructor]. cbn. apply N.mod_lt. apply N.pow_nonzero. lia.
    + rewrite cat_fields_app, L3. cbn [fst snd]. apply N.bits_inj. intros n. rewrite N.lor_spec. destruct (N.lt_ge_cases n w).
      * rewrite N.shiftl_spec_low, N.mod_pow2_bits_low by lia. reflexivity.
      * rewrite N.shiftl_spec_high', N.mod_pow2_bits_high, orb_false_r by lia. rewrite N.div_pow2_bits. f_equal. lia.
Qed.
Lemma width_fst l : width l = fold_right N.add 0 (map fst l).
Proof. induction l as [|f l IH]; [reflexivity|]. rewrite width_cons, IH. reflexivity. Qed.
Lemma be_number_lt l : bytes l -> be_number l < 2 ^ (8 * N.of_nat (length l)).
Proof. intros H. rewrite be_number_cat, <- byte_fields_width. apply cat_lt. now apply byte_fields_fit. Qed.
Lemma parse ws m : bytes m -> let k := N.to_nat (fold_right N.add 0 ws / 8) in fold_right N.add 0 ws mod 8 = 0 -> (k <= length m)%nat ->
  exists l, map fst l = ws /\ whole l /\ m = field_bytes l ++ skipn k m.
Proof.
  intros B k W L. assert (K : fold_right N.add 0 ws = 8 * N.of_nat k) by (unfold k; rewrite N2Nat.id; apply N.div_exact; lia).
  assert (B1 : bytes (firstn k m)) by (rewrite <- (firstn_skipn k m) in B; apply Forall_app in B; tauto).
  destruct (parse_number ws (be_number (firstn k m))) as (l & L1 & L2 & L3).
  { rewrite K. replace (N.of_nat k) with (N.of_nat (length (firstn k m))) by (rewrite firstn_length; lia). now apply be_number_lt. }
  assert (Wl : width l = 8 * N.of_nat k) by (rewrite width_fst, L1; exact K).
  exists l. split; [exact L1|]. destruct (spells_fb k m l) as (H1 & H2 & H3); auto. repeat split; auto.
Qed.

(** *** Cursors *)
Lemma nth_app_len {A} (pre l : list A) i : nth_error (pre ++ l) (length pre + i) = nth_error l i.
Proof. rewrite nth_error_app2 by lia. f_equal. lia. Qed.
Lemma upd_app {A} (pre l : list A) i x : upd (pre ++ l) (length pre + i) x = pre ++ upd l i x.
Proof. induction pre as [|h pre IH]; cbn [app length Nat.add upd]; [reflexivity|]. now rewrite IH. Qed.
Lemma ld_app pre l i : ld (pre ++ l) (length pre + i) = ld l i.
Proof. unfold ld, rd. now rewrite nth_app_len. Qed.
Definition behind (pre : list N) (r : res (list N)) : res (list N) := do s <- r ; Ok (pre ++ s).
Lemma st_app pre l i v : st (pre ++ l) (length pre + i) v = behind pre (st l i v).
Proof. unfold st, behind. rewrite nth_app_len, upd_app. destruct (nth_error l i); reflexivity. Qed.
Lemma orst_app pre l i v : orst (pre ++ l) (length pre + i) v = behind pre (orst l i v).
Proof. unfold orst, behind. rewrite nth_app_len. destruct (nth_error l i) as [b|]; [cbn [bind]|reflexivity]. now rewrite upd_app. Qed.
Lemma skipn_app_len {A} (pre l : list A) k : skipn (length pre + k) (pre ++ l) = skipn k l.
Proof. rewrite skipn_app, skipn_all2 by lia. cbn [app]. f_equal. lia. Qed.
Lemma firstn_app_len {A} (pre l : list A) k : firstn (length pre + k) (pre ++ l) = pre ++ firstn k l.
Proof. apply firstn_app_2. Qed.
Lemma cp_app pre l i bs : cp (pre ++ l) (length pre + i) bs = behind pre (cp l i bs).
Proof.
  unfold cp, behind. rewrite app_length. rewrite <- Nat.add_assoc.
  replace (length pre + (i + length bs) <=? length pre + length l)%nat with (i + length bs <=? length l)%nat by lia.
  destruct (Nat.leb_spec (i + length bs) (length l)); [|reflexivity]. cbn [bind]. rewrite firstn_app_len, skipn_app_len, <- app_assoc. reflexivity.
Qed.
Lemma seg_app pre l i n : seg (pre ++ l) (length pre + i) n = seg l i n.
Proof.
  unfold seg. rewrite app_length, <- Nat.add_assoc.
  replace (length pre + (i + n) <=? length pre + length l)%nat with (i + n <=? length l)%nat by lia.
  rewrite skipn_app_len. reflexivity.
Qed.
Lemma l2b_app pre l i t x n : l2b_lower (pre ++ l) (length pre + i) t x n = behind pre (l2b_lower l i t x n).
Proof. apply cp_app. Qed.
Lemma b2l_app pre l i t n : b2l_lower (pre ++ l) (length pre + i) t n = b2l_lower l i t n.
Proof. unfold b2l_lower. now rewrite seg_app. Qed.
Lemma behind_ok pre s : behind pre (Ok s) = Ok (pre ++ s). Proof. reflexivity. Qed.

Lemma skipn_add {A} (a b : nat) (l : list A) : skipn a (skipn b l) = skipn (b + a) l.
Proof. revert l. induction b as [|b IH]; intros l; [reflexivity|]. destruct l; cbn [skipn Nat.add]; [now rewrite skipn_nil|apply IH]. Qed.

(** A position while packing into [m]: everything before it is [pre]. *)
Definition at_ (m pre : list N) : list N := pre ++ skipn (length pre) m.
Lemma at_length m pre : (length pre <= length m)%nat -> length (at_ m pre) = length m.
Proof. intros H. unfold at_. rewrite app_length, skipn_length. lia. Qed.
(** [w], a write of the fields [l] at the cursor. *)
Definition writer (w : list N -> nat -> res (list N)) (l : list (N * N)) : Prop :=
  forall pre rest, (nbytes l <= length rest)%nat -> w (pre ++ rest) (length pre) = Ok (pre ++ field_bytes l ++ skipn (nbytes l) rest).
Definition reader {A} (r : list N -> nat -> res A) (l : list (N * N)) (v : A) : Prop :=
  forall pre tail, r (pre ++ field_bytes l ++ tail) (length pre) = Ok v.
Lemma writer_at w l m pre : writer w l -> (length pre + nbytes l <= length m)%nat ->
  w (at_ m pre) (length pre) = Ok (at_ m (pre ++ field_bytes l)).
Proof.
  intros W L. unfold at_ at 1. rewrite W by (rewrite skipn_length; lia). unfold at_. rewrite <- app_assoc, skipn_add, app_length, fb_length. reflexivity.
Qed.

(** Explicit bytes of concrete fields. *)
Ltac fb_cbn :=
  match goal with |- context [field_bytes ?l] =>
    let x := eval cbv [field_bytes width fold_left fst snd] in (field_bytes l) in
    change (field_bytes l) with x
  end.
