(** Lemmas for the message models: enumerations, optional fields at a cursor. *)
From Verif Require Import Base Bytes WireSpec BitSolve ByteFacts Fields MacHeader Channels ChannelsSpec P19_Channels IeBase BeaconsSpec.
Open Scope N_scope.

Lemma fb_eq k l : nbytes l = k -> field_bytes l = rev (le_bytes k (cat_fields l)).
Proof. intros <-. reflexivity. Qed.
Ltac fbx := unfold cat_fields; cbn [fold_left fst snd le_bytes rev app].

Lemma channel_range n : channel_in_range n = true <-> channel n.
Proof. unfold channel_in_range, channel. destruct (C32_in_range n) as (r & -> & H). exact H. Qed.
Lemma channel_lt n : channel n -> n < 8192.
Proof. intros (b & lo & hi & I & B). apply plan_bands in I. lia. Qed.

Lemma enum_coded upper v : upper <= 2 ^ 31 -> enum_valid upper (from_coded upper v) = true <-> v < upper.
Proof.
  unfold enum_valid, from_coded, UNDEF32. intros H. destruct (N.ltb_spec v upper); split; intros K; try lia.
Qed.
Lemma coded_id upper v : v < upper -> from_coded upper v = v.
Proof. unfold from_coded. destruct (N.ltb_spec v upper); lia. Qed.
Lemma enum_valid_lt upper v : upper <= 2 ^ 31 -> v < upper -> enum_valid upper v = true.
Proof. unfold enum_valid, UNDEF32. lia. Qed.
Lemma enum_coded_lower lo upper v : upper <= 2 ^ 31 -> enum_valid_lower lo upper (from_coded_lower lo upper v) = true <-> lo < v < upper.
Proof.
  unfold enum_valid_lower, from_coded_lower, UNDEF32. intros H. destruct (N.ltb_spec lo v), (N.ltb_spec v upper); cbn [andb]; split; intros K; try lia.
Qed.
Lemma coded_lower_id lo upper v : lo < v < upper -> from_coded_lower lo upper v = v.
Proof. unfold from_coded_lower. intros H. replace ((lo <? v) && (v <? upper)) with true by lia. reflexivity. Qed.
Lemma enum_valid_lower_lt lo upper v : upper <= 2 ^ 31 -> lo < v < upper -> enum_valid_lower lo upper v = true.
Proof. unfold enum_valid_lower, UNDEF32. lia. Qed.

Lemma present_is_some {A} (o : option A) : N.b2n (is_some o) = present o.
Proof. destruct o; reflexivity. Qed.
Lemma bit_b2n b : N.b2n b = bit b.
Proof. destruct b; reflexivity. Qed.
Lemma present_lt {A} (o : option A) : present o < 2. Proof. destruct o; cbn; lia. Qed.
Lemma bit_lt b : bit b < 2. Proof. destruct b; cbn; lia. Qed.
Lemma flag_present {A} (o : option A) b i : N.land (N.shiftr b i) 1 = present o -> flag b i = is_some o.
Proof. unfold flag. intros ->. destruct o; reflexivity. Qed.
Lemma flag_bit c b i : N.land (N.shiftr b i) 1 = bit c -> flag b i = c.
Proof. unfold flag. intros ->. destruct c; reflexivity. Qed.
Lemma opt_size_present {A} (o : option A) k : (N.to_nat (present o) * k)%nat = opt_size o k.
Proof. destruct o; cbn [present opt_size]; [change (N.to_nat 1) with 1%nat|change (N.to_nat 0) with 0%nat]; lia. Qed.
Lemma to_nat_present {A} (o : option A) : N.to_nat (present o) = opt_size o 1.
Proof. destruct o; reflexivity. Qed.

Lemma whole_opt {A} (o : option A) f : (forall x, o = Some x -> whole (f x)) -> whole (field_opt o f).
Proof. destruct o; cbn [field_opt]; auto using whole_nil. Qed.
Lemma nbytes_opt {A} (o : option A) f k : (forall x, o = Some x -> nbytes (f x) = k) -> nbytes (field_opt o f) = opt_size o k.
Proof. destruct o; cbn [field_opt opt_size]; intros H; [now apply H|reflexivity]. Qed.

Lemma put_step {A} (o : option A) w k f m pre :
  (forall x, o = Some x -> writer (w x) (f x) /\ nbytes (f x) = k) -> (length pre + opt_size o k <= length m)%nat ->
  put o w k (at_ m pre, length pre) = Ok (at_ m (pre ++ field_bytes (field_opt o f)), length (pre ++ field_bytes (field_opt o f))).
Proof.
  intros H L. destruct o as [x|]; cbn [put field_opt opt_size fst snd] in *.
  - destruct (H x eq_refl) as (W & K). rewrite (writer_at _ _ _ _ W) by lia. cbn [bind]. rewrite app_length, fb_length, K. reflexivity.
  - rewrite fb_nil, app_nil_r. reflexivity.
Qed.
Lemma get_step {A B} (o : option A) (r : list N -> nat -> res B) k f dec p m pre tail :
  m = pre ++ field_bytes (field_opt o f) ++ tail -> p = is_some o ->
  (forall x, o = Some x -> reader r (f x) (dec x) /\ nbytes (f x) = k) ->
  get p r k m (length pre) = Ok (option_map dec o, length (pre ++ field_bytes (field_opt o f))).
Proof.
  intros -> -> H. destruct o as [x|]; cbn [get field_opt is_some option_map] in *.
  - destruct (H x eq_refl) as (R & K). rewrite R. cbn [bind]. rewrite app_length, fb_length, K. reflexivity.
  - rewrite fb_nil, app_nil_r. reflexivity.
Qed.

(** Received bytes as an optional field of one number with reserved bits in front. *)
Lemma parse_opt2 (p : bool) w1 w2 k m : bytes m -> w1 + w2 = 8 * N.of_nat k -> (p = true -> (k <= length m)%nat) ->
  exists (o : option N) r tail, is_some o = p /\ bytes tail /\ whole (field_opt o (fun x => [(w1, r); (w2, x)])) /\
    m = field_bytes (field_opt o (fun x => [(w1, r); (w2, x)])) ++ tail.
Proof.
  intros B W L. destruct p.
  - destruct (parse [w1; w2] m B) as (l & L1 & L2 & L3).
    + cbn [fold_right]. replace (w1 + (w2 + 0)) with (N.of_nat k * 8) by lia. apply N.mod_mul. lia.
    + cbn [fold_right]. replace (w1 + (w2 + 0)) with (N.of_nat k * 8) by lia. rewrite N.div_mul by lia. rewrite Nat2N.id. auto.
    + destruct l as [|(w1', r) [|(w2', x) [|? ?]]]; try discriminate. cbn [map fst] in L1. injection L1 as -> ->.
      exists (Some x), r, (skipn (N.to_nat (fold_right N.add 0 [w1; w2] / 8)) m). cbn [field_opt is_some]. repeat split; auto; try apply L2.
      rewrite <- (firstn_skipn (N.to_nat (fold_right N.add 0 [w1; w2] / 8)) m) in B. apply Forall_app in B. tauto.
  - exists None, 0, m. cbn [field_opt is_some]. rewrite fb_nil. repeat split; auto using whole_nil; try apply whole_nil.
Qed.
Lemma parse_opt1 (p : bool) w k m : bytes m -> w = 8 * N.of_nat k -> (p = true -> (k <= length m)%nat) ->
  exists (o : option N) tail, is_some o = p /\ bytes tail /\ whole (field_opt o (fun x => [(w, x)])) /\
    m = field_bytes (field_opt o (fun x => [(w, x)])) ++ tail.
Proof.
  intros B W L. destruct p.
  - destruct (parse [w] m B) as (l & L1 & L2 & L3).
    + cbn [fold_right]. replace (w + 0) with (N.of_nat k * 8) by lia. apply N.mod_mul. lia.
    + cbn [fold_right]. replace (w + 0) with (N.of_nat k * 8) by lia. rewrite N.div_mul by lia. rewrite Nat2N.id. auto.
    + destruct l as [|(w', x) [|? ?]]; try discriminate. cbn [map fst] in L1. injection L1 as ->.
      exists (Some x), (skipn (N.to_nat (fold_right N.add 0 [w] / 8)) m). cbn [field_opt is_some]. repeat split; auto; try apply L2.
      rewrite <- (firstn_skipn (N.to_nat (fold_right N.add 0 [w] / 8)) m) in B. apply Forall_app in B. tauto.
  - exists None, m. cbn [field_opt is_some]. rewrite fb_nil. repeat split; auto using whole_nil; try apply whole_nil.
Qed.
Lemma parse_head ws k m : bytes m -> fold_right N.add 0 ws = 8 * N.of_nat k -> (k <= length m)%nat ->
  exists l tail, map fst l = ws /\ whole l /\ bytes tail /\ m = field_bytes l ++ tail.
Proof.
  intros B W L. destruct (parse ws m B) as (l & L1 & L2 & L3).
  - rewrite W, N.mul_comm. apply N.mod_mul. lia.
  - rewrite W, N.mul_comm, N.div_mul, Nat2N.id by lia. exact L.
  - exists l. eexists. repeat split; [exact L1|apply L2|apply L2| |exact L3].
    rewrite <- (firstn_skipn (N.to_nat (fold_right N.add 0 ws / 8)) m) in B. apply Forall_app in B. tauto.
Qed.

(** *** Readers and writers of single fields. *)
Ltac rd_tac k :=
  intros pre tail; rewrite (fb_eq k) by reflexivity;
  rewrite <- ?(Nat.add_0_r (length pre)) at 1; try rewrite <- (Nat.add_assoc (length pre) 0);
  cbn [Nat.add].
Lemma ld_app0 pre l : ld (pre ++ l) (length pre) = ld l 0.
Proof. rewrite <- (Nat.add_0_r (length pre)) at 1. apply ld_app. Qed.
Lemma st_app0 pre l v : st (pre ++ l) (length pre) v = behind pre (st l 0 v).
Proof. rewrite <- (Nat.add_0_r (length pre)) at 1. apply st_app. Qed.
Lemma orst_app0 pre l v : orst (pre ++ l) (length pre) v = behind pre (orst l 0 v).
Proof. rewrite <- (Nat.add_0_r (length pre)) at 1. apply orst_app. Qed.
Lemma l2b_app0 pre l t x n : l2b_lower (pre ++ l) (length pre) t x n = behind pre (l2b_lower l 0 t x n).
Proof. rewrite <- (Nat.add_0_r (length pre)) at 1. apply l2b_app. Qed.
Lemma b2l_app0 pre l t n : b2l_lower (pre ++ l) (length pre) t n = b2l_lower l 0 t n.
Proof. rewrite <- (Nat.add_0_r (length pre)) at 1. apply b2l_app. Qed.

Ltac fit_hyp := match goal with H : fields_fit _ |- _ => unfold fields_fit in H; rewrite ?Forall_cons_iff in H; cbn [fst snd] in H end.
Ltac cells_eq := apply f_equal; apply f_equal; repeat first [reflexivity | apply f_equal2; [unfold u8; bits|]].

Lemma reader_low4 r v : r < 16 -> v < 16 -> reader rd_low4 [(4, r); (4, v)] v.
Proof.
  intros Hr Hv pre tail. unfold rd_low4. rewrite ld_app0, (fb_eq 1) by reflexivity. fbx. mcbn. f_equal. bits.
Qed.
Lemma writer_byte4 v : v < 16 -> writer (wr_byte v) [(4, 0); (4, v)].
Proof.
  intros Hv pre rest L. change (nbytes [(4, 0); (4, v)]) with 1%nat in *. unfold wr_byte. rewrite st_app0, (fb_eq 1) by reflexivity. fbx.
  cells rest 1%nat. mcbn. rewrite behind_ok. cells_eq.
Qed.
Lemma reader_byte w (H : w = 8) v : v < 256 -> reader (rd_num 1) [(w, v)] v.
Proof. subst w. intros Hv pre tail. unfold rd_num. rewrite b2l_app0, (fb_eq 1) by reflexivity. fbx. mcbn. f_equal. bits. Qed.
Lemma writer_byte w (H : w = 8) v : v < 256 -> writer (wr_num 1 v) [(w, v)].
Proof.
  subst w. intros Hv pre rest L. change (nbytes [(8, v)]) with 1%nat in *. unfold wr_num. rewrite l2b_app0, (fb_eq 1) by reflexivity. fbx.
  cells rest 1%nat. mcbn. rewrite behind_ok. cells_eq.
Qed.
Lemma reader_num2 w (H : w = 16) v : v < 65536 -> reader (rd_num 2) [(w, v)] v.
Proof. subst w. intros Hv pre tail. unfold rd_num. rewrite b2l_app0, (fb_eq 2) by reflexivity. fbx. mcbn. f_equal. bits. Qed.
Lemma writer_num2 w (H : w = 16) v : v < 65536 -> writer (wr_num 2 v) [(w, v)].
Proof.
  subst w. intros Hv pre rest L. change (nbytes [(16, v)]) with 2%nat in *. unfold wr_num. rewrite l2b_app0, (fb_eq 2) by reflexivity. fbx.
  cells rest 2%nat. mcbn. rewrite behind_ok. cells_eq.
Qed.
Lemma reader_num4 v : v < 2 ^ 32 -> reader (rd_num 4) [(32, v)] v.
Proof. intros Hv pre tail. unfold rd_num. rewrite b2l_app0, (fb_eq 4) by reflexivity. fbx. mcbn. f_equal. change (2 ^ 32) with 4294967296 in Hv. bits. Qed.
Lemma writer_num4 v : v < 2 ^ 32 -> writer (wr_num 4 v) [(32, v)].
Proof.
  intros Hv pre rest L. change (nbytes [(32, v)]) with 4%nat in *. unfold wr_num. rewrite l2b_app0, (fb_eq 4) by reflexivity. fbx.
  cells rest 4%nat. mcbn. rewrite behind_ok. cells_eq.
Qed.
Lemma reader_channel r v : r < 8 -> v < 8192 -> reader rd_channel [(3, r); (13, v)] v.
Proof.
  intros Hr Hv pre tail. unfold rd_channel. rewrite ld_app, ld_app0, (fb_eq 2) by reflexivity. fbx. mcbn. f_equal. bits.
Qed.
Lemma writer_channel v : v < 8192 -> writer (wr_channel v) [(3, 0); (13, v)].
Proof.
  intros Hv pre rest L. change (nbytes [(3, 0); (13, v)]) with 2%nat in *. unfold wr_channel. rewrite st_app0, (fb_eq 2) by reflexivity. fbx.
  cells rest 2%nat. mcbn. rewrite behind_ok. cbn [bind]. rewrite st_app. mcbn. rewrite behind_ok. cells_eq.
Qed.
