(** Facts about padding, power target, time announce and user plane data. *)
From Verif Require Import Base Bytes WireSpec BitSolve ByteFacts Fields MacHeader Mux MuxSpec MuxFacts IeBase SmallIes SmallIesSpec IeFacts.
Open Scope N_scope.

Lemma at_off_app pre rest f : at_off (length pre) f (pre ++ rest) = behind pre (f rest).
Proof.
  unfold at_off. rewrite app_length. replace (length pre <=? length pre + length rest)%nat with true by (symmetry; apply Nat.leb_le; lia).
  rewrite skipn_app, skipn_all, Nat.sub_diag, firstn_app, firstn_all, Nat.sub_diag, firstn_O, app_nil_r. reflexivity.
Qed.
Lemma cp_at pre rest bs : (length bs <= length rest)%nat -> cp (pre ++ rest) (length pre) bs = Ok (pre ++ bs ++ skipn (length bs) rest).
Proof.
  intros L. unfold cp. rewrite app_length. replace (length pre + length bs <=? length pre + length rest)%nat with true by (symmetry; apply Nat.leb_le; lia).
  rewrite firstn_app, firstn_all, Nat.sub_diag, firstn_O, app_nil_r. rewrite skipn_app_len. reflexivity.
Qed.
Lemma cp_front bs rest : (length bs <= length rest)%nat -> cp rest 0 bs = Ok (bs ++ skipn (length bs) rest).
Proof. apply (cp_at []). Qed.

(** *** headers *)
Lemma pack_ext0 ie t (l : list N) : In ie [9; 29; 30] -> (1 <= length l)%nat -> mmh_pack (mkMmh 0 ie UNDEF32 t) l = Ok (ie :: skipn 1 l).
Proof. intros H L. destruct l as [|a l]; [cbn in L; lia|]. destruct H as [<-|[<-|[<-|[]]]]; reflexivity. Qed.
Lemma u8_id x : x < 256 -> u8 x = x.
Proof. intros H. unfold u8. change 255 with (N.ones 8). rewrite N.land_ones. now apply N.mod_small. Qed.
Lemma land255 x : x < 256 -> N.land x 255 = x. Proof. apply u8_id. Qed.
Lemma pack_ext1 ie n t (l : list N) : In ie [0; 3; 4; 5; 6] -> n < 256 -> (2 <= length l)%nat -> mmh_pack (mkMmh 1 ie n t) l = Ok ((64 + ie) :: n :: skipn 2 l).
Proof.
  intros H Hn L. destruct l as [|a [|b l]]; try (cbn in L; lia). unfold mmh_pack. cbn [mx_ext mx_ie mx_len].
  replace (mmh_valid (mkMmh 1 ie n t)) with true. 2: { symmetry. unfold mmh_valid. cbn [mx_ext mx_ie mx_len]. unfold UNDEF32. cbn [In] in H. lia. }
  cbn [guard]. mcbn. rewrite (land255 n Hn), (u8_id n Hn). destruct H as [<-|[<-|[<-|[<-|[<-|[]]]]]]; reflexivity.
Qed.
Lemma l2b2 n : l2b_lower_bytes 4 n 2 = [N.land (N.shiftr n 8) 255; N.land n 255].
Proof. reflexivity. Qed.
Lemma pack_ext2 ie n t (l : list N) : In ie [3; 4; 5; 6] -> n < 65536 -> (3 <= length l)%nat -> mmh_pack (mkMmh 2 ie n t) l = Ok ((128 + ie) :: n / 256 :: n mod 256 :: skipn 3 l).
Proof.
  intros H Hn L. destruct l as [|a [|b [|c l]]]; try (cbn in L; lia). unfold mmh_pack. cbn [mx_ext mx_ie mx_len].
  replace (mmh_valid (mkMmh 2 ie n t)) with true. 2: { symmetry. unfold mmh_valid. cbn [mx_ext mx_ie mx_len]. unfold UNDEF32. cbn [In] in H. lia. }
  cbn [guard]. mcbn.
  assert (E1 : N.land (N.shiftr n 8) 255 = n / 256) by (rewrite N.shiftr_div_pow2; apply land255; apply N.div_lt_upper_bound; change (2 ^ 8) with 256; lia).
  assert (E2 : N.land n 255 = n mod 256) by (change 255 with (N.ones 8); now rewrite N.land_ones). rewrite E1, E2.
  destruct H as [<-|[<-|[<-|[<-|[]]]]]; reflexivity.
Qed.

(** *** padding *)
Definition one_padding (n : nat) : list N :=
  match n with 1%nat => [192] | 2%nat => [224; 0] | _ => 64 :: N.of_nat (n - 2) :: repeat 0 (n - 2) end.
Lemma one_padding_length n : (1 <= n)%nat -> length (one_padding n) = n.
Proof. intros H. destruct n as [|[|[|n]]]; [lia|reflexivity|reflexivity|]. cbn [one_padding length]. rewrite repeat_length. lia. Qed.
Lemma one_padding_ie n : (1 <= n <= 257)%nat -> padding_ie (one_padding n).
Proof. intros H. destruct n as [|[|[|n]]]; [lia|constructor|constructor|]. cbn [one_padding]. apply padding_n. lia. Qed.
Lemma one_padding_pack h n m : (1 <= n <= 257)%nat -> (n <= length m)%nat ->
  exists h', set_nof_padding_bytes h (N.of_nat n) = Ok h' /\ padding_pack h' m = Ok (one_padding n ++ skipn n m).
Proof.
  intros H L. unfold set_nof_padding_bytes, N_PADDING_BYTES_MAX. replace ((1 <=? N.of_nat n) && (N.of_nat n <=? 257)) with true by lia. cbn [guard].
  destruct n as [|[|[|n]]]; [lia| | |].
  - eexists. split; [reflexivity|]. destruct m as [|a m]; [cbn in L; lia|]. reflexivity.
  - eexists. split; [reflexivity|]. destruct m as [|a [|b m]]; try (cbn in L; lia). reflexivity.
  - set (k := S (S (S n))) in *. exists (mkMmh 1 0 (N.of_nat (k - 2)) (mx_tinfo h)). split.
    + destruct (N.of_nat k) as [|[?|[?|?|]|]] eqn:E; try lia; cbn; do 2 f_equal; lia.
    + unfold padding_pack. rewrite pack_ext1 by (cbn; lia || (cbn; tauto)). cbn [bind mmh_size mx_ext]. change (mmh_size (mkMmh 1 0 (N.of_nat (k - 2)) (mx_tinfo h))) with (Ok 2%nat). cbn [bind mx_len].
      rewrite Nat2N.id. change (64 + 0) with 64. assert (E := cp_at [64; N.of_nat (k - 2)] (skipn 2 m) (repeat 0 (k - 2)) ltac:(rewrite repeat_length, skipn_length; lia)).
      cbn [app length] in E. rewrite E, repeat_length, skipn_add. replace (2 + (k - 2))%nat with k by lia. reflexivity.
Qed.
(** the whole filling *)
Fixpoint filling (fuel n : nat) : list N :=
  match fuel with
  | O => []
  | S f => if (n =? 0)%nat then [] else if (257 <? n)%nat then one_padding 257 ++ filling f (n - 257) else one_padding n
  end.
Lemma filling_length f n : (n <= f)%nat -> length (filling f n) = n.
Proof.
  revert n. induction f as [|f IH]; intros n H; [cbn; lia|]. cbn [filling]. destruct (Nat.eqb_spec n 0); [now subst|]. destruct (Nat.ltb_spec 257 n).
  - rewrite app_length, IH, one_padding_length by lia. lia.
  - now rewrite one_padding_length by lia.
Qed.
Lemma filling_paddings f n : paddings (filling f n).
Proof.
  revert n. induction f as [|f IH]; intros n; cbn [filling]; [exists []; split; [constructor|reflexivity]|].
  destruct (Nat.eqb_spec n 0); [exists []; split; [constructor|reflexivity]|]. destruct (Nat.ltb_spec 257 n).
  - destruct (IH (n - 257)%nat) as (l & F & E). exists (one_padding 257 :: l). split; [constructor; [apply one_padding_ie; lia|exact F]|]. cbn [concat]. now rewrite E.
  - exists [one_padding n]. split; [constructor; [apply one_padding_ie; lia|constructor]|]. cbn [concat]. now rewrite app_nil_r.
Qed.
Lemma fill_loop_ok f h pre rest n : (n <= f)%nat -> (n <= length rest)%nat ->
  fill_loop f h (pre ++ rest) (length pre) (N.of_nat n) = Ok (pre ++ filling f n ++ skipn n rest).
Proof.
  revert h pre rest n. induction f as [|f IH]; intros h pre rest n H L.
  - assert (n = 0)%nat as -> by lia. reflexivity.
  - cbn [fill_loop filling]. destruct (Nat.eqb_spec n 0) as [->|Z]; [reflexivity|]. replace (N.of_nat n =? 0) with false by lia. unfold N_PADDING_BYTES_MAX.
    destruct (Nat.ltb_spec 257 n) as [Q|Q].
    + replace (257 <? N.of_nat n) with true by lia. destruct (one_padding_pack h 257 rest ltac:(lia) ltac:(lia)) as (h' & E & P).
      change (N.of_nat 257) with 257 in E. rewrite E. cbn [bind]. rewrite at_off_app, P, behind_ok. cbn [bind].
      assert (L2 : (length pre + N.to_nat 257)%nat = length (pre ++ one_padding 257)) by (rewrite app_length, one_padding_length by lia; lia).
      rewrite L2, app_assoc. replace (N.of_nat n - 257) with (N.of_nat (n - 257)) by lia. rewrite IH by (rewrite ?skipn_length; lia).
      rewrite skipn_add. replace (257 + (n - 257))%nat with n by lia. now rewrite <- !app_assoc.
    + replace (257 <? N.of_nat n) with false by lia. destruct (one_padding_pack h n rest ltac:(lia) ltac:(lia)) as (h' & E & P).
      rewrite E. cbn [bind]. rewrite at_off_app, P, behind_ok. cbn [bind]. rewrite Nat2N.id, N.sub_diag.
      assert (Z' : forall g hh mm oo, fill_loop g hh mm oo 0 = Ok mm) by (intros [|g]; reflexivity). now rewrite Z'.
Qed.
Lemma fill_ok pre rest n : (n <= length rest)%nat ->
  fill_with_padding_ies (pre ++ rest) (length pre) (N.of_nat n) = Ok (pre ++ filling n n ++ skipn n rest).
Proof. intros L. unfold fill_with_padding_ies. rewrite Nat2N.id. now apply fill_loop_ok. Qed.

(** *** time announce *)
Lemma ta_ok_valid t : ta_ok t -> ta_valid t = true.
Proof. intros (H1 & H2 & H3 & H4). unfold ta_valid, enum_valid, UNDEF32. lia. Qed.
Lemma ta_whole t : ta_ok t -> whole (ta_fields t).
Proof.
  intros (H1 & H2 & H3 & H4). split; [|reflexivity]. unfold ta_fields, fields_fit. repeat constructor; cbn [fst snd].
  1,2,4: change (2 ^ 8) with 256; lia. change (2 ^ 64) with 18446744073709551616. lia.
Qed.
Lemma ta_bytes_eq t : ta_ok t -> field_bytes (ta_fields t) = ta_type t :: ta_frames t :: rev (le_bytes 8 (Z.to_N (ta_sec t))) ++ [ta_tai t].
Proof.
  intros (H1 & H2 & H3 & H4).
  assert (W : forall w v, v < 2 ^ w -> w mod 8 = 0 -> whole [(w, v)]) by (intros w v A B; split; [constructor; [exact A|constructor]|exact B]).
  change (ta_fields t) with ([(8, ta_type t)] ++ [(8, ta_frames t)] ++ [(64, Z.to_N (ta_sec t))] ++ [(8, ta_tai t)]).
  assert (W1 : whole [(8, ta_type t)]) by (apply W; [change (2 ^ 8) with 256; lia|reflexivity]).
  assert (W2 : whole [(8, ta_frames t)]) by (apply W; [change (2 ^ 8) with 256; lia|reflexivity]).
  assert (W3 : whole [(64, Z.to_N (ta_sec t))]) by (apply W; [change (2 ^ 64) with 18446744073709551616; lia|reflexivity]).
  assert (W4 : whole [(8, ta_tai t)]) by (apply W; [change (2 ^ 8) with 256; lia|reflexivity]).
  rewrite !fb_app by auto using whole_app.
  assert (B : forall v, v < 256 -> field_bytes [(8, v)] = [v]).
  { intros v Hv. rewrite (fb_eq 1) by reflexivity. cbn [le_bytes rev app]. unfold cat_fields. cbn [fold_left fst snd]. rewrite N.shiftl_0_l, N.lor_0_l, land255 by exact Hv. reflexivity. }
  rewrite !B by lia. rewrite (fb_eq 8) by reflexivity. unfold cat_fields. cbn [fold_left fst snd]. rewrite N.shiftl_0_l, N.lor_0_l. reflexivity.
Qed.
Lemma ta_pack_ok t m : ta_ok t -> (11 <= length m)%nat -> ta_pack t m = Ok (field_bytes (ta_fields t) ++ skipn 11 m).
Proof.
  intros K L. pose proof K as (H1 & H2 & H3 & H4). unfold ta_pack. rewrite (ta_ok_valid t K). cbn [guard]. rewrite (ta_bytes_eq t K).
  destruct m as [|m0 [|m1 m]]; try (cbn in L; lia). cbn [st nth_error upd bind]. rewrite !u8_id by lia.
  assert (S64 : Z.to_N (ta_sec t mod 2 ^ 64) = Z.to_N (ta_sec t)) by (rewrite Z.mod_small by (change (2 ^ 64)%Z with 18446744073709551616%Z; lia); reflexivity).
  rewrite S64. unfold l2b_lower, l2b_lower_bytes. change (skipn (8 - 8) (rev (le_bytes 8 (Z.to_N (ta_sec t))))) with (rev (le_bytes 8 (Z.to_N (ta_sec t)))). cbn [length] in L.
  set (x := rev (le_bytes 8 (Z.to_N (ta_sec t)))). assert (Lx : length x = 8%nat) by (unfold x; now rewrite rev_length, le_bytes_length).
  pose proof (cp_at [ta_type t; ta_frames t] m x ltac:(lia)) as E. cbn [app length] in E. rewrite E. cbn [bind]. rewrite Lx in *.
  pose proof (st_app (ta_type t :: ta_frames t :: x) (skipn 8 m) 0 (ta_tai t)) as E2. cbn [app length] in E2. rewrite Lx in E2. change (10 + 0)%nat with 10%nat in E2. rewrite E2.
  change (skipn 11 (m0 :: m1 :: m)) with (skipn 9 m). destruct (skipn 8 m) as [|c r] eqn:Q; [assert (length (skipn 8 m) = 0)%nat by now rewrite Q|].
  { rewrite skipn_length in H. lia. }
  assert (Q9 : skipn 9 m = r) by (change 9%nat with (8 + 1)%nat; rewrite <- (skipn_add 1 8), Q; reflexivity). rewrite Q9.
  unfold st. cbn [nth_error upd]. rewrite behind_ok, u8_id by lia. cbn [app]. now rewrite <- app_assoc.
Qed.
