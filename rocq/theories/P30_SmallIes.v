(** C28: power target, time announce, user plane data. *)
From Verif Require Import Base Bytes WireSpec BitSolve ByteFacts Fields MacHeader Mux MuxSpec MuxFacts IeBase SmallIes SmallIesSpec IeFacts SmallIesFacts DecoderFacts P26_Beacons.
Open Scope N_scope.

(** *** Power target: one byte, 45 to 60 *)
Theorem C28_power_target : forall m v,
  (45 <= v <= 60 -> (1 <= length m)%nat -> exists m', pt_pack v m = Ok m' /\ writes pt_size m m' [(8, v)] /\ pt_unpack m' = Ok (v, true)) /\
  (~ 45 <= v <= 60 -> pt_pack v m = Abort) /\
  (bytes m -> (1 <= length m)%nat -> (pt_unpack m = Ok (v, true) <-> 45 <= v <= 60 /\ spells pt_size m [(8, v)]) /\ exists w b, pt_unpack m = Ok (w, b)).
Proof.
  intros m v. split; [|split].
  - intros V L. destruct m as [|a m]; [cbn in L; lia|]. unfold pt_pack, pt_valid. replace ((45 <=? v) && (v <=? 60)) with true by lia. cbn [guard st nth_error upd].
    rewrite u8_id by lia. eexists. split; [reflexivity|]. split.
    + split; [reflexivity|]. split; [reflexivity|]. split; [repeat constructor; lia|]. unfold spells, pt_size. cbn [length firstn]. split; [lia|]. split; [reflexivity|].
      split; [repeat constructor; cbn; change (2 ^ 8) with 256; lia|reflexivity].
    + unfold pt_unpack, pt_valid. mcbn. replace ((45 <=? v) && (v <=? 60)) with true by lia. reflexivity.
  - intros V. unfold pt_pack, pt_valid. replace ((45 <=? v) && (v <=? 60)) with false by lia. reflexivity.
  - intros B L. destruct m as [|a m]; [cbn in L; lia|]. inversion B; subst. unfold pt_unpack, pt_valid. mcbn. split; [|eauto].
    unfold spells, pt_size, be_number, cat_fields. cbn [firstn fold_left fst snd]. rewrite !N.shiftl_0_l, !N.lor_0_l. split.
    + intros E. injection E as -> E. split; [lia|]. split; [exact L|]. split; [reflexivity|]. split; [repeat constructor; cbn; change (2 ^ 8) with 256; lia|reflexivity].
    + intros (V & _ & _ & _ & ->). f_equal. f_equal. lia.
Qed.

(** *** Time announce: eleven bytes *)
Theorem C28_time_announce_layout : forall t m, ta_ok t -> (11 <= length m)%nat -> exists m', ta_pack t m = Ok m' /\ writes ta_size m m' (ta_fields t).
Proof. intros t m K L. rewrite (ta_pack_ok t m K L). eexists. split; [reflexivity|]. apply (fb_writes (ta_fields t) m); [now apply ta_whole|exact L]. Qed.
Lemma ta_parse x : length x = 11%nat -> bytes x -> exists t v, ta_unpack x = Ok (t, v) /\ (v = true -> ta_ok t /\ x = field_bytes (ta_fields t)).
Proof.
  intros L B. destruct x as [|a [|b x]]; try (cbn in L; lia). inversion B as [|? ? Ba B']; subst. inversion B' as [|? ? Bb Bx]; subst.
  assert (Ls : length (firstn 8 x) = 8%nat) by (rewrite firstn_length; cbn [length] in L; lia). 
  assert (exists s d, x = s ++ [d] /\ length s = 8%nat) as (s & d & -> & L8).
  { destruct (skipn 8 x) as [|d [|? ?]] eqn:Q; apply (f_equal (@length _)) in Q as Q'; rewrite skipn_length in Q'; cbn [length] in *; try lia. exists (firstn 8 x), d. split; [rewrite <- Q; symmetry; apply firstn_skipn|exact Ls]. }
  apply Forall_app in Bx. destruct Bx as (Bs & Bd). inversion Bd; subst.
  assert (U : ta_unpack (a :: b :: s ++ [d]) = Ok (mkTa (from_coded 3 a) b (to_i64 (be_number s)) d, ta_valid (mkTa (from_coded 3 a) b (to_i64 (be_number s)) d))).
  { unfold ta_unpack. cbn [ld rd nth_error bind]. unfold b2l_lower, seg.
    replace (2 + 8 <=? length (a :: b :: s ++ [d]))%nat with true by (symmetry; apply Nat.leb_le; cbn [length] in *; lia).
    change (skipn 2 (a :: b :: s ++ [d])) with (s ++ [d]). rewrite firstn_app, L8, Nat.sub_diag, firstn_O, app_nil_r, firstn_all2 by lia. cbn [bind]. rewrite be8 by assumption.
    assert (E10 : ld (a :: b :: s ++ [d]) 10 = Ok d). { unfold ld, rd. change (nth_error (a :: b :: s ++ [d]) 10) with (nth_error (s ++ [d]) 8). rewrite nth_error_app2, L8 by lia. reflexivity. }
    rewrite E10. reflexivity. }
  eexists _, _. split; [exact U|]. intros V. unfold ta_valid in V. cbn [ta_type ta_frames ta_sec ta_tai] in V. rewrite !andb_true_iff, !negb_true_iff, !N.ltb_ge, Z.ltb_ge in V. destruct V as (((V1 & V2) & V3) & V4).
  apply enum_coded in V1; [|lia]. pose proof (be_number_lt s Bs) as Hs. rewrite L8 in Hs. change (2 ^ (8 * N.of_nat 8)) with (2 ^ 64) in Hs.
  assert (Hs' : be_number s < 2 ^ 63). { destruct (N.lt_ge_cases (be_number s) (2 ^ 63)) as [?|Q]; [assumption|]. pose proof (to_i64_large _ Q Hs). lia. }
  rewrite to_i64_small by exact Hs'. rewrite coded_id by exact V1.
  assert (K : ta_ok (mkTa a b (Z.of_N (be_number s)) d)). { unfold ta_ok. cbn [ta_type ta_frames ta_sec ta_tai]. change (2 ^ 63) with 9223372036854775808 in *. change (2 ^ 63)%Z with 9223372036854775808%Z. lia. }
  split; [exact K|]. rewrite (ta_bytes_eq _ K). cbn [ta_type ta_frames ta_sec ta_tai]. rewrite N2Z.id. do 2 f_equal. f_equal.
  apply be_number_inj; [exact Bs|unfold bytes; apply Forall_rev, le_bytes_bytes|now rewrite rev_length, le_bytes_length|]. symmetry. apply be_le. exact Hs.
Qed.
Theorem C28_time_announce_round_trip : forall t m, ta_ok t -> (11 <= length m)%nat -> exists m', ta_pack t m = Ok m' /\ ta_unpack m' = Ok (t, true).
Proof.
  intros t m K L. rewrite (ta_pack_ok t m K L). eexists. split; [reflexivity|]. destruct (ta_total (field_bytes (ta_fields t)) ltac:(now rewrite fb_length)) as ((t' & v) & E & T).
  rewrite T. rewrite <- (app_nil_r (field_bytes _)), T in E. rewrite <- (T []), app_nil_r. clear E T.
  rewrite (ta_bytes_eq t K). destruct K as (K1 & K2 & K3 & K4). set (s := rev (le_bytes 8 (Z.to_N (ta_sec t)))).
  assert (L8 : length s = 8%nat) by (unfold s; now rewrite rev_length, le_bytes_length). assert (Bs : bytes s) by (unfold s, bytes; apply Forall_rev, le_bytes_bytes).
  assert (Hs : be_number s = Z.to_N (ta_sec t)) by (apply be_le; change (2 ^ (8 * N.of_nat 8)) with 18446744073709551616; change (2 ^ 63)%Z with 9223372036854775808%Z in *; lia).
  unfold ta_unpack. cbn [ld rd nth_error bind]. unfold b2l_lower, seg.
  replace (2 + 8 <=? length (ta_type t :: ta_frames t :: s ++ [ta_tai t]))%nat with true by (symmetry; apply Nat.leb_le; cbn [length]; rewrite app_length; cbn [length]; lia).
  change (skipn 2 (ta_type t :: ta_frames t :: s ++ [ta_tai t])) with (s ++ [ta_tai t]). rewrite firstn_app, L8, Nat.sub_diag, firstn_O, app_nil_r, firstn_all2 by lia. cbn [bind]. rewrite be8, Hs by assumption.
  assert (E10 : ld (ta_type t :: ta_frames t :: s ++ [ta_tai t]) 10 = Ok (ta_tai t)).
  { unfold ld, rd. change (nth_error (ta_type t :: ta_frames t :: s ++ [ta_tai t]) 10) with (nth_error (s ++ [ta_tai t]) 8). rewrite nth_error_app2, L8 by lia. reflexivity. }
  rewrite E10. cbn [bind]. rewrite to_i64_small by (change (2 ^ 63) with 9223372036854775808; change (2 ^ 63)%Z with 9223372036854775808%Z in *; lia). rewrite Z2N.id by lia. rewrite coded_id by lia.
  assert (Et : mkTa (ta_type t) (ta_frames t) (ta_sec t) (ta_tai t) = t) by (destruct t; reflexivity). rewrite Et, ta_ok_valid; [reflexivity|]. unfold ta_ok. auto.
Qed.
(** Eleven bytes are accepted exactly if they spell a valid element, whatever follows. *)
Theorem C28_time_announce_exact : forall m t, bytes m -> (11 <= length m)%nat ->
  (exists t' v, ta_unpack m = Ok (t', v)) /\ (ta_unpack m = Ok (t, true) <-> ta_ok t /\ spells ta_size m (ta_fields t)).
Proof.
  intros m t B L. assert (L11 : length (firstn 11 m) = 11%nat) by (rewrite firstn_length; lia).
  destruct (ta_parse (firstn 11 m) L11 (bytes_firstn m 11 B)) as (t' & v & U & P). destruct (ta_total _ L11) as (r & E & T).
  rewrite U in E. injection E as <-. assert (Um : ta_unpack m = Ok (t', v)) by (rewrite <- (firstn_skipn 11 m); apply T). split; [eauto|]. rewrite Um. split.
  - intros E. injection E as -> ->. destruct (P eq_refl) as (K & Ex). split; [exact K|]. rewrite <- (firstn_skipn 11 m), Ex. apply (fb_spells (ta_fields t)). now apply ta_whole.
  - intros (K & S). destruct (spells_fb _ _ _ S (bytes_firstn m _ B)) as (_ & _ & Em). destruct (C28_time_announce_round_trip t m K L) as (m' & E1 & E2).
    rewrite (ta_pack_ok t m K L) in E1. injection E1 as <-. assert (E3 : ta_unpack m = Ok (t, true)) by (transitivity (ta_unpack (field_bytes (ta_fields t) ++ skipn 11 m)); [now apply f_equal|exact E2]). now rewrite <- E3.
Qed.
Theorem C28_time_announce_invalid_aborts : forall t m, (ta_sec t < 2 ^ 63)%Z -> enumerator 0 3 (ta_type t) -> ~ ta_ok t -> ta_pack t m = Abort.
Proof.
  intros t m Hs He K. unfold ta_pack. destruct (ta_valid t) eqn:V; [exfalso|reflexivity]. apply K. clear K. unfold ta_valid, enum_valid in V. rewrite !andb_true_iff, !negb_true_iff, !N.ltb_ge, Z.ltb_ge, !N.eqb_neq in V. unfold enumerator in He. unfold ta_ok. lia.
Qed.
(** A negative number of frames, or more than 255, aborts; set_time takes a 32 bit signed number. *)
Theorem C28_set_time : forall type frames sec, type <= 2 -> (- 2 ^ 31 <= frames < 2 ^ 31)%Z -> (- 2 ^ 63 <= sec < 2 ^ 63)%Z ->
  ta_ok (ta_set_time type frames sec) <-> (0 <= frames <= 255)%Z /\ (0 <= sec)%Z.
Proof.
  intros type frames sec Ht Hf Hs. unfold ta_ok, ta_set_time. cbn [ta_type ta_frames ta_sec ta_tai]. 
  assert (M : (frames mod 2 ^ 32 = if frames <? 0 then frames + 2 ^ 32 else frames)%Z).
  { destruct (Z.ltb_spec frames 0); [|apply Z.mod_small; lia]. symmetry. apply (Z.mod_unique frames (2 ^ 32) (-1)); lia. }
  rewrite M. destruct (Z.ltb_spec frames 0); split; intros; lia.
Qed.

(** *** User plane data *)
(** For flows 1 to 4 and 1 to 65535 bytes the multiplexing header is written and the data go behind it. *)
Theorem C28_user_plane_data : forall flow n h m off, 1 <= flow <= 4 -> 1 <= n <= 65535 ->
  exists h1 h2 hdr, set_flow_id h flow = Ok h1 /\ set_data_size h1 n = Ok h2 /\ get_flow_id h2 = flow /\ mx_len h2 = n /\
  hdr = (if (n <=? 255)%N then 2 else 3)%nat /\ flowing_size h2 = Ok (N.of_nat hdr + n) /\
  ((off + hdr <= length m)%nat -> exists m', flowing_pack h2 m off = Ok (m', (off + hdr)%nat) /\ firstn off m' = firstn off m /\
     writes hdr (skipn off m) (skipn off m') (if n <=? 255 then [(2, 1); (6, 2 + flow); (8, n)] else [(2, 2); (6, 2 + flow); (16, n)])).
Proof.
  intros flow n h m off F Hn. assert (flow = 1 \/ flow = 2 \/ flow = 3 \/ flow = 4) as Fc by lia.
  exists (mkMmh (mx_ext h) (2 + flow) (mx_len h) (mx_tinfo h)), (mkMmh (if n <=? 255 then 1 else 2) (2 + flow) n (mx_tinfo h)), (if (n <=? 255)%N then 2 else 3)%nat.
  split; [destruct Fc as [->|[->|[->| ->]]]; reflexivity|]. split; [unfold set_data_size; replace ((0 <? n) && (n <=? 65535)) with true by lia; reflexivity|].
  split; [destruct Fc as [->|[->|[->| ->]]]; reflexivity|]. split; [reflexivity|]. split; [reflexivity|].
  assert (Sz : mmh_size (mkMmh (if n <=? 255 then 1 else 2) (2 + flow) n (mx_tinfo h)) = Ok (if (n <=? 255)%N then 2 else 3)%nat) by (destruct (n <=? 255); reflexivity).
  split; [unfold flowing_size; rewrite Sz; reflexivity|]. intros L. unfold flowing_pack. rewrite Sz. unfold at_off.
  replace (off <=? length m)%nat with true by (symmetry; apply Nat.leb_le; destruct (n <=? 255); lia).
  assert (Lk : length (skipn off m) = (length m - off)%nat) by now rewrite skipn_length.
  assert (In (2 + flow) [3; 4; 5; 6]) as Ie by (destruct Fc as [->|[->|[->| ->]]]; cbn; tauto).
  assert (Wr : exists s, mmh_pack (mkMmh (if n <=? 255 then 1 else 2) (2 + flow) n (mx_tinfo h)) (skipn off m) = Ok s /\
     writes (if n <=? 255 then 2%nat else 3%nat) (skipn off m) s (if n <=? 255 then [(2, 1); (6, 2 + flow); (8, n)] else [(2, 2); (6, 2 + flow); (16, n)])).
  { destruct (N.leb_spec n 255).
    - rewrite pack_ext1 by (try lia; cbn in Ie |- *; tauto). eexists. split; [reflexivity|].
      assert (W : whole [(2, 1); (6, 2 + flow); (8, n)]) by (split; [repeat constructor; cbn; lia|reflexivity]).
      pose proof (fb_writes _ (skipn off m) W ltac:(change (nbytes _) with 2%nat; lia)) as G. change (nbytes [(2, 1); (6, 2 + flow); (8, n)]) with 2%nat in G.
      replace (field_bytes [(2, 1); (6, 2 + flow); (8, n)]) with [64 + (2 + flow); n] in G; [exact G|].
      apply be_number_inj; [repeat constructor; lia|apply fb_bytes|reflexivity|]. rewrite fb_number by exact W. unfold be_number, cat_fields. cbn [fold_left fst snd].
      rewrite !N.shiftl_0_l, !N.lor_0_l. destruct Fc as [->|[->|[->| ->]]]; reflexivity.
    - rewrite pack_ext2 by (try assumption; lia). eexists. split; [reflexivity|].
      assert (W : whole [(2, 2); (6, 2 + flow); (16, n)]) by (split; [repeat constructor; cbn; lia|reflexivity]).
      pose proof (fb_writes _ (skipn off m) W ltac:(change (nbytes _) with 3%nat; lia)) as G. change (nbytes [(2, 2); (6, 2 + flow); (16, n)]) with 3%nat in G.
      replace (field_bytes [(2, 2); (6, 2 + flow); (16, n)]) with [128 + (2 + flow); n / 256; n mod 256] in G; [exact G|].
      assert (n / 256 < 256) by (apply N.div_lt_upper_bound; lia). assert (n mod 256 < 256) by (apply N.mod_lt; lia).
      apply be_number_inj; [repeat constructor; lia|apply fb_bytes|reflexivity|]. rewrite fb_number by exact W. unfold be_number, cat_fields. cbn [fold_left fst snd].
      assert (E : N.lor (N.shiftl (n / 256) 8) (n mod 256) = n).
      { rewrite N.lor_comm, lor_add8 by assumption. symmetry. apply N.div_mod. lia. }
      assert (E2 : forall a, N.lor (N.shiftl (N.lor (N.shiftl a 8) (n / 256)) 8) (n mod 256) = N.lor (N.shiftl a 16) n).
      { intros a. rewrite N.shiftl_lor, N.shiftl_shiftl, <- N.lor_assoc, E. reflexivity. }
      rewrite E2. rewrite !N.shiftl_0_l, !N.lor_0_l. destruct Fc as [->|[->|[->| ->]]]; reflexivity. }
  destruct Wr as (s & E & Wr). rewrite E. cbn [bind]. eexists. split; [reflexivity|].
  assert (Lo : length (firstn off m) = off) by (rewrite firstn_length; destruct (n <=? 255); lia).
  split; [rewrite firstn_app, Lo, Nat.sub_diag, firstn_O, app_nil_r, firstn_all2 by lia; reflexivity|].
  replace (skipn off (firstn off m ++ s)) with s; [exact Wr|]. rewrite skipn_app, Lo, Nat.sub_diag, skipn_all2 by lia. reflexivity.
Qed.
Theorem C28_user_plane_data_aborts : forall h flow n,
  (~ 1 <= flow <= 4 -> set_flow_id h flow = Abort) /\ (~ 1 <= n <= 65535 -> set_data_size h n = Abort).
Proof.
  intros h flow n. split.
  - intros F. unfold set_flow_id. destruct flow as [|[[?|?|]|[[?|?|]|[?|?|]|]|]]; try reflexivity; lia.
  - intros Hn. unfold set_data_size. replace ((0 <? n) && (n <=? 65535)) with false by lia. reflexivity.
Qed.
Example C28_small_nonvacuous : ta_ok (mkTa 1 99 1700000000 37) /\ (45 <= 52 <= 60) /\ (1 <= 4 <= 4) /\ 1 <= 1500 <= 65535.
Proof. unfold ta_ok; cbn; lia. Qed.

Print Assumptions C28_power_target.
Print Assumptions C28_time_announce_layout.
Print Assumptions C28_time_announce_round_trip.
Print Assumptions C28_time_announce_exact.
Print Assumptions C28_time_announce_invalid_aborts.
Print Assumptions C28_set_time.
Print Assumptions C28_user_plane_data.
Print Assumptions C28_user_plane_data_aborts.
