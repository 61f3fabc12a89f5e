From Verif Require Import Base Bytes WireSpec BitSolve ByteFacts Identity MacHeader MacHeaderSpec.
Open Scope N_scope.

Lemma shiftl_add_lor x w y : y < 2 ^ w -> N.shiftl x w + y = N.lor (N.shiftl x w) y.
Proof.
  intros Hy. assert (D : N.land (N.shiftl x w) y = 0).
  { apply N.bits_inj. intros n. rewrite N.land_spec, N.bits_0.
    destruct (N.lt_ge_cases n w).
    - now rewrite N.shiftl_spec_low.
    - rewrite (testbit_high y w) by lia. apply andb_false_r. }
  rewrite N.add_nocarry_lxor, N.lxor_lor by auto. reflexivity.
Qed.

Lemma lrd_ok x : x < 2 ^ 32 -> (is_valid_LongRadioDeviceID x = true <-> long_rd_id x).
Proof.
  intros H. unfold is_valid_LongRadioDeviceID, long_rd_id, LongRadioDeviceID_reserved.
  destruct (N.eqb_spec x 0); split; try discriminate; try reflexivity; lia.
Qed.
Lemma lrd_ok1 x : long_rd_id x -> is_valid_LongRadioDeviceID x = true.
Proof. intros H. apply lrd_ok; [apply H|exact H]. Qed.

(** The 32 bit value at explicit cells. *)
Definition be32 a b c d := N.lor (N.shiftl (N.lor (N.shiftl (N.lor (N.shiftl a 8) b) 8) c) 8) d.
Lemma raw32 a b c d : a < 256 -> b < 256 -> c < 256 -> d < 256 ->
  N.lor d (N.shiftl (N.lor c (N.shiftl (N.lor b (N.shiftl (N.lor a (N.shiftl 0 8)) 8)) 8)) 8) = be32 a b c d.
Proof. intros. unfold be32. bits. Qed.
Lemma be32_lt a b c d : a < 256 -> b < 256 -> c < 256 -> d < 256 -> be32 a b c d < 4294967296.
Proof. intros. change 4294967296 with (2 ^ 32). unfold be32. bits_lt 32%nat. Qed.

Ltac spells_tac :=
  split; [cbn [length]; lia|]; split; [vm_compute; reflexivity|]; split; [fit_tac|spell_tac].

Lemma mht_valid_ok h : mht_version h < 4 -> mht_security h < 4 -> mht_type h < 16 -> mht_valid h = true.
Proof. intros. unfold mht_valid, UNDEF32. rewrite !andb_true_iff, !negb_true_iff, !N.eqb_neq. lia. Qed.
Lemma mht_pack_writes h m : (1 <= length m)%nat -> mht_version h < 4 -> mht_security h < 4 -> mht_type h < 16 ->
  exists m', mht_pack h m = Ok m' /\ writes 1 m m' (mht_fields h).
Proof.
  intros Hl H1 H2 H3. cells m 1%nat. unfold mht_pack. rewrite mht_valid_ok by auto. mcbn.
  eexists. split; [reflexivity|]. unfold mht_fields. writes_tac.
Qed.
Lemma mht_raw b : b < 256 ->
  exists v s t, N.land (N.shiftr b 6) 3 = v /\ N.land (N.shiftr b 4) 3 = s /\ N.land b 15 = t /\
    v < 4 /\ s < 4 /\ t < 16 /\ b = cat_fields [(2, v); (2, s); (4, t)].
Proof.
  intros H. eexists _, _, _. split; [reflexivity|]. split; [reflexivity|]. split; [reflexivity|].
  assert (A1 := land_le (N.shiftr b 6) 3). assert (A2 := land_le (N.shiftr b 4) 3). assert (A3 := land_le b 15).
  split; [lia|]. split; [lia|]. split; [lia|]. unfold cat_fields. cbn [fold_left fst snd]. bits.
Qed.
Lemma mht_unpack_exact m : (1 <= length m)%nat -> bytes (firstn 1 m) ->
  exists h v, mht_unpack m = Ok (h, v) /\ (v = true -> mht_ok h /\ spells 1 m (mht_fields h)) /\
    (v = false -> forall h', mht_ok h' -> ~ spells 1 m (mht_fields h')).
Proof.
  intros Hl Hb. cells m 1%nat. cbn [firstn] in Hb. inv_bytes. unfold mht_unpack. mcbn.
  destruct (mht_raw b0 Hbyte) as (v & s & t & -> & -> & -> & Hv & Hs & Ht & Hc).
  assert (Hsp : spells 1 (b0 :: m) [(2, v); (2, s); (4, t)]).
  { split; [cbn [length]; lia|]. split; [vm_compute; reflexivity|]. split; [fit_tac|].
    rewrite <- Hc. unfold be_number. cbn [firstn fold_left]. bits. }
  eexists _, _. split; [reflexivity|]. unfold get_version_ec, get_mac_security_ec, get_mac_header_type_ec, mht_ok, mht_valid.
  cbn [mht_version mht_security mht_type].
  destruct (N.leb_spec s 3) as [_|]; [|lia].
  assert (Hneed : forall h', mht_ok h' -> spells 1 (b0 :: m) (mht_fields h') -> v = 0 /\ t <= 4).
  { intros h' (K1 & K2 & K3) K. pose proof (spells_inj _ _ _ _ Hsp K eq_refl) as E. unfold mht_fields in E.
    injection E as E1 E2 E3. lia. }
  destruct (N.eqb_spec v 0) as [->|Hv0]; [destruct (N.leb_spec t 4) as [Ht4|Ht4]|]; split; intros E.
  - split; [split; [reflexivity|]; lia|]. exact Hsp.
  - exfalso. unfold UNDEF32 in E. rewrite !andb_false_iff, !negb_false_iff, !N.eqb_eq in E. lia.
  - exfalso. unfold UNDEF32 in E. rewrite !andb_true_iff, !negb_true_iff, !N.eqb_neq in E. lia.
  - intros h' K K'. destruct (Hneed h' K K'). lia.
  - exfalso. unfold UNDEF32 in E. rewrite N.eqb_refl in E. discriminate.
  - intros h' K K'. destruct (Hneed h' K K'). lia.
Qed.

Lemma dh_valid_ok h : dh_valid h = true <-> dh_ok h.
Proof. unfold dh_valid, dh_ok. rewrite !andb_true_iff, !negb_involutive, !negb_true_iff, !N.ltb_ge, N.eqb_eq. tauto. Qed.
Lemma uh_valid_ok h : uh_rx h < 2 ^ 32 -> uh_tx h < 2 ^ 32 -> (uh_valid h = true <-> uh_ok h).
Proof. intros H1 H2. unfold uh_valid, uh_ok. rewrite !andb_true_iff, dh_valid_ok, !lrd_ok by auto. tauto. Qed.
Lemma rh_valid_ok h : rh_tx h < 2 ^ 32 -> (rh_valid h = true <-> rh_ok h).
Proof. intros H1. unfold rh_valid, rh_ok. rewrite !andb_true_iff, dh_valid_ok, !lrd_ok by auto. tauto. Qed.
Lemma bh_valid_ok h : bh_tx h < 2 ^ 32 -> (bh_valid h = true <-> bh_ok h).
Proof.
  intros H1. unfold bh_valid, bh_ok. rewrite !andb_true_iff, !lrd_ok, negb_true_iff, N.ltb_ge by auto.
  change (2 ^ 24) with 16777216. intuition lia.
Qed.

Lemma dh_pack_writes h m : (2 <= length m)%nat -> dh_ok h ->
  exists m', dh_pack h m = Ok m' /\ writes 2 m m' (dh_fields h).
Proof.
  intros Hl Hok. cells m 2%nat. unfold dh_pack, seq_pack. pose proof Hok as V. apply dh_valid_ok in V. rewrite V.
  destruct Hok as (H1 & H2 & H3). unfold dh_fields. rewrite !H1. mcbn.
  eexists. split; [reflexivity|]. writes_tac.
Qed.
Lemma uh_pack_writes h m : (10 <= length m)%nat -> uh_ok h ->
  exists m', uh_pack h m = Ok m' /\ writes 10 m m' (uh_fields h).
Proof.
  intros Hl Hok. cells m 10%nat. unfold uh_pack, seq_pack. pose proof Hok as V. apply uh_valid_ok in V; try apply Hok. rewrite V.
  destruct Hok as ((H1 & H2 & H3) & H4 & H5). unfold long_rd_id in *. change (2 ^ 32) with 4294967296 in *.
  unfold uh_fields, dh_fields. cbn [app]. rewrite !H1. mcbn.
  eexists. split; [reflexivity|]. writes_tac.
Qed.
Lemma rh_pack_writes h m : (6 <= length m)%nat -> rh_ok h ->
  exists m', rh_pack h m = Ok m' /\ writes 6 m m' (rh_fields h).
Proof.
  intros Hl Hok. cells m 6%nat. unfold rh_pack, seq_pack. pose proof Hok as V. apply rh_valid_ok in V; try apply Hok. rewrite V.
  destruct Hok as ((H1 & H2 & H3) & H5). unfold long_rd_id in *. change (2 ^ 32) with 4294967296 in *.
  unfold rh_fields, dh_fields. cbn [app]. rewrite !H1. mcbn.
  eexists. split; [reflexivity|]. writes_tac.
Qed.
Lemma bh_pack_writes h m : (7 <= length m)%nat -> bh_ok h ->
  exists m', bh_pack h m = Ok m' /\ writes 7 m m' (bh_actual_fields h).
Proof.
  intros Hl Hok. cells m 7%nat. unfold bh_pack. pose proof Hok as V. apply bh_valid_ok in V; try apply Hok. rewrite V.
  destruct Hok as (H1 & H2). unfold long_rd_id in *. change (2 ^ 32) with 4294967296 in *. change (2 ^ 24) with 16777216 in *.
  unfold bh_actual_fields. replace (bh_netid h / 256) with (N.shiftr (bh_netid h) 8) by (now rewrite N.shiftr_div_pow2). mcbn.
  assert (N.shiftr (bh_netid h) 8 < 65536).
  { rewrite N.shiftr_div_pow2. apply N.div_lt_upper_bound; [discriminate|]. change (2 ^ 8 * 65536) with 16777216. lia. }
  eexists. split; [reflexivity|]. writes_tac.
Qed.

(** Unpacking reads off the fields the bytes spell. *)
Lemma seq_unpack_spells b0 b1 m : b0 < 256 -> b1 < 256 ->
  exists h, seq_unpack (b0 :: b1 :: m) = Ok h /\ dh_reserved h < 8 /\ dh_reset h < 2 /\ dh_seq h < 4096 /\
    be_number [b0; b1] = cat_fields (dh_fields h).
Proof.
  intros H0 H1. unfold seq_unpack. mcbn. rewrite shiftl_add_lor by (change (2 ^ 8) with 256; lia).
  eexists. split; [reflexivity|]. cbn [dh_reserved dh_reset dh_seq].
  assert (A1 := land_le (N.shiftr b0 5) 7). assert (A2 := land_le (N.shiftr b0 4) 1).
  split; [lia|]. split; [lia|]. split; [change 4096 with (2 ^ 12); bits_lt 12%nat|].
  unfold dh_fields, be_number, cat_fields. cbn [fold_left fst snd dh_reserved dh_reset dh_seq]. bits.
Qed.

Lemma seq_cells b0 b1 m h : b0 < 256 -> b1 < 256 -> dh_reserved h < 8 -> dh_reset h < 2 -> dh_seq h < 4096 ->
  be_number [b0; b1] = cat_fields (dh_fields h) -> spells 2 (b0 :: b1 :: m) (dh_fields h).
Proof.
  intros. split; [cbn [length]; lia|]. split; [reflexivity|]. split; [unfold dh_fields; fit_tac|assumption].
Qed.

Lemma dh_unpack_spells m : (2 <= length m)%nat -> bytes (firstn 2 m) ->
  exists h, dh_unpack m = Ok (h, dh_valid h) /\ spells 2 m (dh_fields h).
Proof.
  intros Hl Hb. cells m 2%nat. cbn [firstn] in Hb. inv_bytes. unfold dh_unpack.
  destruct (seq_unpack_spells b0 b1 m) as (h & -> & A & B & C & D); auto. mcbn.
  eexists. split; [reflexivity|]. now apply seq_cells.
Qed.
Lemma spells4 a b c d m : a < 256 -> b < 256 -> c < 256 -> d < 256 ->
  spells 4 (a :: b :: c :: d :: m) [(32, be32 a b c d)].
Proof.
  intros. assert (L := be32_lt a b c d ltac:(auto) ltac:(auto) ltac:(auto) ltac:(auto)). split; [cbn [length]; lia|]. split; [reflexivity|].
  split; [fit_tac|]. unfold be_number, cat_fields, be32. cbn [firstn fold_left fst snd]. bits.
Qed.
Lemma uh_unpack_spells m : (10 <= length m)%nat -> bytes (firstn 10 m) ->
  exists h, uh_unpack m = Ok (h, uh_valid h) /\ spells 10 m (uh_fields h) /\ uh_rx h < 2 ^ 32 /\ uh_tx h < 2 ^ 32.
Proof.
  intros Hl Hb. cells m 10%nat. cbn [firstn] in Hb. inv_bytes. unfold uh_unpack.
  edestruct (seq_unpack_spells b0 b1) as (h & -> & A & B & C & D); auto. mcbn. rewrite !raw32 by auto.
  eexists. split; [reflexivity|]. unfold uh_fields. cbn [uh_seq uh_rx uh_tx].
  split; [|split; apply be32_lt; auto].
  change 10%nat with (2 + (4 + 4))%nat. apply spells_app; [now apply seq_cells|]. cbn [skipn].
  change [(32, be32 b2 b3 b4 b5); (32, be32 b6 b7 b8 b9)] with ([(32, be32 b2 b3 b4 b5)] ++ [(32, be32 b6 b7 b8 b9)]).
  apply spells_app; cbn [skipn]; now apply spells4.
Qed.
Lemma rh_unpack_spells m : (6 <= length m)%nat -> bytes (firstn 6 m) ->
  exists h, rh_unpack m = Ok (h, rh_valid h) /\ spells 6 m (rh_fields h) /\ rh_tx h < 2 ^ 32.
Proof.
  intros Hl Hb. cells m 6%nat. cbn [firstn] in Hb. inv_bytes. unfold rh_unpack.
  edestruct (seq_unpack_spells b0 b1) as (h & -> & A & B & C & D); auto. mcbn. rewrite !raw32 by auto.
  eexists. split; [reflexivity|]. unfold rh_fields. cbn [rh_seq rh_tx].
  split; [|apply be32_lt; auto].
  change 6%nat with (2 + 4)%nat. apply spells_app; [now apply seq_cells|]. cbn [skipn]. now apply spells4.
Qed.
(** The beacon header arrives with the 24 bits on the wire shifted up by a byte. *)
Lemma bh_unpack_spells m : (7 <= length m)%nat -> bytes (firstn 7 m) ->
  exists id tx, spells 7 m [(24, id); (32, tx)] /\ tx < 2 ^ 32 /\
    bh_unpack m = Ok (mkBh (256 * id) tx, bh_valid (mkBh (256 * id) tx)).
Proof.
  intros Hl Hb. cells m 7%nat. cbn [firstn] in Hb. inv_bytes.
  exists (N.lor (N.shiftl (N.lor (N.shiftl b0 8) b1) 8) b2), (be32 b3 b4 b5 b6).
  assert (L := be32_lt b3 b4 b5 b6 ltac:(auto) ltac:(auto) ltac:(auto) ltac:(auto)).
  assert (L2 : N.lor (N.shiftl (N.lor (N.shiftl b0 8) b1) 8) b2 < 16777216) by (change 16777216 with (2 ^ 24); bits_lt 24%nat).
  split; [|split; [exact L|]].
  - split; [cbn [length]; lia|]. split; [reflexivity|]. split; [fit_tac|].
    unfold be_number, cat_fields, be32. cbn [firstn fold_left fst snd]. bits.
  - unfold bh_unpack. mcbn. rewrite (raw32 b3) by auto.
    replace (256 * N.lor (N.shiftl (N.lor (N.shiftl b0 8) b1) 8) b2) with
      (N.lor 0 (N.shiftl (N.lor b2 (N.shiftl (N.lor b1 (N.shiftl (N.lor b0 (N.shiftl 0 8)) 8)) 8)) 8)); [reflexivity|].
    rewrite N.mul_comm. change 256 with (2 ^ 8). rewrite <- N.shiftl_mul_pow2. bits.
Qed.
