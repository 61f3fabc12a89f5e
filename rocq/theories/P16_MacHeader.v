(** C19: MAC header type and MAC common headers round-trip. *)
From Verif Require Import Base Bytes WireSpec BitSolve ByteFacts Identity MacHeader MacHeaderSpec MacHeaderFacts.
Open Scope N_scope.

(** Valid headers occupy exactly the announced bytes, in the bit layout of the standard. *)
Theorem C19_layout : forall m,
  (forall h, (1 <= length m)%nat -> mht_ok h -> exists m', mht_pack h m = Ok m' /\ writes 1 m m' (mht_fields h)) /\
  (forall h, (2 <= length m)%nat -> dh_ok h -> exists m', dh_pack h m = Ok m' /\ writes 2 m m' (dh_fields h)) /\
  (forall h, (10 <= length m)%nat -> uh_ok h -> exists m', uh_pack h m = Ok m' /\ writes 10 m m' (uh_fields h)) /\
  (forall h, (6 <= length m)%nat -> rh_ok h -> exists m', rh_pack h m = Ok m' /\ writes 6 m m' (rh_fields h)).
Proof.
  intros m. split; [|split; [|split]]; intros h Hl H.
  - destruct H as (H1 & H2 & H3). apply mht_pack_writes; auto; lia.
  - now apply dh_pack_writes.
  - now apply uh_pack_writes.
  - now apply rh_pack_writes.
Qed.

(** Whatever the common header, packing fills exactly the announced number of bytes. *)
Theorem C19_announced_size : forall h m, mch_ok h -> bytes m -> (mch_size h <= length m)%nat ->
  exists m', mch_pack h m = Ok m' /\ writes (mch_size h) m m' (mch_actual_fields h).
Proof.
  intros [h|h|h|h|] m H B L; cbn [mch_ok mch_size mch_pack mch_actual_fields] in *.
  - now apply dh_pack_writes.
  - now apply bh_pack_writes.
  - now apply uh_pack_writes.
  - now apply rh_pack_writes.
  - exists m. split; [reflexivity|]. split; [reflexivity|]. split; [reflexivity|]. split; [constructor|].
    repeat split; try (cbn; lia); constructor.
Qed.

(** Received bytes are accepted exactly if they spell a valid header, which is then returned. *)
Theorem C19_unpack_exact : forall m, bytes m ->
  (forall h, (1 <= length m)%nat -> (mht_unpack m = Ok (h, true) <-> mht_ok h /\ spells 1 m (mht_fields h))) /\
  (forall h, (2 <= length m)%nat -> (dh_unpack m = Ok (h, true) <-> dh_ok h /\ spells 2 m (dh_fields h))) /\
  (forall h, (10 <= length m)%nat -> (uh_unpack m = Ok (h, true) <-> uh_ok h /\ spells 10 m (uh_fields h))) /\
  (forall h, (6 <= length m)%nat -> (rh_unpack m = Ok (h, true) <-> rh_ok h /\ spells 6 m (rh_fields h))).
Proof.
  intros m Hb. assert (B : forall n, bytes (firstn n m)).
  { intros n. rewrite <- (firstn_skipn n m) in Hb. apply Forall_app in Hb. tauto. }
  split; [|split; [|split]]; intros h Hl.
  - destruct (mht_unpack_exact m Hl (B _)) as (h' & v & -> & T & F). split.
    + intros E. injection E as -> ->. now apply T.
    + intros [K1 K2]. destruct v; [|exfalso; now apply (F eq_refl h)].
      destruct (T eq_refl) as [T1 T2]. pose proof (spells_inj _ _ _ _ K2 T2 eq_refl) as E.
      unfold mht_fields in E. injection E as E1 E2 E3. destruct h, h'. cbn in *. congruence.
  - destruct (dh_unpack_spells m Hl (B _)) as (h' & -> & S). split.
    + intros E. injection E as -> V. split; [now apply dh_valid_ok|assumption].
    + intros [K1 K2]. pose proof (spells_inj _ _ _ _ K2 S eq_refl) as E.
      unfold dh_fields in E. injection E as E1 E2 E3. apply dh_valid_ok in K1.
      assert (h = h') by (destruct h, h'; cbn in *; congruence). subst. now rewrite K1.
  - destruct (uh_unpack_spells m Hl (B _)) as (h' & -> & S & R1 & R2). split.
    + intros E. injection E as -> V. split; [now apply uh_valid_ok|assumption].
    + intros [K1 K2]. pose proof (spells_inj _ _ _ _ K2 S eq_refl) as E.
      unfold uh_fields, dh_fields in E. cbn [app] in E. injection E as E1 E2 E3 E4 E5.
      assert (h = h') by (destruct h as [[]], h' as [[]]; cbn in *; congruence). subst.
      apply uh_valid_ok in K1; auto. now rewrite K1.
  - destruct (rh_unpack_spells m Hl (B _)) as (h' & -> & S & R1). split.
    + intros E. injection E as -> V. split; [now apply rh_valid_ok|assumption].
    + intros [K1 K2]. pose proof (spells_inj _ _ _ _ K2 S eq_refl) as E.
      unfold rh_fields, dh_fields in E. cbn [app] in E. injection E as E1 E2 E3 E4.
      assert (h = h') by (destruct h as [[]], h' as [[]]; cbn in *; congruence). subst.
      apply rh_valid_ok in K1; auto. now rewrite K1.
Qed.

Theorem C19_round_trip : forall m, bytes m ->
  (forall h, (1 <= length m)%nat -> mht_ok h -> exists m', mht_pack h m = Ok m' /\ mht_unpack m' = Ok (h, true)) /\
  (forall h, (2 <= length m)%nat -> dh_ok h -> exists m', dh_pack h m = Ok m' /\ dh_unpack m' = Ok (h, true)) /\
  (forall h, (10 <= length m)%nat -> uh_ok h -> exists m', uh_pack h m = Ok m' /\ uh_unpack m' = Ok (h, true)) /\
  (forall h, (6 <= length m)%nat -> rh_ok h -> exists m', rh_pack h m = Ok m' /\ rh_unpack m' = Ok (h, true)).
Proof.
  intros m Hb.
  assert (G : forall n m' l, writes n m m' l -> bytes m').
  { intros n m' l (_ & E & B & _). rewrite <- (firstn_skipn n m'). apply Forall_app. split; [exact B|].
    rewrite E. rewrite <- (firstn_skipn n m) in Hb. apply Forall_app in Hb. tauto. }
  destruct (C19_layout m) as (L1 & L2 & L3 & L4).
  split; [|split; [|split]]; intros h Hl H.
  - destruct (L1 h Hl H) as (m' & E & W). exists m'. split; [exact E|].
    destruct (C19_unpack_exact m' (G _ _ _ W)) as (X & _). apply X; [destruct W as [-> _]; lia|].
    split; [exact H|apply W].
  - destruct (L2 h Hl H) as (m' & E & W). exists m'. split; [exact E|].
    destruct (C19_unpack_exact m' (G _ _ _ W)) as (_ & X & _). apply X; [destruct W as [-> _]; lia|].
    split; [exact H|apply W].
  - destruct (L3 h Hl H) as (m' & E & W). exists m'. split; [exact E|].
    destruct (C19_unpack_exact m' (G _ _ _ W)) as (_ & _ & X & _). apply X; [destruct W as [-> _]; lia|].
    split; [exact H|apply W].
  - destruct (L4 h Hl H) as (m' & E & W). exists m'. split; [exact E|].
    destruct (C19_unpack_exact m' (G _ _ _ W)) as (_ & _ & _ & X). apply X; [destruct W as [-> _]; lia|].
    split; [exact H|apply W].
Qed.

(** Invalid common headers are refused by an abort; of header types only the undefined one is. *)
Theorem C19_invalid_headers_abort : forall m,
  (forall h, ~ dh_ok h -> dh_pack h m = Abort) /\
  (forall h, uh_rx h < 2 ^ 32 -> uh_tx h < 2 ^ 32 -> ~ uh_ok h -> uh_pack h m = Abort) /\
  (forall h, rh_tx h < 2 ^ 32 -> ~ rh_ok h -> rh_pack h m = Abort) /\
  (forall h, bh_tx h < 2 ^ 32 -> ~ bh_ok h -> bh_pack h m = Abort) /\
  (forall h, mht_version h = UNDEF32 \/ mht_security h = UNDEF32 \/ mht_type h = UNDEF32 -> mht_pack h m = Abort).
Proof.
  intros m. split; [|split; [|split; [|split]]].
  - intros h H. unfold dh_pack. rewrite <- dh_valid_ok in H. destruct (dh_valid h); [tauto|reflexivity].
  - intros h K1 K2 H. unfold uh_pack. rewrite <- uh_valid_ok in H by auto. destruct (uh_valid h); [tauto|reflexivity].
  - intros h K1 H. unfold rh_pack. rewrite <- rh_valid_ok in H by auto. destruct (rh_valid h); [tauto|reflexivity].
  - intros h K1 H. unfold bh_pack. rewrite <- bh_valid_ok in H by auto. destruct (bh_valid h); [tauto|reflexivity].
  - intros h H. unfold mht_pack, mht_valid. destruct H as [-> |[-> | ->]]; rewrite N.eqb_refl; cbn [negb andb];
      rewrite ?andb_false_r; reflexivity.
Qed.

(** A beacon header survives up to the lowest byte of its network ID, which is always lost. *)
Theorem C19_beacon_round_trip : forall h m, (7 <= length m)%nat -> bh_ok h ->
  exists m', bh_pack h m = Ok m' /\ length m' = length m /\ skipn 7 m' = skipn 7 m /\
    bh_unpack m' = Ok (mkBh (256 * (bh_netid h / 256)) (bh_tx h), true).
Proof.
  intros h m Hl Hok. destruct (bh_pack_writes h m Hl Hok) as (m' & E & W). exists m'.
  destruct W as (W1 & W2 & W3 & W4). split; [exact E|]. split; [exact W1|]. split; [exact W2|].
  destruct (bh_unpack_spells m' ltac:(lia) W3) as (id & tx & S & Ht & ->).
  assert (E24 : [(24, id); (32, tx)] = [(24, bh_netid h / 256); (32, bh_tx h)]).
  { apply (spells_inj 7 m'); [exact S| |reflexivity].
    destruct W4 as (A1 & A2 & A3 & A4). split; [exact A1|]. split; [reflexivity|].
    split; [|rewrite A4; unfold bh_actual_fields, cat_fields; cbn [fold_left fst snd]; now rewrite N.shiftl_0_l, N.lor_0_l].
    unfold bh_actual_fields in A3. unfold fields_fit in *. inversion A3 as [|? ? _ A5]; subst.
    inversion A5 as [|? ? A6 A7]; subst. constructor; [|exact A7]. cbn [fst snd] in *.
    eapply N.lt_trans; [exact A6|reflexivity]. }
  injection E24 as -> ->. replace (bh_valid _) with true; [reflexivity|]. symmetry. apply bh_valid_ok; [apply Hok|].
  destruct Hok as [O1 O2]. split; [cbn [bh_netid]|exact O2].
  pose proof (N.mul_div_le (bh_netid h) 256). lia.
Qed.
Theorem C19_beacon_network_id_refuted :
  exists h h' m m', bh_ok h /\ bh_pack h m = Ok m' /\ bh_unpack m' = Ok (h', true) /\ h' <> h.
Proof.
  exists (mkBh 1193046 5), (mkBh 1192960 5), (repeat 0 7), [0; 18; 52; 0; 0; 0; 5].
  split; [unfold bh_ok, long_rd_id; cbn; lia|]. split; [vm_compute; reflexivity|]. split; [vm_compute; reflexivity|discriminate].
Qed.
(** A beacon header laid out as in the standard is taken for another network ID, or refused when that
    does not fit into 24 bits. *)
Theorem C19_standard_beacon_refuted : forall h m, (7 <= length m)%nat -> bytes m -> bh_ok h ->
  spells 7 m (bh_standard_fields h) ->
  bh_unpack m = Ok (mkBh (256 * bh_netid h) (bh_tx h), bh_netid h <? 65536).
Proof.
  intros h m Hl Hb [O1 O2] S. assert (B : bytes (firstn 7 m)).
  { rewrite <- (firstn_skipn 7 m) in Hb. apply Forall_app in Hb. tauto. }
  destruct (bh_unpack_spells m Hl B) as (id & tx & S' & Ht & ->).
  pose proof (spells_inj _ _ _ _ S S' eq_refl) as E. unfold bh_standard_fields in E. injection E as <- <-.
  do 2 f_equal. unfold bh_valid. cbn [bh_netid bh_tx]. rewrite lrd_ok1 by exact O2. rewrite andb_true_r.
  destruct (N.ltb_spec (bh_netid h) 65536), (N.ltb_spec 16777215 (256 * bh_netid h)); cbn [negb]; auto; lia.
Qed.

(** The header type Escape (15) can be sent but is never accepted. *)
Theorem C19_escape_refuted : forall h m, (1 <= length m)%nat -> bytes m ->
  mht_version h = 0 -> mht_security h <= 3 -> mht_type h = 15 ->
  exists m' h', mht_pack h m = Ok m' /\ writes 1 m m' (mht_fields h) /\ mht_unpack m' = Ok (h', false).
Proof.
  intros h m Hl Hb H1 H2 H3. destruct (mht_pack_writes h m Hl ltac:(lia) ltac:(lia) ltac:(lia)) as (m' & E & W).
  exists m'. destruct W as (W1 & W2 & W3 & W4).
  destruct (mht_unpack_exact m' ltac:(lia) W3) as (h' & v & E' & T & F). exists h'.
  split; [exact E|]. split; [split; [exact W1|]; split; [exact W2|]; split; assumption|].
  destruct v; [|exact E']. destruct (T eq_refl) as [(T1 & T2 & T3) T4].
  pose proof (spells_inj _ _ _ _ W4 T4 eq_refl) as K. unfold mht_fields in K. injection K as K1 K2 K3. lia.
Qed.

Example C19_hypotheses_met :
  mht_ok (mkMht 0 2 1) /\ dh_ok (mkDh 0 1 3000) /\ uh_ok (mkUh (mkDh 0 1 3000) 100 4000000000) /\
  rh_ok (mkRh (mkDh 0 0 7) 100) /\
  mht_pack (mkMht 0 2 1) [255; 9] = Ok [33; 9] /\
  uh_pack (mkUh (mkDh 0 1 3000) 100 4000000000) (repeat 255 11) = Ok [27; 184; 0; 0; 0; 100; 238; 107; 40; 0; 255] /\
  bh_unpack [1; 2; 3; 0; 0; 0; 9] = Ok (mkBh 16909056 9, false) /\
  bh_unpack [0; 2; 3; 0; 0; 0; 9] = Ok (mkBh 131840 9, true).
Proof.
  unfold mht_ok, uh_ok, rh_ok, dh_ok, long_rd_id.
  repeat split; cbn; try lia; vm_compute; reflexivity.
Qed.

Print Assumptions C19_layout.
Print Assumptions C19_announced_size.
Print Assumptions C19_unpack_exact.
Print Assumptions C19_round_trip.
Print Assumptions C19_invalid_headers_abort.
Print Assumptions C19_beacon_round_trip.
Print Assumptions C19_beacon_network_id_refuted.
Print Assumptions C19_standard_beacon_refuted.
Print Assumptions C19_escape_refuted.
