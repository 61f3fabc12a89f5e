From Verif Require Import Base Bytes WireSpec BitSolve ByteFacts Identity Feedback FeedbackSpec FeedbackFacts Plcf PlcfSpec.
Open Scope N_scope.

Lemma snid_ok x : is_valid_ShortNetworkID x = true <-> short_network_id x.
Proof.
  unfold is_valid_ShortNetworkID, short_network_id, NetworkID_reserved.
  destruct (N.eqb_spec x 0); [split; [discriminate|lia]|].
  destruct (N.ltb_spec 255 x); split; try discriminate; auto; lia.
Qed.
Lemma srd_ok x : is_valid_ShortRadioDeviceID x = true <-> short_rd_id x.
Proof.
  unfold is_valid_ShortRadioDeviceID, short_rd_id, ShortRadioDeviceID_reserved.
  destruct (N.eqb_spec x 0); [split; [discriminate|lia]|].
  destruct (N.ltb_spec 65535 x); split; try discriminate; auto; lia.
Qed.

Lemma p10_valid_ok p : base_valid (p10_base p) = true /\ p10_valid p = true <-> p10_ok p.
Proof.
  unfold base_valid, p10_valid, p10_ok, base_ok.
  rewrite !andb_true_iff, snid_ok, srd_ok, !N.leb_le, !N.eqb_eq.
  split; [tauto|]. intros ((H1 & H2 & H2') & H3). split; [rewrite H1; split; [split; [lia|]|]; assumption|]. tauto.
Qed.
Lemma p20_valid_ok p :
  base_valid (p20_base p) = true /\ p20_valid p = true /\ fb_ok (fb_view (p20_ff p) (p20_pool p)) <-> p20_ok p.
Proof.
  unfold base_valid, p20_valid, p20_ok, base_ok.
  rewrite !andb_true_iff, snid_ok, !srd_ok, !N.leb_le, !N.eqb_eq.
  split; [tauto|]. intros ((H1 & H2 & H2') & H3).
  assert (p20_ff p <= 15).
  { destruct (N.le_gt_cases 7 (p20_ff p)) as [H7|]; [|lia].
    destruct (fmt_big _ (p20_pool p) [] H7) as (_ & _ & E). rewrite E in H3. cbn in H3. tauto. }
  split; [rewrite H1; split; [split; [lia|]|]; assumption|]. tauto.
Qed.
Lemma p21_valid_ok p :
  base_valid (p21_base p) = true /\ p21_valid p = true /\ fb_ok (fb_view (p21_ff p) (p21_pool p)) <-> p21_ok p.
Proof.
  unfold base_valid, p21_valid, p21_ok, base_ok.
  rewrite !andb_true_iff, snid_ok, !srd_ok, !N.leb_le, !N.eqb_eq.
  split; [tauto|]. intros ((H1 & H2 & H2') & H3).
  assert (p21_ff p <= 15).
  { destruct (N.le_gt_cases 7 (p21_ff p)) as [H7|]; [|lia].
    destruct (fmt_big _ (p21_pool p) [] H7) as (_ & _ & E). rewrite E in H3. cbn in H3. tauto. }
  split; [rewrite H1; split; [split; [lia|]|]; assumption|]. tauto.
Qed.

(** type 1 *)
Lemma p10_pack_writes p m : (5 <= length m)%nat -> p10_ok p ->
  exists m', p10_pack p m = Ok m' /\ writes 5 m m' (p10_fields p).
Proof.
  intros Hl Hok. cells m 5%nat. pose proof Hok as Hv. rewrite <- p10_valid_ok in Hv. destruct Hv as [V1 V2].
  destruct Hok as ((B1 & B2 & B3) & H1 & H2 & H3 & H4 & H5). unfold short_network_id, short_rd_id in *.
  unfold p10_pack, base_pack. rewrite V1. mcbn. rewrite V2. mcbn.
  eexists. split; [reflexivity|]. unfold p10_fields, base_fields. cbn [app]. rewrite B1, H4. writes_tac.
Qed.

Lemma p10_pack_abort p m : (5 <= length m)%nat -> ~ p10_ok p -> p10_pack p m = Abort.
Proof.
  intros Hl Hok. cells m 5%nat. rewrite <- p10_valid_ok in Hok. unfold p10_pack, base_pack.
  destruct (base_valid (p10_base p)); [|reflexivity]. mcbn. destruct (p10_valid p); [tauto|reflexivity].
Qed.

Definition p10_raw (m : list N) : plcf10 :=
  let b n := nth n m 0 in
  mk10 (mkBase (N.shiftr (b 0%nat) 5) (N.land (N.shiftr (b 0%nat) 4) 1) (N.land (b 0%nat) 15))
       (b 1%nat) (N.lor (N.shiftl (b 2%nat) 8) (b 3%nat))
       (N.land (N.shiftr (b 4%nat) 4) 15) (N.land (N.shiftr (b 4%nat) 3) 1) (N.land (b 4%nat) 7).

Lemma raw16 a b : a < 256 -> b < 256 ->
  N.lor b (N.shiftl (N.lor a (N.shiftl (N.lor 0 (N.shiftl (N.lor 0 (N.shiftl 0 8)) 8)) 8)) 8) = N.lor (N.shiftl a 8) b.
Proof. intros. bits. Qed.

Lemma p10_unpack_raw old m : (5 <= length m)%nat -> bytes (firstn 5 m) ->
  exists p, p10_unpack old m = Ok (p, base_valid (p10_base (p10_raw m)) && p10_valid (p10_raw m)) /\
  (base_valid (p10_base (p10_raw m)) = true -> p = p10_raw m).
Proof.
  intros Hl Hb. cells m 5%nat. cbn [firstn] in Hb. inv_bytes. unfold p10_unpack, base_unpack. mcbn.
  rewrite raw16 by auto. unfold p10_raw. cbn [nth p10_base].
  set (bb := mkBase _ _ _). destruct (base_valid bb); mcbn.
  - eexists. split; [reflexivity|]. auto.
  - eexists. split; [reflexivity|]. discriminate.
Qed.

Lemma p10_raw_spells m : (5 <= length m)%nat -> bytes (firstn 5 m) ->
  spells 5 m (base_fields (p10_base (p10_raw m)) ++
    [(8, p10_snid (p10_raw m)); (16, p10_tx (p10_raw m)); (4, p10_power (p10_raw m));
     (1, p10_reserved (p10_raw m)); (3, p10_mcs (p10_raw m))]).
Proof.
  intros Hl Hb. cells m 5%nat. cbn [firstn] in Hb. inv_bytes. unfold p10_raw.
  cbn [nth p10_base p10_snid p10_tx p10_power p10_reserved p10_mcs base_fields HeaderFormat PacketLengthType PacketLength_m1 app].
  pose proof (land15_le b0). pose proof (land15_le (N.shiftr b4 4)). pose proof (land1_le (N.shiftr b0 4)).
  pose proof (land1_le (N.shiftr b4 3)). pose proof (land7_le b4).
  assert (N.shiftr b0 5 < 8) by (bits_lt 3%nat).
  assert (N.lor (N.shiftl b2 8) b3 < 65536) by (bits_lt 16%nat).
  split; [cbn [length]; lia|]. split; [reflexivity|]. split; [fit_tac|spell_tac].
Qed.

Lemma p10_unpack_sound old m p : (5 <= length m)%nat -> bytes (firstn 5 m) ->
  p10_unpack old m = Ok (p, true) -> p10_ok p /\ spells 5 m (p10_fields p).
Proof.
  intros Hl Hb Hu. destruct (p10_unpack_raw old m Hl Hb) as (p' & E & Hp). rewrite E in Hu.
  injection Hu as <- Hv. apply andb_true_iff in Hv. specialize (Hp (proj1 Hv)). subst p'.
  assert (Hok : p10_ok (p10_raw m)) by now apply p10_valid_ok.
  split; [exact Hok|]. pose proof (p10_raw_spells m Hl Hb) as Hs.
  unfold p10_fields. destruct Hok as (_ & _ & _ & _ & Hr & _). rewrite Hr in Hs. exact Hs.
Qed.

Lemma p10_unpack_complete old m p : (5 <= length m)%nat -> bytes (firstn 5 m) ->
  p10_ok p -> spells 5 m (p10_fields p) -> p10_unpack old m = Ok (p, true).
Proof.
  intros Hl Hb Hok Hsp. pose proof (p10_raw_spells m Hl Hb) as Hs.
  pose proof Hok as (_ & _ & _ & _ & Hr & _).
  assert (E : p10_raw m = p).
  { revert Hs. generalize (p10_raw m). intros r Hs. unfold p10_fields in Hsp. rewrite <- Hr in Hsp.
    pose proof (spells_inj _ _ _ _ Hsp Hs eq_refl) as E. unfold base_fields in E. cbn [app] in E.
    injection E as E1 E2 E3 E4 E5 E6 E7 E8.
    destruct p as [[? ? ?] ? ? ? ? ?]; destruct r as [[? ? ?] ? ? ? ? ?]; cbn in *; congruence. }
  destruct (p10_unpack_raw old m Hl Hb) as (p' & Eu & Hp). rewrite E in *.
  rewrite <- p10_valid_ok in Hok. destruct Hok as [V1 V2]. rewrite Eu, V1, V2, (Hp V1). reflexivity.
Qed.

Lemma p10_unpack_total old m : (5 <= length m)%nat -> bytes (firstn 5 m) ->
  exists p ok, p10_unpack old m = Ok (p, ok).
Proof. intros Hl Hb. destruct (p10_unpack_raw old m Hl Hb) as (p & E & _). eauto. Qed.

(** type 2 *)
Lemma writes_head n m m' l : writes n m m' l -> bytes (firstn n m').
Proof. intros (_ & _ & H & _). exact H. Qed.

Lemma ok_ff ff q : fb_ok (fb_view ff q) -> ff <= 6.
Proof.
  intros H. destruct (N.le_gt_cases 7 ff) as [G7|]; [|lia].
  destruct (fmt_big _ q [] G7) as (_ & _ & E). rewrite E in H. cbn in H. tauto.
Qed.

(** Assembly of a header of ten bytes: eight bytes, then the format and the feedback. *)
Lemma writes_8_2 (m m1 m2 : list N) l1 ff l2 :
  (10 <= length m)%nat -> length m1 = length m -> skipn 10 m1 = skipn 10 m -> bytes (firstn 8 m1) ->
  spells 8 m1 l1 ->
  writes 2 (skipn 8 m1) m2 ((4, ff) :: l2) -> writes 10 m (firstn 8 m1 ++ m2) (l1 ++ (4, ff) :: l2).
Proof.
  intros Hl L1 S1 Y1 P1 (L2 & S2 & Y2 & P2). rewrite skipn_length in L2.
  assert (L8 : length (firstn 8 m1) = 8%nat) by (rewrite firstn_length; lia).
  split; [rewrite app_length; lia|].
  split.
  { rewrite skipn_app, L8. rewrite (skipn_all2 (firstn 8 m1)) by lia.
    replace (10 - 8)%nat with 2%nat by lia. cbn [app].
    rewrite S2, <- S1. rewrite <- (firstn_skipn 8 m1) at 2. rewrite (skipn_app 10), L8.
    rewrite (skipn_all2 (firstn 8 m1)) by lia. reflexivity. }
  assert (F10 : firstn 10 (firstn 8 m1 ++ m2) = firstn 8 m1 ++ firstn 2 m2).
  { rewrite firstn_app, L8. rewrite (firstn_all2 (firstn 8 m1)) by lia. reflexivity. }
  split; [rewrite F10; now apply Forall_app|].
  apply (spells_app 8 2).
  - destruct P1 as (A & B & C & D). split; [rewrite app_length; lia|]. split; [auto|]. split; [auto|].
    rewrite firstn_app, L8. replace (8 - 8)%nat with 0%nat by lia. rewrite firstn_firstn. cbn [Nat.min firstn].
    rewrite app_nil_r. exact D.
  - rewrite skipn_app, L8. rewrite (skipn_all2 (firstn 8 m1)) by lia. exact P2.
Qed.

Lemma with_buf_ok f b : fb_ok f -> fb_ok (with_buf f b).
Proof. destruct f; cbn; tauto. Qed.

Lemma p20_ok_fb p : p20_ok p ->
  (forall q, fb_ok (fb_view (p20_ff p) q) ->
     p20_ok (mk20 (p20_base p) (p20_snid p) (p20_tx p) (p20_power p) (p20_mcs p) (p20_rx p) (p20_nss p)
                  (p20_rv p) (p20_ndi p) (p20_harq p) (p20_ff p) q)) /\
  fb_ok (fb_view (p20_ff p) (p20_pool p)).
Proof.
  intros H. split; [|unfold p20_ok in H; tauto]. intros q Hq. unfold p20_ok in *.
  cbn [p20_base p20_snid p20_tx p20_power p20_mcs p20_rx p20_nss p20_rv p20_ndi p20_harq p20_ff p20_pool]. tauto.
Qed.
Lemma p21_ok_fb p : p21_ok p ->
  (forall q, fb_ok (fb_view (p21_ff p) q) ->
     p21_ok (mk21 (p21_base p) (p21_snid p) (p21_tx p) (p21_power p) (p21_mcs p) (p21_rx p) (p21_nss p)
                  (p21_reserved p) (p21_ff p) q)) /\
  fb_ok (fb_view (p21_ff p) (p21_pool p)).
Proof.
  intros H. split; [|unfold p21_ok in H; tauto]. intros q Hq. unfold p21_ok in *.
  cbn [p21_base p21_snid p21_tx p21_power p21_mcs p21_rx p21_nss p21_reserved p21_ff p21_pool]. tauto.
Qed.

Lemma p20_pack_writes p m : (10 <= length m)%nat -> p20_ok p ->
  exists m', p20_pack p m = Ok m' /\
    writes 10 m m' (p20_fields p (buffer_size_2_buffer_status (fb_buf (fb_view (p20_ff p) (p20_pool p))))).
Proof.
  intros Hl Hok. cells m 10%nat. pose proof Hok as Hv. rewrite <- p20_valid_ok in Hv. destruct Hv as (V1 & V2 & V3).
  destruct Hok as ((B1 & B2 & B3) & H1 & H2 & H3 & H4 & H5 & H6 & H7 & H8 & H9 & H10).
  unfold short_network_id, short_rd_id in *.
  pose proof (ok_ff _ _ H10) as Hff.
  unfold p20_pack, base_pack. rewrite V1. mcbn. rewrite V2. mcbn.
  match goal with |- context [pool_pack ?q ?ff (?x :: b9 :: m)] =>
    destruct (pool_pack_fields q ff (x :: b9 :: m)) as (m' & E & W);
      [cbn [length]; lia | cbn [nth]; apply u8_lt | exact H10 |] end.
  rewrite E. mcbn. eexists. split; [reflexivity|].
  cbn [nth] in W.
  match type of W with context [N.shiftr ?x 4] => replace (N.shiftr x 4) with (p20_ff p) in W by (unfold u8; bits) end.
  unfold p20_fields.
  set (fb := fb_fields _ _) in *.
  match goal with |- writes 10 ?mm (?x0 :: ?x1 :: ?x2 :: ?x3 :: ?x4 :: ?x5 :: ?x6 :: ?x7 :: m') ?l =>
    change (writes 10 mm (firstn 8 (x0 :: x1 :: x2 :: x3 :: x4 :: x5 :: x6 :: x7 :: u8 (N.shiftl (p20_ff p) 4) :: b9 :: m) ++ m')
      ((base_fields (p20_base p) ++ [(8, p20_snid p); (16, p20_tx p); (4, p20_power p); (4, p20_mcs p); (16, p20_rx p); (2, p20_nss p); (2, p20_rv p); (1, p20_ndi p); (3, p20_harq p)]) ++ (4, p20_ff p) :: fb));
    apply (writes_8_2 mm (x0 :: x1 :: x2 :: x3 :: x4 :: x5 :: x6 :: x7 :: u8 (N.shiftl (p20_ff p) 4) :: b9 :: m) m')
  end; [exact Hl|reflexivity|reflexivity|cbn [firstn]; bytes_tac| |exact W].
  unfold base_fields. cbn [app]. rewrite B1.
  split; [cbn [length]; lia|]; split; [vm_compute; reflexivity|]; split; [fit_tac|spell_tac].
Qed.

Lemma p20_pack_abort p m : (10 <= length m)%nat -> ~ p20_ok p -> p20_pack p m = Abort.
Proof.
  intros Hl Hok. cells m 10%nat. rewrite <- p20_valid_ok in Hok. unfold p20_pack, base_pack.
  destruct (base_valid (p20_base p)); [|reflexivity]. mcbn. destruct (p20_valid p); [|reflexivity]. mcbn.
  rewrite pool_pack_abort; [reflexivity|cbn [length]; lia|tauto].
Qed.

Definition p20_raw (q : pool) (m : list N) : plcf20 :=
  let b n := nth n m 0 in
  mk20 (mkBase (N.shiftr (b 0%nat) 5) (N.land (N.shiftr (b 0%nat) 4) 1) (N.land (b 0%nat) 15))
       (b 1%nat) (N.lor (N.shiftl (b 2%nat) 8) (b 3%nat))
       (N.land (N.shiftr (b 4%nat) 4) 15) (N.land (b 4%nat) 15)
       (N.lor (N.shiftl (b 5%nat) 8) (b 6%nat))
       (N.land (N.shiftr (b 7%nat) 6) 3) (N.land (N.shiftr (b 7%nat) 4) 3) (N.land (N.shiftr (b 7%nat) 3) 1) (N.land (b 7%nat) 7)
       (N.land (N.shiftr (b 8%nat) 4) 15) q.

Lemma p20_raw_spells q m : (10 <= length m)%nat -> bytes (firstn 10 m) ->
  let r := p20_raw q m in
  spells 8 m (base_fields (p20_base r) ++
    [(8, p20_snid r); (16, p20_tx r); (4, p20_power r); (4, p20_mcs r); (16, p20_rx r); (2, p20_nss r); (2, p20_rv r); (1, p20_ndi r); (3, p20_harq r)]).
Proof.
  intros Hl Hb. cells m 10%nat. cbn [firstn] in Hb. inv_bytes. unfold p20_raw.
  cbn [nth p20_base p20_snid p20_tx p20_power p20_mcs p20_rx p20_nss p20_rv p20_ndi p20_harq p20_ff p20_pool base_fields HeaderFormat PacketLengthType PacketLength_m1 app].
  pose proof (land15_le b0). pose proof (land15_le (N.shiftr b4 4)). pose proof (land1_le (N.shiftr b0 4)).
  pose proof (land15_le b4). pose proof (land3_le (N.shiftr b7 6)). pose proof (land3_le (N.shiftr b7 4)). pose proof (land1_le (N.shiftr b7 3)). pose proof (land7_le b7).
  assert (N.shiftr b0 5 < 8) by (bits_lt 3%nat).
  assert (N.lor (N.shiftl b2 8) b3 < 65536) by (bits_lt 16%nat).
  assert (N.lor (N.shiftl b5 8) b6 < 65536) by (bits_lt 16%nat).
  split; [cbn [length]; lia|]. split; [reflexivity|]. split; [fit_tac|spell_tac].
Qed.

Lemma p20_unpack_raw old m : (10 <= length m)%nat -> bytes (firstn 10 m) ->
  exists p ok q qok,
    p20_unpack old m = Ok (p, ok) /\
    pool_unpack (p20_pool old) (N.land (N.shiftr (nth 8 m 0) 4) 15) (skipn 8 m) = Ok (q, qok) /\
    pool_set_only (N.land (N.shiftr (nth 8 m 0) 4) 15) (p20_pool old) q /\
    ok = base_valid (p20_base (p20_raw q m)) && (qok && p20_valid (p20_raw q m)) /\
    (base_valid (p20_base (p20_raw q m)) = true -> p = p20_raw q m).
Proof.
  intros Hl Hb. cells m 10%nat. cbn [firstn] in Hb. inv_bytes. unfold p20_unpack, base_unpack. mcbn. cbn [nth].
  rewrite !raw16 by auto.
  destruct (pool_unpack_total (p20_pool old) (N.land (N.shiftr b8 4) 15) (b8 :: b9 :: m) ltac:(cbn [length]; lia))
    as (q & qok & E & Hs).
  rewrite E. mcbn. unfold p20_raw. cbn [nth p20_base].
  set (bb := mkBase _ _ _). destruct (base_valid bb); mcbn.
  - exists (p20_raw q (b0 :: b1 :: b2 :: b3 :: b4 :: b5 :: b6 :: b7 :: b8 :: b9 :: m)).
    destruct qok; mcbn; eexists _, q, _; (split; [reflexivity|]); auto.
  - eexists _, _, q, qok. split; [reflexivity|]. split; [reflexivity|]. split; [exact Hs|]. split; [reflexivity|discriminate].
Qed.

Lemma p20_unpack_total old m : (10 <= length m)%nat -> bytes (firstn 10 m) ->
  exists p ok, p20_unpack old m = Ok (p, ok).
Proof. intros Hl Hb. destruct (p20_unpack_raw old m Hl Hb) as (p & ok & q & qok & E & _). eauto. Qed.

Lemma p20_unpack_sound old m p : (10 <= length m)%nat -> bytes (firstn 10 m) ->
  p20_unpack old m = Ok (p, true) ->
  p20_ok p /\ exists level, level <= 15 /\
    with_buf (fb_view (p20_ff p) (p20_pool p)) (level_min level) = fb_view (p20_ff p) (p20_pool p) /\
    spells 10 m (p20_fields p level).
Proof.
  intros Hl Hb Hu. destruct (p20_unpack_raw old m Hl Hb) as (p' & ok & q & qok & E & Eq & Hs & Hok & Hp).
  rewrite E in Hu. injection Hu as -> ->. symmetry in Hok. apply andb_true_iff in Hok. destruct Hok as [V1 V2].
  apply andb_true_iff in V2. destruct V2 as [Q V2]. subst qok. specialize (Hp V1). subst p.
  assert (Hl2 : (2 <= length (skipn 8 m))%nat) by (rewrite skipn_length; lia).
  assert (Hb2 : bytes (firstn 2 (skipn 8 m))).
  { change 10%nat with (8 + 2)%nat in Hb. rewrite firstn_plus in Hb. apply Forall_app in Hb. apply Hb. }
  destruct (pool_unpack_sound _ _ _ _ Hl2 Hb2 Eq) as (Hfb & level & L1 & L2 & L3).
  assert (Hok : p20_ok (p20_raw q m)) by (apply p20_valid_ok; auto).
  split; [exact Hok|]. exists level. split; [exact L1|]. split; [exact L2|].
  pose proof (p20_raw_spells q m Hl Hb) as Hr. cbv zeta in Hr.
  
  assert (Hn : N.shiftr (nth 0 (skipn 8 m) 0) 4 = p20_ff (p20_raw q m)).
  { cells m 10%nat. cbn [firstn] in Hb. inv_bytes. cbn [skipn nth p20_raw p20_ff]. bits. }
  rewrite Hn in L3. pose proof (spells_app _ _ _ _ _ Hr L3) as Hall. exact Hall.
Qed.

Lemma p20_unpack_complete old m p level : (10 <= length m)%nat -> bytes (firstn 10 m) ->
  p20_ok p -> level <= 15 -> spells 10 m (p20_fields p level) ->
  exists p', p20_unpack old m = Ok (p', true) /\ p20_arrives p p' (level_min level) /\
    pool_set_only (p20_ff p) (p20_pool old) (p20_pool p').
Proof.
  intros Hl Hb Hok Hlv Hsp. pose proof (ok_ff _ _ (proj2 (p20_ok_fb p Hok))) as Hff.
  destruct (p20_unpack_raw old m Hl Hb) as (p' & ok & q & qok & E & Eq & Hs & Eok & Hp).
  pose proof (p20_raw_spells q m Hl Hb) as Hr. cbv zeta in Hr.
  set (l1 := base_fields (p20_base p) ++ [(8, p20_snid p); (16, p20_tx p); (4, p20_power p); (4, p20_mcs p); (16, p20_rx p); (2, p20_nss p); (2, p20_rv p); (1, p20_ndi p); (3, p20_harq p)]).
  assert (Hs2 : spells 8 m l1 /\ spells 2 (skipn 8 m) ((4, p20_ff p) :: fb_fields (fb_view (p20_ff p) (p20_pool p)) level)).
  { apply spells_split; [exact Hb|reflexivity|]. exact Hsp. }
  destruct Hs2 as [S1 S2].
  assert (Hl2 : (2 <= length (skipn 8 m))%nat) by (rewrite skipn_length; lia).
  assert (Hb2 : bytes (firstn 2 (skipn 8 m))).
  { change 10%nat with (8 + 2)%nat in Hb. rewrite firstn_plus in Hb. apply Forall_app in Hb. apply Hb. }
  assert (Hn : N.land (N.shiftr (nth 8 m 0) 4) 15 = p20_ff p).
  { assert (Hx : spells 2 (skipn 8 m) [(4, N.land (N.shiftr (nth 8 m 0) 4) 15); (12, N.land (be_number (firstn 2 (skipn 8 m))) 4095)]).
    { clear - Hl Hb. cells m 10%nat. cbn [firstn] in Hb. inv_bytes. cbn [skipn nth firstn be_number fold_left].
      pose proof (land15_le (N.shiftr b8 4)). assert (N.land (N.lor (N.shiftl (N.lor (N.shiftl 0 8) b8) 8) b9) 4095 < 4096) by (bits_lt 12%nat).
      split; [cbn [length]; lia|]. split; [reflexivity|]. split; [fit_tac|spell_tac]. }
    assert (Hy : spells 2 (skipn 8 m) [(4, p20_ff p); (12, cat_fields (fb_fields (fb_view (p20_ff p) (p20_pool p)) level))]).
    { destruct S2 as (A1 & A2 & A3 & A4). rewrite width_cons in A2. inversion A3 as [|? ? F1 F2]; subst.
      cbn [fst] in A2. split; [auto|]. split; [reflexivity|]. 
      assert (W12 : width (fb_fields (fb_view (p20_ff p) (p20_pool p)) level) = 12) by lia.
      split.
      - constructor; [exact F1|]. constructor; [|constructor]. cbn [fst snd]. rewrite <- W12. now apply cat_lt.
      - rewrite A4. change ((4, p20_ff p) :: fb_fields (fb_view (p20_ff p) (p20_pool p)) level)
          with ([(4, p20_ff p)] ++ fb_fields (fb_view (p20_ff p) (p20_pool p)) level).
        rewrite cat_app, W12. reflexivity. }
    pose proof (spells_inj _ _ _ _ Hx Hy eq_refl) as Ex. injection Ex as Ex _. exact Ex. }
  rewrite Hn in Eq, Hs.
  destruct (pool_unpack_complete (p20_pool old) (p20_ff p) (skipn 8 m) (p20_pool p) (p20_ff p) level
      Hl2 Hb2 (proj2 (p20_ok_fb p Hok)) Hlv S2) as (q' & Eq' & Hs' & Hv').
  rewrite Eq in Eq'. injection Eq' as -> ->.
  assert (Er : p20_raw q' m = (mk20 (p20_base p) (p20_snid p) (p20_tx p) (p20_power p) (p20_mcs p) (p20_rx p) (p20_nss p) (p20_rv p) (p20_ndi p) (p20_harq p) (p20_ff p) q')).
  { assert (Epool : p20_pool (p20_raw q' m) = q') by reflexivity.
    assert (Eff : p20_ff (p20_raw q' m) = p20_ff p) by exact Hn.
    revert Hr Epool Eff. generalize (p20_raw q' m). intros r Hr Epool Eff.
    subst l1.
    pose proof (spells_inj _ _ _ _ S1 Hr eq_refl) as Ex. unfold base_fields in Ex. cbn [app] in Ex.
    injection Ex as E1 E2 E3 E4 E5 E6 E7 E8 E9 E10 E11 E12.
    destruct p as [[? ? ?] ? ? ? ? ? ? ? ? ? ? ?]; destruct r as [[? ? ?] ? ? ? ? ? ? ? ? ? ? ?]; cbn in *; congruence. }
  rewrite Er in *.
  assert (Hokr : p20_ok (mk20 (p20_base p) (p20_snid p) (p20_tx p) (p20_power p) (p20_mcs p) (p20_rx p) (p20_nss p) (p20_rv p) (p20_ndi p) (p20_harq p) (p20_ff p) q')).
  { destruct (p20_ok_fb p Hok) as [G Hf]. apply G. cbn [p20_ff p20_pool]. rewrite Hv'. apply with_buf_ok, Hf. }
  apply p20_valid_ok in Hokr. destruct Hokr as (V1 & V2 & _).
  rewrite E, Eok, V1, V2, (Hp V1). eexists. split; [reflexivity|].
  split; [|exact Hs]. unfold p20_arrives. cbn [p20_base p20_snid p20_tx p20_power p20_mcs p20_rx p20_nss p20_rv p20_ndi p20_harq p20_ff p20_pool]. rewrite <- Hv'. tauto.
Qed.

Lemma p21_pack_writes p m : (10 <= length m)%nat -> p21_ok p ->
  exists m', p21_pack p m = Ok m' /\
    writes 10 m m' (p21_fields p (buffer_size_2_buffer_status (fb_buf (fb_view (p21_ff p) (p21_pool p))))).
Proof.
  intros Hl Hok. cells m 10%nat. pose proof Hok as Hv. rewrite <- p21_valid_ok in Hv. destruct Hv as (V1 & V2 & V3).
  destruct Hok as ((B1 & B2 & B3) & H1 & H2 & H3 & H4 & H5 & H6 & H7 & H10).
  unfold short_network_id, short_rd_id in *.
  pose proof (ok_ff _ _ H10) as Hff.
  unfold p21_pack, base_pack. rewrite V1. mcbn. rewrite V2. mcbn.
  match goal with |- context [pool_pack ?q ?ff (?x :: b9 :: m)] =>
    destruct (pool_pack_fields q ff (x :: b9 :: m)) as (m' & E & W);
      [cbn [length]; lia | cbn [nth]; apply u8_lt | exact H10 |] end.
  rewrite E. mcbn. eexists. split; [reflexivity|].
  cbn [nth] in W.
  match type of W with context [N.shiftr ?x 4] => replace (N.shiftr x 4) with (p21_ff p) in W by (unfold u8; bits) end.
  unfold p21_fields.
  set (fb := fb_fields _ _) in *.
  match goal with |- writes 10 ?mm (?x0 :: ?x1 :: ?x2 :: ?x3 :: ?x4 :: ?x5 :: ?x6 :: ?x7 :: m') ?l =>
    change (writes 10 mm (firstn 8 (x0 :: x1 :: x2 :: x3 :: x4 :: x5 :: x6 :: x7 :: u8 (N.shiftl (p21_ff p) 4) :: b9 :: m) ++ m')
      ((base_fields (p21_base p) ++ [(8, p21_snid p); (16, p21_tx p); (4, p21_power p); (4, p21_mcs p); (16, p21_rx p); (2, p21_nss p); (6, 0)]) ++ (4, p21_ff p) :: fb));
    apply (writes_8_2 mm (x0 :: x1 :: x2 :: x3 :: x4 :: x5 :: x6 :: x7 :: u8 (N.shiftl (p21_ff p) 4) :: b9 :: m) m')
  end; [exact Hl|reflexivity|reflexivity|cbn [firstn]; bytes_tac| |exact W].
  unfold base_fields. cbn [app]. rewrite B1, H7.
  split; [cbn [length]; lia|]; split; [vm_compute; reflexivity|]; split; [fit_tac|spell_tac].
Qed.

Lemma p21_pack_abort p m : (10 <= length m)%nat -> ~ p21_ok p -> p21_pack p m = Abort.
Proof.
  intros Hl Hok. cells m 10%nat. rewrite <- p21_valid_ok in Hok. unfold p21_pack, base_pack.
  destruct (base_valid (p21_base p)); [|reflexivity]. mcbn. destruct (p21_valid p); [|reflexivity]. mcbn.
  rewrite pool_pack_abort; [reflexivity|cbn [length]; lia|tauto].
Qed.

Definition p21_raw (q : pool) (m : list N) : plcf21 :=
  let b n := nth n m 0 in
  mk21 (mkBase (N.shiftr (b 0%nat) 5) (N.land (N.shiftr (b 0%nat) 4) 1) (N.land (b 0%nat) 15))
       (b 1%nat) (N.lor (N.shiftl (b 2%nat) 8) (b 3%nat))
       (N.land (N.shiftr (b 4%nat) 4) 15) (N.land (b 4%nat) 15)
       (N.lor (N.shiftl (b 5%nat) 8) (b 6%nat))
       (N.land (N.shiftr (b 7%nat) 6) 3) (N.land (b 7%nat) 63)
       (N.land (N.shiftr (b 8%nat) 4) 15) q.

Lemma p21_raw_spells q m : (10 <= length m)%nat -> bytes (firstn 10 m) ->
  let r := p21_raw q m in
  spells 8 m (base_fields (p21_base r) ++
    [(8, p21_snid r); (16, p21_tx r); (4, p21_power r); (4, p21_mcs r); (16, p21_rx r); (2, p21_nss r); (6, p21_reserved r)]).
Proof.
  intros Hl Hb. cells m 10%nat. cbn [firstn] in Hb. inv_bytes. unfold p21_raw.
  cbn [nth p21_base p21_snid p21_tx p21_power p21_mcs p21_rx p21_nss p21_reserved p21_ff p21_pool base_fields HeaderFormat PacketLengthType PacketLength_m1 app].
  pose proof (land15_le b0). pose proof (land15_le (N.shiftr b4 4)). pose proof (land1_le (N.shiftr b0 4)).
  pose proof (land15_le b4). pose proof (land3_le (N.shiftr b7 6)). pose proof (land63_le b7).
  assert (N.shiftr b0 5 < 8) by (bits_lt 3%nat).
  assert (N.lor (N.shiftl b2 8) b3 < 65536) by (bits_lt 16%nat).
  assert (N.lor (N.shiftl b5 8) b6 < 65536) by (bits_lt 16%nat).
  split; [cbn [length]; lia|]. split; [reflexivity|]. split; [fit_tac|spell_tac].
Qed.

Lemma p21_unpack_raw old m : (10 <= length m)%nat -> bytes (firstn 10 m) ->
  exists p ok q qok,
    p21_unpack old m = Ok (p, ok) /\
    pool_unpack (p21_pool old) (N.land (N.shiftr (nth 8 m 0) 4) 15) (skipn 8 m) = Ok (q, qok) /\
    pool_set_only (N.land (N.shiftr (nth 8 m 0) 4) 15) (p21_pool old) q /\
    ok = base_valid (p21_base (p21_raw q m)) && (qok && p21_valid (p21_raw q m)) /\
    (base_valid (p21_base (p21_raw q m)) = true -> p = p21_raw q m).
Proof.
  intros Hl Hb. cells m 10%nat. cbn [firstn] in Hb. inv_bytes. unfold p21_unpack, base_unpack. mcbn. cbn [nth].
  rewrite !raw16 by auto.
  destruct (pool_unpack_total (p21_pool old) (N.land (N.shiftr b8 4) 15) (b8 :: b9 :: m) ltac:(cbn [length]; lia))
    as (q & qok & E & Hs).
  rewrite E. mcbn. unfold p21_raw. cbn [nth p21_base].
  set (bb := mkBase _ _ _). destruct (base_valid bb); mcbn.
  - exists (p21_raw q (b0 :: b1 :: b2 :: b3 :: b4 :: b5 :: b6 :: b7 :: b8 :: b9 :: m)).
    destruct qok; mcbn; eexists _, q, _; (split; [reflexivity|]); auto.
  - eexists _, _, q, qok. split; [reflexivity|]. split; [reflexivity|]. split; [exact Hs|]. split; [reflexivity|discriminate].
Qed.

Lemma p21_unpack_total old m : (10 <= length m)%nat -> bytes (firstn 10 m) ->
  exists p ok, p21_unpack old m = Ok (p, ok).
Proof. intros Hl Hb. destruct (p21_unpack_raw old m Hl Hb) as (p & ok & q & qok & E & _). eauto. Qed.

Lemma p21_unpack_sound old m p : (10 <= length m)%nat -> bytes (firstn 10 m) ->
  p21_unpack old m = Ok (p, true) ->
  p21_ok p /\ exists level, level <= 15 /\
    with_buf (fb_view (p21_ff p) (p21_pool p)) (level_min level) = fb_view (p21_ff p) (p21_pool p) /\
    spells 10 m (p21_fields p level).
Proof.
  intros Hl Hb Hu. destruct (p21_unpack_raw old m Hl Hb) as (p' & ok & q & qok & E & Eq & Hs & Hok & Hp).
  rewrite E in Hu. injection Hu as -> ->. symmetry in Hok. apply andb_true_iff in Hok. destruct Hok as [V1 V2].
  apply andb_true_iff in V2. destruct V2 as [Q V2]. subst qok. specialize (Hp V1). subst p.
  assert (Hl2 : (2 <= length (skipn 8 m))%nat) by (rewrite skipn_length; lia).
  assert (Hb2 : bytes (firstn 2 (skipn 8 m))).
  { change 10%nat with (8 + 2)%nat in Hb. rewrite firstn_plus in Hb. apply Forall_app in Hb. apply Hb. }
  destruct (pool_unpack_sound _ _ _ _ Hl2 Hb2 Eq) as (Hfb & level & L1 & L2 & L3).
  assert (Hok : p21_ok (p21_raw q m)) by (apply p21_valid_ok; auto).
  split; [exact Hok|]. exists level. split; [exact L1|]. split; [exact L2|].
  pose proof (p21_raw_spells q m Hl Hb) as Hr. cbv zeta in Hr.
  assert (Hz : p21_reserved (p21_raw q m) = 0) by (unfold p21_ok in Hok; tauto). rewrite Hz in Hr.
  assert (Hn : N.shiftr (nth 0 (skipn 8 m) 0) 4 = p21_ff (p21_raw q m)).
  { cells m 10%nat. cbn [firstn] in Hb. inv_bytes. cbn [skipn nth p21_raw p21_ff]. bits. }
  rewrite Hn in L3. pose proof (spells_app _ _ _ _ _ Hr L3) as Hall. exact Hall.
Qed.

Lemma p21_unpack_complete old m p level : (10 <= length m)%nat -> bytes (firstn 10 m) ->
  p21_ok p -> level <= 15 -> spells 10 m (p21_fields p level) ->
  exists p', p21_unpack old m = Ok (p', true) /\ p21_arrives p p' (level_min level) /\
    pool_set_only (p21_ff p) (p21_pool old) (p21_pool p').
Proof.
  intros Hl Hb Hok Hlv Hsp. pose proof (ok_ff _ _ (proj2 (p21_ok_fb p Hok))) as Hff.
  destruct (p21_unpack_raw old m Hl Hb) as (p' & ok & q & qok & E & Eq & Hs & Eok & Hp).
  pose proof (p21_raw_spells q m Hl Hb) as Hr. cbv zeta in Hr.
  set (l1 := base_fields (p21_base p) ++ [(8, p21_snid p); (16, p21_tx p); (4, p21_power p); (4, p21_mcs p); (16, p21_rx p); (2, p21_nss p); (6, 0)]).
  assert (Hs2 : spells 8 m l1 /\ spells 2 (skipn 8 m) ((4, p21_ff p) :: fb_fields (fb_view (p21_ff p) (p21_pool p)) level)).
  { apply spells_split; [exact Hb|reflexivity|]. exact Hsp. }
  destruct Hs2 as [S1 S2].
  assert (Hl2 : (2 <= length (skipn 8 m))%nat) by (rewrite skipn_length; lia).
  assert (Hb2 : bytes (firstn 2 (skipn 8 m))).
  { change 10%nat with (8 + 2)%nat in Hb. rewrite firstn_plus in Hb. apply Forall_app in Hb. apply Hb. }
  assert (Hn : N.land (N.shiftr (nth 8 m 0) 4) 15 = p21_ff p).
  { assert (Hx : spells 2 (skipn 8 m) [(4, N.land (N.shiftr (nth 8 m 0) 4) 15); (12, N.land (be_number (firstn 2 (skipn 8 m))) 4095)]).
    { clear - Hl Hb. cells m 10%nat. cbn [firstn] in Hb. inv_bytes. cbn [skipn nth firstn be_number fold_left].
      pose proof (land15_le (N.shiftr b8 4)). assert (N.land (N.lor (N.shiftl (N.lor (N.shiftl 0 8) b8) 8) b9) 4095 < 4096) by (bits_lt 12%nat).
      split; [cbn [length]; lia|]. split; [reflexivity|]. split; [fit_tac|spell_tac]. }
    assert (Hy : spells 2 (skipn 8 m) [(4, p21_ff p); (12, cat_fields (fb_fields (fb_view (p21_ff p) (p21_pool p)) level))]).
    { destruct S2 as (A1 & A2 & A3 & A4). rewrite width_cons in A2. inversion A3 as [|? ? F1 F2]; subst.
      cbn [fst] in A2. split; [auto|]. split; [reflexivity|]. 
      assert (W12 : width (fb_fields (fb_view (p21_ff p) (p21_pool p)) level) = 12) by lia.
      split.
      - constructor; [exact F1|]. constructor; [|constructor]. cbn [fst snd]. rewrite <- W12. now apply cat_lt.
      - rewrite A4. change ((4, p21_ff p) :: fb_fields (fb_view (p21_ff p) (p21_pool p)) level)
          with ([(4, p21_ff p)] ++ fb_fields (fb_view (p21_ff p) (p21_pool p)) level).
        rewrite cat_app, W12. reflexivity. }
    pose proof (spells_inj _ _ _ _ Hx Hy eq_refl) as Ex. injection Ex as Ex _. exact Ex. }
  rewrite Hn in Eq, Hs.
  destruct (pool_unpack_complete (p21_pool old) (p21_ff p) (skipn 8 m) (p21_pool p) (p21_ff p) level
      Hl2 Hb2 (proj2 (p21_ok_fb p Hok)) Hlv S2) as (q' & Eq' & Hs' & Hv').
  rewrite Eq in Eq'. injection Eq' as -> ->.
  assert (Er : p21_raw q' m = (mk21 (p21_base p) (p21_snid p) (p21_tx p) (p21_power p) (p21_mcs p) (p21_rx p) (p21_nss p) (p21_reserved p) (p21_ff p) q')).
  { assert (Epool : p21_pool (p21_raw q' m) = q') by reflexivity.
    assert (Eff : p21_ff (p21_raw q' m) = p21_ff p) by exact Hn.
    revert Hr Epool Eff. generalize (p21_raw q' m). intros r Hr Epool Eff.
    subst l1. assert (Hz : p21_reserved p = 0) by (unfold p21_ok in Hok; tauto). rewrite <- Hz in S1.
    pose proof (spells_inj _ _ _ _ S1 Hr eq_refl) as Ex. unfold base_fields in Ex. cbn [app] in Ex.
    injection Ex as E1 E2 E3 E4 E5 E6 E7 E8 E9 E10.
    destruct p as [[? ? ?] ? ? ? ? ? ? ? ? ?]; destruct r as [[? ? ?] ? ? ? ? ? ? ? ? ?]; cbn in *; congruence. }
  rewrite Er in *.
  assert (Hokr : p21_ok (mk21 (p21_base p) (p21_snid p) (p21_tx p) (p21_power p) (p21_mcs p) (p21_rx p) (p21_nss p) (p21_reserved p) (p21_ff p) q')).
  { destruct (p21_ok_fb p Hok) as [G Hf]. apply G. cbn [p21_ff p21_pool]. rewrite Hv'. apply with_buf_ok, Hf. }
  apply p21_valid_ok in Hokr. destruct Hokr as (V1 & V2 & _).
  rewrite E, Eok, V1, V2, (Hp V1). eexists. split; [reflexivity|].
  split; [|exact Hs]. unfold p21_arrives. cbn [p21_base p21_snid p21_tx p21_power p21_mcs p21_rx p21_nss p21_reserved p21_ff p21_pool]. rewrite <- Hv'. tauto.
Qed.
