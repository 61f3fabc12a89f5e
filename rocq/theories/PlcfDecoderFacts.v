From Verif Require Import Base Bytes WireSpec BitSolve ByteFacts Identity Feedback FeedbackSpec FeedbackFacts Plcf PlcfSpec PlcfFacts.
Open Scope N_scope.

Lemma packet_length_ok hf b : base_ok hf b -> get_PacketLength b = PacketLength_m1 b + 1.
Proof. intros (_ & _ & H). unfold get_PacketLength. apply N.mod_small. lia. Qed.

Lemma nss_cases x : x <= 3 -> N_SS_of_code x = Ok (2 ^ x).
Proof. intros. assert (x = 0 \/ x = 1 \/ x = 2 \/ x = 3) as [->|[->|[->| ->]]] by lia; reflexivity. Qed.

Lemma rdc_ok d hf b mcs nss n : base_ok hf b -> nss = Ok n ->
  exists c, check_rdc_limits d b mcs nss = Ok c /\
  (c = true <-> PacketLength_m1 b + 1 <= PacketLength_max d /\ mcs <= mcs_index_max d /\ n <= N_SS_max d).
Proof.
  intros Hb ->. unfold check_rdc_limits. rewrite (packet_length_ok hf b Hb).
  destruct (N.ltb_spec (PacketLength_max d) (PacketLength_m1 b + 1)).
  { eexists; split; [reflexivity|]. split; [discriminate|lia]. }
  destruct (N.ltb_spec (mcs_index_max d) mcs).
  { eexists; split; [reflexivity|]. split; [discriminate|lia]. }
  cbn [bind]. eexists; split; [reflexivity|].
  destruct (N.ltb_spec (N_SS_max d) n); cbn [negb]; split; try discriminate; auto; lia.
Qed.

(** The first byte decides the header format. *)
Lemma head_format n m b l : (1 <= n)%nat -> (n <= length m)%nat -> bytes (firstn n m) ->
  spells n m (base_fields b ++ l) -> HeaderFormat b = N.land (N.shiftr (nth 0 m 0) 5) 7.
Proof.
  intros Hn Hl Hb Hs. destruct n as [|n]; [lia|]. change (S n) with (1 + n)%nat in *.
  apply spells_split in Hs; [|exact Hb|reflexivity]. destruct Hs as [Hs _].
  cells m 1%nat. cbn [firstn Nat.add] in Hb. inv_bytes. cbn [nth].
  assert (Hx : spells 1 (b0 :: m) [(3, N.land (N.shiftr b0 5) 7); (1, N.land (N.shiftr b0 4) 1); (4, N.land b0 15)]).
  { pose proof (land15_le b0). pose proof (land1_le (N.shiftr b0 4)). pose proof (land7_le (N.shiftr b0 5)).
    split; [cbn [length]; lia|]. split; [reflexivity|]. split; [fit_tac|spell_tac]. }
  pose proof (spells_inj _ _ _ _ Hs Hx eq_refl) as E. injection E as E1 _ _. exact E1.
Qed.

Lemma decode1 d m : (5 <= length m)%nat -> bytes (firstn 5 m) -> hf1 d = None ->
  exists d', decode_and_rdc_check d 1 m = Ok d' /\
    hf2 d' = hf2 d /\ d20 d' = d20 d /\ d21 d' = d21 d /\
    PacketLength_max d' = PacketLength_max d /\ mcs_index_max d' = mcs_index_max d /\ N_SS_max d' = N_SS_max d /\
    ((hf1 d' = Some 0 /\ accepts10 d m (d10 d')) \/
     (hf1 d' = None /\ forall p, ~ accepts10 d m p)).
Proof.
  intros Hl Hb Hd. destruct d as [pl mc ns h1 h2 e10 e20 e21]. cbn [hf1] in Hd. subst h1.
  unfold decode_and_rdc_check. change ((1 =? 1) || (1 =? 2)) with true. cbn [guard].
  assert (Hld : ld m 0 = Ok (nth 0 m 0)) by (apply rd_ok; lia).
  rewrite Hld. cbn [bind]. change (1 =? 1) with true. cbv iota.
  destruct (N.leb_spec 1 (N.land (N.shiftr (nth 0 m 0) 5) 7)) as [Hc|Hc].
  { eexists. split; [reflexivity|]. cbn [hf1 hf2 d10 d20 d21 PacketLength_max mcs_index_max N_SS_max].
    repeat (split; [reflexivity|]). right. split; [reflexivity|]. intros p (Hok & Hs & _).
    pose proof (head_format 5 m (p10_base p) _ ltac:(lia) Hl Hb Hs) as E. destruct Hok as ((E0 & _) & _). lia. }
  destruct (p10_unpack_total e10 m Hl Hb) as (p & ok & E). rewrite E. cbn [bind fst snd].
  destruct ok; cbn [negb].
  - destruct (p10_unpack_sound e10 m p Hl Hb E) as [Hok Hs].
    destruct (rdc_ok (mkDec pl mc ns None h2 p e20 e21) 0 (p10_base p) (p10_mcs p) (Ok 1) 1 (proj1 Hok) eq_refl) as (c & Ec & Hciff).
    rewrite Ec. cbn [bind]. cbn [PacketLength_max mcs_index_max N_SS_max] in Hciff.
    destruct c; cbn [negb]; (eexists; split; [reflexivity|]);
      cbn [hf1 hf2 d10 d20 d21 PacketLength_max mcs_index_max N_SS_max]; repeat (split; [reflexivity|]).
    + left. split; [f_equal; lia|]. unfold accepts10. cbn [PacketLength_max mcs_index_max N_SS_max]. tauto.
    + right. split; [reflexivity|]. intros p' (Hok' & Hs' & Hr).
      pose proof (p10_unpack_complete e10 m p' Hl Hb Hok' Hs') as E'. rewrite E in E'. injection E' as <-.
      cbn [PacketLength_max mcs_index_max N_SS_max] in Hr. destruct Hciff as [_ Hx]. discriminate (Hx Hr).
  - eexists; split; [reflexivity|].
    cbn [hf1 hf2 d10 d20 d21 PacketLength_max mcs_index_max N_SS_max]. repeat (split; [reflexivity|]).
    right. split; [reflexivity|]. intros p' (Hok' & Hs' & Hr).
    pose proof (p10_unpack_complete e10 m p' Hl Hb Hok' Hs') as E'. rewrite E in E'. discriminate.
Qed.

Definition size_is20 (p : plcf20) (level : N) : Prop :=
  with_buf (fb_view (p20_ff p) (p20_pool p)) (level_min level) = fb_view (p20_ff p) (p20_pool p).
Definition size_is21 (p : plcf21) (level : N) : Prop :=
  with_buf (fb_view (p21_ff p) (p21_pool p)) (level_min level) = fb_view (p21_ff p) (p21_pool p).

Lemma decode2 d m : (10 <= length m)%nat -> bytes (firstn 10 m) -> hf2 d = None ->
  exists d', decode_and_rdc_check d 2 m = Ok d' /\
    hf1 d' = hf1 d /\ d10 d' = d10 d /\
    PacketLength_max d' = PacketLength_max d /\ mcs_index_max d' = mcs_index_max d /\ N_SS_max d' = N_SS_max d /\
    ((hf2 d' = Some 0 /\ exists level, accepts20 d m (d20 d') level /\ size_is20 (d20 d') level) \/
     (hf2 d' = Some 1 /\ exists level, accepts21 d m (d21 d') level /\ size_is21 (d21 d') level) \/
     (hf2 d' = None /\ (forall p level, ~ accepts20 d m p level) /\ (forall p level, ~ accepts21 d m p level))).
Proof.
  intros Hl Hb Hd. destruct d as [pl mc ns h1 h2 e10 e20 e21]. cbn [hf2] in Hd. subst h2.
  unfold decode_and_rdc_check. change ((2 =? 1) || (2 =? 2)) with true. cbn [guard].
  assert (Hld : ld m 0 = Ok (nth 0 m 0)) by (apply rd_ok; lia).
  rewrite Hld. cbn [bind]. change (2 =? 1) with false. cbv iota.
  set (cand := N.land (N.shiftr (nth 0 m 0) 5) 7).
  assert (H20 : forall p level, accepts20 (mkDec pl mc ns h1 None e10 e20 e21) m p level -> cand = 0).
  { intros p level (Hok & Hs & _). pose proof (head_format 10 m (p20_base p) _ ltac:(lia) Hl Hb Hs) as E.
    destruct Hok as ((E0 & _) & _). unfold cand. congruence. }
  assert (H21 : forall p level, accepts21 (mkDec pl mc ns h1 None e10 e20 e21) m p level -> cand = 1).
  { intros p level (Hok & Hs & _). pose proof (head_format 10 m (p21_base p) _ ltac:(lia) Hl Hb Hs) as E.
    destruct Hok as ((E0 & _) & _). unfold cand. congruence. }
  destruct (N.leb_spec 2 cand) as [Hc|Hc].
  { eexists. split; [reflexivity|]. cbn [hf1 hf2 d10 d20 d21 PacketLength_max mcs_index_max N_SS_max].
    repeat (split; [reflexivity|]). right. right. split; [reflexivity|].
    split; intros p level H; [specialize (H20 p level H)|specialize (H21 p level H)]; lia. }
  destruct (N.eqb_spec cand 0) as [H0|H0].
  - destruct (p20_unpack_total e20 m Hl Hb) as (p & ok & E). rewrite E. cbn [bind fst snd].
    assert (Hn21 : forall p level, ~ accepts21 (mkDec pl mc ns h1 None e10 e20 e21) m p level).
    { intros q level H. specialize (H21 q level H). lia. }
    destruct ok; cbn [negb].
    + destruct (p20_unpack_sound e20 m p Hl Hb E) as (Hok & level & L1 & L2 & Hs).
      assert (Hn : p20_nss p <= 3) by (unfold p20_ok in Hok; tauto).
      destruct (rdc_ok (mkDec pl mc ns h1 None e10 p e21) 0 (p20_base p) (p20_mcs p) (N_SS_of_code (p20_nss p))
                  (2 ^ p20_nss p) (proj1 Hok) (nss_cases _ Hn)) as (c & Ec & Hciff).
      rewrite Ec. cbn [bind]. cbn [PacketLength_max mcs_index_max N_SS_max] in Hciff.
      destruct c; cbn [negb]; (eexists; split; [reflexivity|]);
        cbn [hf1 hf2 d10 d20 d21 PacketLength_max mcs_index_max N_SS_max]; repeat (split; [reflexivity|]).
      * left. split; [f_equal; lia|]. exists level. split; [|exact L2].
        unfold accepts20. cbn [PacketLength_max mcs_index_max N_SS_max]. tauto.
      * right. right. split; [reflexivity|]. split; [|exact Hn21]. intros p' lv (Hok' & Hs' & Hlv & Hr).
        destruct (p20_unpack_complete e20 m p' lv Hl Hb Hok' Hlv Hs') as (p'' & E' & Ha & _).
        rewrite E in E'. injection E' as <-. destruct Ha as (A1 & _ & _ & _ & A2 & _ & A3 & _).
        rewrite A1, A2, A3 in Hciff.
        cbn [PacketLength_max mcs_index_max N_SS_max] in Hr. destruct Hciff as [_ Hx]. discriminate (Hx Hr).
    + eexists; split; [reflexivity|].
      cbn [hf1 hf2 d10 d20 d21 PacketLength_max mcs_index_max N_SS_max]. repeat (split; [reflexivity|]).
      right. right. split; [reflexivity|]. split; [|exact Hn21]. intros p' lv (Hok' & Hs' & Hlv & Hr).
      destruct (p20_unpack_complete e20 m p' lv Hl Hb Hok' Hlv Hs') as (p'' & E' & _). rewrite E in E'. discriminate.
  - destruct (p21_unpack_total e21 m Hl Hb) as (p & ok & E). rewrite E. cbn [bind fst snd].
    assert (Hn20 : forall p level, ~ accepts20 (mkDec pl mc ns h1 None e10 e20 e21) m p level).
    { intros q level H. specialize (H20 q level H). lia. }
    destruct ok; cbn [negb].
    + destruct (p21_unpack_sound e21 m p Hl Hb E) as (Hok & level & L1 & L2 & Hs).
      assert (Hn : p21_nss p <= 3) by (unfold p21_ok in Hok; tauto).
      destruct (rdc_ok (mkDec pl mc ns h1 None e10 e20 p) 1 (p21_base p) (p21_mcs p) (N_SS_of_code (p21_nss p))
                  (2 ^ p21_nss p) (proj1 Hok) (nss_cases _ Hn)) as (c & Ec & Hciff).
      rewrite Ec. cbn [bind]. cbn [PacketLength_max mcs_index_max N_SS_max] in Hciff.
      destruct c; cbn [negb]; (eexists; split; [reflexivity|]);
        cbn [hf1 hf2 d10 d20 d21 PacketLength_max mcs_index_max N_SS_max]; repeat (split; [reflexivity|]).
      * right. left. split; [f_equal; lia|]. exists level. split; [|exact L2].
        unfold accepts21. cbn [PacketLength_max mcs_index_max N_SS_max]. tauto.
      * right. right. split; [reflexivity|]. split; [exact Hn20|]. intros p' lv (Hok' & Hs' & Hlv & Hr).
        destruct (p21_unpack_complete e21 m p' lv Hl Hb Hok' Hlv Hs') as (p'' & E' & Ha & _).
        rewrite E in E'. injection E' as <-. destruct Ha as (A1 & _ & _ & _ & A2 & _ & A3 & _).
        rewrite A1, A2, A3 in Hciff.
        cbn [PacketLength_max mcs_index_max N_SS_max] in Hr. destruct Hciff as [_ Hx]. discriminate (Hx Hr).
    + eexists; split; [reflexivity|].
      cbn [hf1 hf2 d10 d20 d21 PacketLength_max mcs_index_max N_SS_max]. repeat (split; [reflexivity|]).
      right. right. split; [reflexivity|]. split; [exact Hn20|]. intros p' lv (Hok' & Hs' & Hlv & Hr).
      destruct (p21_unpack_complete e21 m p' lv Hl Hb Hok' Hlv Hs') as (p'' & E' & _). rewrite E in E'. discriminate.
Qed.

Lemma decoder_exact d m1 m2 :
  (5 <= length m1)%nat -> bytes (firstn 5 m1) -> (10 <= length m2)%nat -> bytes (firstn 10 m2) ->
  exists d1 d2,
    decode_and_rdc_check (set_configuration d) 1 m1 = Ok d1 /\
    decode_and_rdc_check d1 2 m2 = Ok d2 /\
    (match get_plcf_base d2 1 with
     | Ok (Some (P10 p)) => accepts10 d m1 p
     | Ok None => forall p, ~ accepts10 d m1 p
     | _ => False
     end) /\
    (match get_plcf_base d2 2 with
     | Ok (Some (P20 p)) => exists level, accepts20 d m2 p level /\ size_is20 p level
     | Ok (Some (P21 p)) => exists level, accepts21 d m2 p level /\ size_is21 p level
     | Ok None => (forall p level, ~ accepts20 d m2 p level) /\ (forall p level, ~ accepts21 d m2 p level)
     | _ => False
     end) /\
    has_any_plcf d2 =
      (match get_plcf_base d2 1 with Ok (Some _) => 1 | _ => 0 end) +
      (match get_plcf_base d2 2 with Ok (Some _) => 2 | _ => 0 end).
Proof.
  intros L1 B1 L2 B2.
  destruct (decode1 (set_configuration d) m1 L1 B1 eq_refl) as (d1 & E1 & A1 & A2 & A3 & A4 & A5 & A6 & A7).
  destruct (decode2 d1 m2 L2 B2 ltac:(rewrite A1; reflexivity)) as (d2 & E2 & C1 & C2 & C4 & C5 & C6 & C7).
  exists d1, d2. split; [exact E1|]. split; [exact E2|].
  unfold get_plcf_base. change ((1 =? 1) || (1 =? 2)) with true. change ((2 =? 1) || (2 =? 2)) with true.
  change (1 =? 1) with true. change (2 =? 1) with false. cbn [guard].
  unfold accepts20, accepts21 in C7. rewrite A4, A5, A6 in C7.
  cbn [set_configuration PacketLength_max mcs_index_max N_SS_max] in *.
  rewrite C1, C2. unfold has_any_plcf. rewrite C1.
  split; [|split].
  - destruct A7 as [[-> A]|[-> A]]; exact A.
  - destruct C7 as [[-> A]|[[-> A]|[-> A]]]; exact A.
  - destruct A7 as [[-> A]|[-> A]]; destruct C7 as [[-> A']|[[-> A']|[-> A']]]; reflexivity.
Qed.

(** A header that was packed and stays inside the device class is reported. *)
Lemma decoder_reports_packed10 d m p m' :
  (5 <= length m)%nat -> p10_ok p -> p10_pack p m = Ok m' ->
  PacketLength_m1 (p10_base p) + 1 <= PacketLength_max d -> p10_mcs p <= mcs_index_max d -> 1 <= N_SS_max d ->
  exists d1, decode_and_rdc_check (set_configuration d) 1 m' = Ok d1 /\ get_plcf_base d1 1 = Ok (Some (P10 p)).
Proof.
  intros Hl Hok Hp R1 R2 R3. destruct (p10_pack_writes p m Hl Hok) as (m'' & E & W). rewrite Hp in E. injection E as <-.
  pose proof (writes_head _ _ _ _ W) as Hb. pose proof (writes_spells _ _ _ _ W) as Hs.
  assert (Hl' : (5 <= length m')%nat) by (destruct W as (-> & _); lia).
  destruct (decode1 (set_configuration d) m' Hl' Hb eq_refl) as (d1 & E1 & _ & _ & _ & _ & _ & _ & A).
  exists d1. split; [exact E1|]. unfold get_plcf_base. change ((1 =? 1) || (1 =? 2)) with true. change (1 =? 1) with true. cbn [guard].
  assert (Ha : accepts10 (set_configuration d) m' p).
  { unfold accepts10. cbn [set_configuration PacketLength_max mcs_index_max N_SS_max]. tauto. }
  destruct A as [[-> A]|[-> A]]; [|exfalso; apply (A p Ha)].
  destruct A as (O' & S' & _).
  pose proof (p10_unpack_complete p m' p Hl' Hb Hok Hs) as X. pose proof (p10_unpack_complete p m' _ Hl' Hb O' S') as Y.
  rewrite X in Y. injection Y as Y. rewrite <- Y. reflexivity.
Qed.
