(** C28: radio device capability, neighbouring and broadcast indication. *)
From Verif Require Import Base Bytes WireSpec BitSolve ByteFacts Fields MacHeader Channels ChannelsSpec IeBase IeLists BeaconsSpec IeFacts IeCursor ResourceIes ResourceIesFacts RandomAccessFacts
  AssociationSpec InfoIes CapabilityIes InfoIesSpec LoadFacts CapabilityFacts NeighbouringFacts P41_ResourceIes.
Open Scope N_scope.

(** ** Radio device capability *)
Theorem C28_rd_capability : forall c, cap_ok c -> exists n, cap_size c = Ok n /\ n = (7 + 5 * length (cap_additional c))%nat /\ forall m, (n <= length m)%nat ->
  exists m', cap_pack c m = Ok m' /\ writes n m m' (cap_fields c 0 0 (0, 0, 0) (unreserved c)) /\
    forall tail, cap_peek (firstn n m' ++ tail) = Ok (Some n) /\ cap_unpack (firstn n m' ++ tail) = Ok (c, true).
Proof.
  intros c O. pose proof (unreserved_raw c O) as R. destruct (cap_whole c 0 0 _ _ R) as (W & E). exists (7 + length (cap_additional c) * 5)%nat.
  assert (V : cap_valid c = true) by (rewrite <- (cap_dec_id c O); now apply (cap_dec_valid c 0 0 _ _ R)).
  split; [unfold cap_size; now rewrite V|]. split; [lia|]. intros m L. exists (packed (cap_fields c 0 0 (0, 0, 0) (unreserved c)) m).
  split; [now apply cap_pack_raw|]. split; [rewrite <- E; apply packed_writes; [exact W|lia]|]. intros tail. rewrite <- E, firstn_packed. split.
  - rewrite (cap_peek_raw c 0 0 _ _ R), E. reflexivity.
  - rewrite (cap_unpack_raw c 0 0 _ _ R), (cap_dec_id c O), V. reflexivity.
Qed.
Definition pc_enumerators (p : phy_capability) : Prop :=
  enumerator 3 (pc_power_class p) /\ enumerator 4 (pc_nss p) /\ enumerator 4 (pc_diversity p) /\ enumerator 10 (pc_max_mcs p) /\
  enumerator 9 (pc_soft_buffer p) /\ enumerator 4 (pc_harq p) /\ enumerator 7 (pc_delay p).
Definition cap_enumerators (c : rd_capability) : Prop :=
  Forall (fun a => enumerator 4 (ad_mu a) /\ enumerator 6 (ad_beta a) /\ pc_enumerators (ad_phy a)) (cap_additional c) /\
  enumerator 5 (cap_release c) /\ enumerator 3 (cap_modes c) /\ enumerator 2 (cap_security c) /\ enumerator 5 (cap_dlc c) /\ pc_enumerators (cap_phy c).
Lemma enum_below u v : enumerator (N.succ u) v -> enum_valid (N.succ u) v = true -> v <= u.
Proof.
  intros E V. unfold enum_valid in V. apply andb_prop in V. destruct V as [V1 V2]. apply negb_true_iff, N.eqb_neq in V1. apply negb_true_iff, N.eqb_neq in V2.
  unfold enumerator in E. clear - E V1 V2. lia.
Qed.
Lemma pc_invalid p : pc_enumerators p -> pc_valid p = true -> pc_ok p.
Proof.
  unfold pc_enumerators, pc_valid, pc_ok. rewrite !andb_true_iff, gain_valid.
  intros (E1 & E2 & E3 & E4 & E5 & E6 & E7) (((((((V1 & V2) & V3) & V4) & V5) & V6) & V7) & V8).
  exact (conj (enum_below 2 _ E1 V1) (conj (enum_below 3 _ E2 V2) (conj (enum_below 3 _ E3 V3) (conj V4 (conj (enum_below 9 _ E4 V5)
    (conj (enum_below 8 _ E5 V6) (conj (enum_below 3 _ E6 V7) (enum_below 6 _ E7 V8)))))))).
Qed.
Theorem C28_rd_capability_invalid_aborts : forall c m, cap_enumerators c -> ~ cap_ok c -> cap_pack c m = Abort /\ cap_size c = Abort.
Proof.
  intros c m (E1 & E2 & E3 & E4 & E5 & E6) O. unfold cap_pack, cap_size. destruct (cap_valid c) eqn:V; [|split; reflexivity]. exfalso. apply O. unfold cap_valid in V. rewrite !andb_true_iff in V.
  destruct V as ((((((V1 & V2) & V3) & V4) & V5) & V6) & V7). unfold cap_ok. split; [lia|]. split.
  { rewrite Forall_forall in *. intros a Ha. rewrite forallb_forall in V2. specialize (V2 a Ha). specialize (E1 a Ha). cbn beta in *. rewrite !andb_true_iff in V2. destruct V2 as ((V2 & V2') & V2'').
    destruct E1 as (E1 & E1' & E1''). unfold ad_ok. exact (conj (enum_below 3 _ E1 V2) (conj (enum_below 5 _ E1' V2') (pc_invalid _ E1'' V2''))). }
  split.
  { clear - V3 E2. unfold enum_valid_lower in V3. rewrite !andb_true_iff, !negb_true_iff, !N.eqb_neq in V3. destruct V3 as ((V3 & V3') & V3''). unfold enumerator in E2. lia. }
  exact (conj (enum_below 2 _ E3 V4) (conj (enum_below 1 _ E4 V5) (conj (enum_below 4 _ E5 V6) (pc_invalid _ E6 V7)))).
Qed.
(** Received bytes are accepted or the receiver aborts; the reserved bits do not matter. *)
Theorem C28_rd_capability_received : forall m n, bytes m -> cap_peek m = Ok (Some n) -> (n <= length m)%nat ->
  cap_unpack (firstn n m) = cap_unpack m /\
  exists c r1 r2 r3 rs, spells n m (cap_fields c r1 r2 r3 rs) /\ length rs = length (cap_additional c) /\
    (cap_ok c -> cap_unpack m = Ok (c, true)) /\ (~ cap_ok c -> cap_unpack m = Abort).
Proof.
  intros m n B P L. destruct (cap_parse m n B P L) as (c & r1 & r2 & r3 & rs & t & K & -> & ->). destruct (cap_whole _ _ _ _ _ K) as (W & E). split.
  - rewrite <- E at 1. rewrite prefix_fields, !(cap_unpack_raw _ _ _ _ _ K). reflexivity.
  - exists c, r1, r2, r3, rs. split; [rewrite <- E; now apply fb_spells|]. split; [now apply K|]. rewrite (cap_unpack_raw _ _ _ _ _ K). pose proof (cap_dec_valid _ _ _ _ _ K) as V. split; intros O.
    + rewrite (proj2 V O), (cap_dec_id c O). reflexivity.
    + destruct (cap_valid (cap_dec c)); [|reflexivity]. exfalso. tauto.
Qed.
(** The gain of the receiver *)
Theorem C28_rx_gain : forall dB, exists g, get_rx_gain_dB (set_rx_gain dB) = Some g /\ gain_for dB g.
Proof.
  intros dB. unfold set_rx_gain, rx_gain_table, gain_for. cbn [lower_bound].
  repeat match goal with |- context [(?a <? dB)%Z] => destruct (Z.ltb_spec a dB) end; cbn; eexists; (split; [reflexivity|]); (split; [|split; [lia|intros k Hk1 Hk2; lia]]).
  all: match goal with |- exists k, _ /\ ?g = _ => exists ((g + 10) / 2)%Z end; cbn; lia.
Qed.
Theorem C28_rx_gain_index : forall dB, set_rx_gain dB < 9.
Proof. intros dB. unfold set_rx_gain, rx_gain_table. cbn [lower_bound]. repeat match goal with |- context [(?a <? dB)%Z] => destruct (Z.ltb_spec a dB) end; cbn; lia. Qed.

(** ** Neighbouring *)
Definition ng_typed (c : neighbouring) : Prop :=
  enumerator 7 (ng_nbp c) /\ enumerator 11 (ng_cbp c) /\ if_present (fun v => enumerator 4 (fst v) /\ enumerator 6 (snd v)) (ng_class c) /\
  if_present (fun t => t < 2 ^ 32) (ng_time c).
(** The element is never written. *)
Theorem C28_neighbouring_not_sent_refuted : forall c m, ng_typed c -> (ng_size c <= length m)%nat ->
  ng_pack c m = Abort \/ ng_pack c m = Throw.
Proof.
  intros c m (E1 & E2 & E3 & E4) L. destruct (N.ltb_spec 65535 (ng_id c)) as [Hi|Hi].
  - left. unfold ng_pack, ng_valid. apply N.ltb_lt in Hi. now rewrite Hi.
  - destruct (ng_class c) as [v|] eqn:Ev.
    + destruct E3 as (E3 & E3'). destruct (ng_valid_iff c v ltac:(lia) Ev E3 E3' E1 E2 E4) as (b & V & I). destruct b.
      * rewrite ng_pack_raw by (try assumption; now apply I). destruct (ng_channel c); auto.
      * left. unfold ng_pack. rewrite V. reflexivity.
    + right. unfold ng_pack, ng_valid. apply N.ltb_ge in Hi. now rewrite Hi, Ev.
Qed.
(** It throws without the class of the radio device or without the channel, although both are optional; a valid element
    that has them aborts. *)
Theorem C28_neighbouring_optional_throws : forall c m, ng_ok c -> (ng_size c <= length m)%nat ->
  (ng_class c = None \/ ng_channel c = None -> ng_pack c m = Throw) /\
  (ng_class c <> None -> ng_channel c <> None -> ng_pack c m = Abort).
Proof.
  intros c m O L. pose proof O as (H1 & H2 & H3 & H4 & H5 & H6 & H7 & H8). destruct (ng_class c) as [v|] eqn:Ev.
  - cbn [if_present] in H8. assert (V : ng_valid c = Ok true).
    { destruct (ng_valid_iff c v H1 Ev) as (b & V & I); unfold enumerator; try lia; try assumption. rewrite V. f_equal. now apply I. }
    rewrite ng_pack_raw by assumption. split.
    + intros [D| ->]; [discriminate|reflexivity].
    + intros _ D. destruct (ng_channel c); [reflexivity|contradiction].
  - split; [|congruence]. intros _. unfold ng_pack, ng_valid. destruct (N.ltb_spec 65535 (ng_id c)); [lia|]. now rewrite Ev.
Qed.
(** Received bytes: without the class the receiver throws. Two bytes too many are asked for with a channel. The network
    beacon period is only understood if it is the first of the enumeration. *)
Theorem C28_neighbouring_received : forall m n, bytes m -> ng_peek m = Ok (Some n) -> (n <= length m)%nat ->
  exists c r1 r2 r3, spells (ng_size c) m (ng_fields c r1 r2 r3) /\ n = (ng_size c + opt_size (ng_channel c) 2)%nat /\
    ng_unpack (firstn (ng_size c) m) = ng_unpack m /\
    (ng_class c = None -> ng_unpack m = Throw) /\
    (ng_class c <> None -> exists c' v, ng_unpack m = Ok (c', v) /\ (v = true <-> ng_ok c /\ ng_nbp c = 0) /\ (v = true -> c' = c)).
Proof.
  intros m n B P L. destruct (ng_parse m n B P L) as (c & r1 & r2 & r3 & t & O & R1 & R2 & R3 & -> & ->). destruct (ng_whole c r1 r2 r3 O R1 R2 R3) as (W & E). exists c, r1, r2, r3.
  split; [rewrite <- E; now apply fb_spells|]. split; [unfold ng_peeked, ng_size; destruct (ng_channel c); cbn [opt_size]; lia|].
  split; [rewrite <- E, prefix_fields, !ng_unpack_raw by assumption; reflexivity|]. rewrite ng_unpack_raw, ng_dec_valid by assumption. split.
  - intros ->. reflexivity.
  - destruct (ng_class c) as [v|] eqn:Ev; [|congruence]. intros _. cbn [bind]. do 2 eexists. split; [reflexivity|]. rewrite !andb_true_iff. rewrite (opt_all_if channel_in_range channel) by apply channel_range.
    rewrite !N.leb_le, N.eqb_eq. split.
    + unfold ng_ok. rewrite Ev. cbn [if_present]. destruct O as (O1 & O2 & O3 & O4 & O5 & O6 & O7 & O8). split; intros H; repeat match goal with K : _ /\ _ |- _ => destruct K end;
        repeat match goal with |- _ /\ _ => split end; try assumption; lia.
    + intros ((((H1 & H2) & _) & H3) & H4). unfold ng_dec. rewrite H3, Ev. cbn [option_map]. unfold cl_dec. rewrite !coded_id by lia. destruct c as [? ? ? ? ? ? ? ? cl]. cbn in *. subst. destruct v. reflexivity.
Qed.

(** ** Broadcast indication *)
Definition bi_k (it : N) : nat := if it =? 0 then 2%nat else 4%nat.
Lemma bi_fields_whole ty it ack fb fo id : ty < 8 -> it < 2 -> ack < 2 -> fb < 4 -> id < (if it =? 0 then 65536 else 2 ^ 32) ->
  whole (bi_fields ty it ack fb fo id) /\ nbytes (bi_fields ty it ack fb fo id) = (bi_k it + 1)%nat.
Proof.
  intros H1 H2 H3 H4 H5. unfold bi_fields, bi_k. pose proof (bit_lt fo). destruct (it =? 0); (split; [split; [fit_tac|reflexivity]|reflexivity]).
Qed.
Lemma bi_read ty it ack fb fo id : ty < 8 -> it < 2 -> ack < 2 -> fb < 4 -> id < (if it =? 0 then 65536 else 2 ^ 32) ->
  exists b0 u, field_bytes (bi_fields ty it ack fb fo id) = b0 :: u /\ length u = bi_k it /\ N.shiftr b0 5 = ty /\ N.land (N.shiftr b0 4) 1 = it /\ N.land (N.shiftr b0 3) 1 = ack /\
    N.land b0 6 = 2 * fb /\ N.land (N.shiftr b0 0) 1 = bit fo /\ forall t, rd_num (bi_k it) (b0 :: u ++ t) 1 = Ok id.
Proof.
  intros H1 H2 H3 H4 H5. unfold bi_fields, bi_k. pose proof (bit_lt fo). set (f := bit fo) in *. clearbody f.
  assert (M : forall b, N.land (N.shiftr b 1) 3 = fb -> N.land b 6 = 2 * fb).
  { intros b <-. change 6 with (N.shiftl 3 1). rewrite land_shifted, N.shiftl_mul_pow2. change (2 ^ 1) with 2. apply N.mul_comm. }
  assert (it = 0 \/ it = 1) as [-> | ->] by lia.
  - change (if 0 =? 0 then 65536 else 2 ^ 32) with 65536 in H5. change (if 0 =? 0 then 16 else 32) with 16. change (if 0 =? 0 then 2%nat else 4%nat) with 2%nat. rewrite (fb_eq 3) by reflexivity. fbx.
    do 2 eexists. split; [reflexivity|]. split; [reflexivity|]. split; [unfold u8; bits|]. split; [unfold u8; bits|]. split; [unfold u8; bits|]. split; [apply M; unfold u8; bits|]. split; [unfold u8; bits|].
    intros t. unfold rd_num. cbn [app]. mcbn. f_equal. unfold u8; bits.
  - change (if 1 =? 0 then 65536 else 2 ^ 32) with 4294967296 in H5. change (if 1 =? 0 then 16 else 32) with 32. change (if 1 =? 0 then 2%nat else 4%nat) with 4%nat. rewrite (fb_eq 5) by reflexivity. fbx.
    do 2 eexists. split; [reflexivity|]. split; [reflexivity|]. split; [unfold u8; bits|]. split; [unfold u8; bits|]. split; [unfold u8; bits|]. split; [apply M; unfold u8; bits|]. split; [unfold u8; bits|].
    intros t. unfold rd_num. cbn [app]. mcbn. f_equal. unfold u8; bits.
Qed.
(** Everything that can be received. Two antennas are understood where the standard has the quality. *)
Lemma bi_unpack_raw ty it ack fb fo id b t : ty < 8 -> it < 2 -> ack < 2 -> fb < 4 -> id < (if it =? 0 then 65536 else 2 ^ 32) ->
  bi_unpack (field_bytes (bi_fields ty it ack fb fo id) ++ b :: t) =
  if ty =? 0 then Ok (mkBi 0 it UNDEF32 UNDEF32 fo id No_value, true)
  else if (ty =? 1) && (it =? 0) && (fb =? 0) then Ok (mkBi 1 0 ack 0 fo id No_value, true)
  else if (ty =? 1) && (it =? 0) && (fb =? 1) then
    let v := Mimo (N.land (N.shiftr b 3) 1) (N.land b 7) in
    if feedback_valid 2 v then Ok (mkBi 1 0 ack 2 fo id v, true) else Abort
  else Abort.
Proof.
  intros H1 H2 H3 H4 H5. destruct (bi_read ty it ack fb fo id H1 H2 H3 H4 H5) as (b0 & u & -> & Lu & E1 & E2 & E3 & E4 & E5 & Rd).
  specialize (Rd (b :: t)). assert (Lb : ld (b0 :: u ++ b :: t) (bi_k it + 1) = Ok b).
  { change (b0 :: u ++ b :: t) with ((b0 :: u) ++ b :: t). replace (bi_k it + 1)%nat with (length (b0 :: u)) by (cbn [length]; lia). rewrite ld_app0. reflexivity. }
  cbn [app]. assert (D : ld (b0 :: u ++ b :: t) 0 = Ok b0) by reflexivity. set (m := b0 :: u ++ b :: t) in *. clearbody m. unfold bi_unpack. rewrite D. cbn [bind].
  rewrite E1, E2, E3, E4, (mask_bit _ b0 1 0 eq_refl E5). rewrite (coded_id 2 it H2). fold (bi_k it). rewrite Rd. cbn [bind].
  assert (N.land (N.shiftr b 3) 1 < 2) as Hb by (change 1 with (N.ones 1) at 1; rewrite N.land_ones; change (2 ^ 1) with 2; lia).
  assert (Id : (it =? 0) && (65535 <? id) = false) by (destruct (it =? 0); [cbn [andb]; apply N.ltb_ge; lia|reflexivity]).
  assert (ty = 0 \/ ty = 1 \/ 2 <= ty) as [-> | [-> | Ht]] by lia.
  - change (from_coded 2 0) with 0. cbn [N.eqb bind]. unfold bi_size, bi_valid. cbn [bi_type bi_id_type bi_id bi_ack bi_feedback bi_value]. rewrite Id, (enum_valid_lt 2 it) by lia.
    change (enum_valid 2 0) with true. cbn [andb negb N.eqb guard bind]. unfold bi_k. destruct (it =? 0); reflexivity.
  - change (from_coded 2 1) with 1. cbn [N.eqb Pos.eqb bind andb]. rewrite (coded_id 2 ack H3). assert (it = 0 \/ it = 1) as [-> | ->] by lia.
    + assert (fb = 0 \/ fb = 1 \/ 2 <= fb) as [-> | [-> | Hf]] by lia.
      * change (from_coded 4 (2 * 0)) with 0. cbn [get_feedback bind]. unfold bi_size, bi_valid. cbn [bi_type bi_id_type bi_id bi_ack bi_feedback bi_value]. rewrite Id, (enum_valid_lt 2 ack) by lia. reflexivity.
      * change (from_coded 4 (2 * 1)) with 2. cbn [get_feedback bind]. rewrite Lb. cbn [bind]. rewrite (coded_id 3) by lia. unfold bi_size, bi_valid.
        cbn [bi_type bi_id_type bi_id bi_ack bi_feedback bi_value]. rewrite Id, (enum_valid_lt 2 ack) by lia. change (enum_valid 2 1) with true. change (enum_valid 2 0) with true. cbn [N.eqb Pos.eqb andb negb].
        destruct (feedback_valid 2 _); reflexivity.
      * replace (from_coded 4 (2 * fb)) with UNDEF32 by (unfold from_coded; destruct (N.ltb_spec (2 * fb) 4); [lia|reflexivity]).
        cbn [get_feedback bind]. unfold UNDEF32 at 1. cbn [get_feedback bind]. replace (fb =? 0) with false by lia. replace (fb =? 1) with false by lia. cbn [andb N.eqb]. unfold bi_size, bi_valid.
        cbn [bi_type bi_id_type bi_id bi_ack bi_feedback bi_value]. change (feedback_valid UNDEF32 No_value) with false. rewrite !andb_false_r. reflexivity.
    + cbn [N.eqb andb]. change ((1 =? 0) && (fb =? 0)) with false. cbn [andb].
      assert (G : exists v o, get_feedback (from_coded 4 (2 * fb)) m (bi_k 1 + 1) = Ok (v, o)).
      { unfold from_coded. destruct (N.ltb_spec (2 * fb) 4); [|do 2 eexists; reflexivity]. assert (fb = 0 \/ fb = 1) as [-> | ->] by lia; [do 2 eexists; reflexivity|].
        cbn [get_feedback]. change (2 * 1) with 2. cbn [get_feedback]. rewrite Lb. do 2 eexists. reflexivity. }
      destruct G as (v & o & G). rewrite G. cbn [bind]. unfold bi_size, bi_valid. cbn [bi_type bi_id_type bi_id bi_ack bi_feedback bi_value N.eqb Pos.eqb andb]. rewrite andb_false_r. reflexivity.
  - replace (from_coded 2 ty) with UNDEF32 by (unfold from_coded; destruct (N.ltb_spec ty 2); [lia|reflexivity]). change (UNDEF32 =? 1) with false. cbn [bind].
    replace (ty =? 0) with false by lia. replace (ty =? 1) with false by lia. cbn [andb]. reflexivity.
Qed.
Lemma bi_peek_raw ty it ack fb fo id t : ty < 2 -> it < 2 -> ack < 2 -> fb < 4 -> id < (if it =? 0 then 65536 else 2 ^ 32) ->
  bi_peek (field_bytes (bi_fields ty it ack fb fo id) ++ t) = Ok (Some ((if it =? 0 then 3 else 5) + (if (ty =? 1) && negb (fb =? 0) then 1 else 0))).
Proof.
  intros H1 H2 H3 H4 H5. destruct (bi_read ty it ack fb fo id ltac:(lia) H2 H3 H4 H5) as (b0 & u & -> & _ & E1 & E2 & E3 & E4 & _). unfold bi_peek. cbn [app]. mcbn. rewrite E1, E2, E4.
  destruct (N.leb_spec 2 ty); [lia|]. replace (2 * fb =? 0) with (fb =? 0); [reflexivity|]. destruct (N.eqb_spec fb 0), (N.eqb_spec (2 * fb) 0); lia.
Qed.
Lemma bi_paging_write c m : bi_type c = 0 -> paging (bi_id_type c) (bi_id c) -> (bi_k (bi_id_type c) + 1 <= length m)%nat ->
  bi_pack c m = Ok (packed (bi_fields 0 (bi_id_type c) 0 0 (bi_follows c) (bi_id c)) m).
Proof.
  intros H1 H2 L. destruct c as [ty it ack fb fo id v]. cbn [bi_type bi_id_type bi_id bi_follows] in *. subst ty.
  assert (Hb : it < 2 /\ id < (if it =? 0 then 65536 else 2 ^ 32)) by (unfold paging in H2; destruct H2 as [(-> & ?)|(-> & ?)]; cbn; lia). destruct Hb as (Hi & Hd).
  destruct (bi_fields_whole 0 it 0 0 fo id) as (W & E); try assumption; try lia.
  unfold bi_pack, bi_valid. cbn [bi_type bi_id_type bi_id bi_follows]. rewrite (enum_valid_lt 2 it) by lia. change (enum_valid 2 0) with true.
  assert (Id : (it =? 0) && (65535 <? id) = false) by (destruct (it =? 0); [cbn [andb]; apply N.ltb_ge; lia|reflexivity]). rewrite Id. cbn [andb negb N.eqb guard]. fold (bi_k it).
  assert (Hw : forall B (f : list N -> res B), (do m <- st m 0 (N.shiftl 0 5) ; do m <- orst m 0 (N.shiftl it 4) ; do m <- orst m 0 (N.b2n fo) ; do m <- wr_num (bi_k it) id m 1 ; f m) =
                                                f (packed (bi_fields 0 it 0 0 fo id) m)).
  { intros B f. unfold packed. rewrite E. unfold bi_fields, bi_k, wr_num in *. rewrite (bit_b2n fo). pose proof (bit_lt fo). set (x := bit fo) in *. clearbody x. clear - Hi Hd L H.
    assert (it = 0 \/ it = 1) as [-> | ->] by lia.
    - change (if 0 =? 0 then 65536 else 2 ^ 32) with 65536 in Hd. change (if 0 =? 0 then 16 else 32) with 16. change (if 0 =? 0 then 2%nat else 4%nat) with 2%nat in *. rewrite (fb_eq 3) by reflexivity. fbx.
      cbn [Nat.add] in *. cells m 3%nat. mcbn. f_equal. repeat first [reflexivity | apply f_equal2; [unfold u8; bits|]].
    - change (if 1 =? 0 then 65536 else 2 ^ 32) with 4294967296 in Hd. change (if 1 =? 0 then 16 else 32) with 32. change (if 1 =? 0 then 2%nat else 4%nat) with 4%nat in *. rewrite (fb_eq 5) by reflexivity. fbx.
      cbn [Nat.add] in *. cells m 5%nat. mcbn. f_equal. repeat first [reflexivity | apply f_equal2; [unfold u8; bits|]]. }
  cbv zeta. rewrite Hw. cbn [bind fst snd]. unfold packed at 1. rewrite bi_peek_raw by (try assumption; lia). cbn [bind N.eqb andb]. unfold bi_k. destruct (it =? 0); reflexivity.
Qed.
Lemma bi_response_write ack fb fo id m {B} (f : list N -> res B) : ack < 2 -> fb < 4 -> id < 65536 -> (3 <= length m)%nat ->
  (do m <- st m 0 (N.shiftl 1 5) ; do m <- orst m 0 (N.shiftl 0 4) ; do m <- orst m 0 (N.b2n fo) ; do m <- wr_num 2 id m 1 ;
   do m <- orst m 0 (N.shiftl ack 3) ; do m <- orst m 0 (N.shiftl fb 1) ; f m) = f (packed (bi_fields 1 0 ack fb fo id) m).
Proof.
  intros H1 H2 H3 L. unfold packed. change (nbytes _) with 3%nat. unfold bi_fields, wr_num in *. rewrite (bit_b2n fo). pose proof (bit_lt fo). set (x := bit fo) in *. clearbody x.
  change (if 0 =? 0 then 16 else 32) with 16. rewrite (fb_eq 3) by reflexivity. fbx. cells m 3%nat. mcbn. f_equal. repeat first [reflexivity | apply f_equal2; [unfold u8; bits|]].
Qed.
Lemma bi_pack_response c m : bi_type c = 1 -> bi_id_type c = 0 -> bi_id c < 65536 -> bi_ack c < 2 -> bi_feedback c < 4 -> feedback_valid (bi_feedback c) (bi_value c) = true -> (3 <= length m)%nat ->
  bi_pack c m = (do s <- put_feedback (bi_feedback c) (bi_value c) (packed (bi_fields 1 0 (bi_ack c) (bi_feedback c) (bi_follows c) (bi_id c)) m, 3%nat) ;
                 do p <- bi_peek (fst s) ;
                 guard (match p with Some n => n =? N.of_nat (snd s) | None => false end) (Ok (fst s))).
Proof.
  destruct c as [ty it ack fb fo id v]. cbn [bi_type bi_id_type bi_id bi_ack bi_feedback bi_value bi_follows]. intros -> -> H1 H2 H3 V L. unfold bi_pack, bi_valid.
  cbn [bi_type bi_id_type bi_id bi_ack bi_feedback bi_value bi_follows]. rewrite V, (enum_valid_lt 2 ack) by lia. replace (65535 <? id) with false by lia.
  change (enum_valid 2 1) with true. change (enum_valid 2 0) with true. change (0 =? 0) with true. change (1 =? 1) with true. cbn [andb negb guard].
  assert (R : forall m, (do s <- (do m0 <- orst m 0 (N.shiftl ack 3) ; do m0 <- orst m0 0 (N.shiftl fb 1) ; put_feedback fb v (m0, (2 + 1)%nat)) ; do p <- bi_peek (fst s) ;
                          guard (match p with Some n => n =? N.of_nat (snd s) | None => false end) (Ok (fst s))) =
                        (do m0 <- orst m 0 (N.shiftl ack 3) ; do m0 <- orst m0 0 (N.shiftl fb 1) ; do s <- put_feedback fb v (m0, 3%nat) ; do p <- bi_peek (fst s) ;
                          guard (match p with Some n => n =? N.of_nat (snd s) | None => false end) (Ok (fst s)))).
  { intros m0. destruct (orst m0 0 (N.shiftl ack 3)); cbn [bind]; [|reflexivity..]. destruct (orst _ 0 (N.shiftl fb 1)); reflexivity. }
  cbv zeta. rewrite <- (bi_response_write ack fb fo id m (fun m => do s <- put_feedback fb v (m, 3%nat) ; do p <- bi_peek (fst s) ;
                          guard (match p with Some n => n =? N.of_nat (snd s) | None => false end) (Ok (fst s)))) by assumption.
  destruct (st m 0 _) as [m1| | |]; cbn [bind]; [|reflexivity..]. destruct (orst m1 0 _) as [m2| | |]; cbn [bind]; [|reflexivity..].
  destruct (orst m2 0 _) as [m3| | |]; cbn [bind]; [|reflexivity..]. destruct (wr_num 2 id m3 1) as [m4| | |]; cbn [bind]; [|reflexivity..]. apply R.
Qed.
(** with a byte of feedback *)
Lemma bi_pack_feedback c m l : bi_type c = 1 -> bi_id_type c = 0 -> bi_id c < 65536 -> bi_ack c < 2 -> bi_feedback c < 4 -> bi_feedback c <> 0 -> feedback_valid (bi_feedback c) (bi_value c) = true ->
  (4 <= length m)%nat -> whole l -> nbytes l = 1%nat ->
  (forall h, whole h -> nbytes h = 3%nat -> put_feedback (bi_feedback c) (bi_value c) (packed h m, 3%nat) = Ok (packed (h ++ l) m, 4%nat)) ->
  bi_pack c m = Ok (packed (bi_fields 1 0 (bi_ack c) (bi_feedback c) (bi_follows c) (bi_id c) ++ l) m).
Proof.
  intros H1 H2 H3 H4 H5 H6 V L Wl Nl P. destruct (bi_fields_whole 1 0 (bi_ack c) (bi_feedback c) (bi_follows c) (bi_id c)) as (W & E); try (assumption || (cbn; lia)). rewrite bi_pack_response by (auto; lia).
  rewrite P by (auto; exact E). cbn [bind fst snd]. unfold packed at 1. rewrite fb_app, <- app_assoc by assumption. rewrite bi_peek_raw by (try assumption; cbn; lia). cbn [bind].
  destruct (N.eqb_spec (bi_feedback c) 0); [contradiction|]. reflexivity.
Qed.
Lemma put_byte (w : list N -> nat -> res (list N)) l m h : writer w l -> whole l -> nbytes l = 1%nat -> whole h -> nbytes h = 3%nat -> (4 <= length m)%nat ->
  w (packed h m) 3%nat = Ok (packed (h ++ l) m).
Proof.
  intros Wr Wl Nl Wh Nh L. destruct (put_at (Some tt) (fun _ => w) 1 (fun _ => l) m h) as (G & _ & _); [auto|exact Wh|cbn [opt_size]; lia|]. cbn [put fst snd field_opt] in G. rewrite Nh in G.
  destruct (w (packed h m) 3%nat); try discriminate. cbn [bind] in G. congruence.
Qed.

(** Paging: only the type and the identity are sent. *)
Theorem C28_broadcast_paging : forall c, bi_type c = 0 -> paging (bi_id_type c) (bi_id c) -> exists n, bi_size c = Ok n /\ forall m, (n <= length m)%nat ->
  exists m', bi_pack c m = Ok m' /\ writes n m m' (bi_fields 0 (bi_id_type c) 0 0 (bi_follows c) (bi_id c)) /\
    forall b tail, bi_peek (firstn n m' ++ b :: tail) = Ok (Some (N.of_nat n)) /\
      bi_unpack (firstn n m' ++ b :: tail) = Ok (mkBi 0 (bi_id_type c) UNDEF32 UNDEF32 (bi_follows c) (bi_id c) No_value, true).
Proof.
  intros c H1 H2. assert (Hb : bi_id_type c < 2 /\ bi_id c < (if bi_id_type c =? 0 then 65536 else 2 ^ 32)) by (unfold paging in H2; destruct H2 as [(-> & ?)|(-> & ?)]; cbn; lia). destruct Hb as (Hi & Hd).
  destruct (bi_fields_whole 0 (bi_id_type c) 0 0 (bi_follows c) (bi_id c)) as (W & E); try assumption; try lia. exists (bi_k (bi_id_type c) + 1)%nat. split.
  - unfold bi_size, bi_valid. rewrite H1, (enum_valid_lt 2 (bi_id_type c)) by lia. change (enum_valid 2 0) with true.
    assert (Id : (bi_id_type c =? 0) && (65535 <? bi_id c) = false) by (destruct (bi_id_type c =? 0); [cbn [andb]; apply N.ltb_ge; lia|reflexivity]). rewrite Id. cbn [andb negb N.eqb guard]. unfold bi_k.
    destruct (bi_id_type c =? 0); reflexivity.
  - intros m L. exists (packed (bi_fields 0 (bi_id_type c) 0 0 (bi_follows c) (bi_id c)) m). split; [now apply bi_paging_write|]. split; [rewrite <- E; apply packed_writes; [exact W|lia]|].
    intros b tail. rewrite <- E, firstn_packed. split.
    + rewrite bi_peek_raw by (try assumption; lia). cbn [N.eqb andb]. rewrite E. unfold bi_k. destruct (bi_id_type c =? 0); reflexivity.
    + rewrite bi_unpack_raw by (try assumption; lia). reflexivity.
Qed.
(** Random access response without feedback. *)
Theorem C28_broadcast_response : forall c m, bi_type c = 1 -> bi_id_type c = 0 -> bi_id c < 65536 -> bi_ack c < 2 -> bi_feedback c = 0 -> (3 <= length m)%nat ->
  bi_size c = Ok 3%nat /\
  exists m', bi_pack c m = Ok m' /\ writes 3 m m' (bi_fields 1 0 (bi_ack c) 0 (bi_follows c) (bi_id c)) /\
    forall b tail, bi_peek (firstn 3 m' ++ b :: tail) = Ok (Some 3) /\
      bi_unpack (firstn 3 m' ++ b :: tail) = Ok (mkBi 1 0 (bi_ack c) 0 (bi_follows c) (bi_id c) No_value, true).
Proof.
  intros c m H1 H2 H3 H4 H5 L. split.
  { unfold bi_size, bi_valid. rewrite H1, H2, H5, (enum_valid_lt 2 (bi_ack c)) by lia. replace (65535 <? bi_id c) with false by lia. reflexivity. }
  destruct (bi_fields_whole 1 0 (bi_ack c) 0 (bi_follows c) (bi_id c)) as (W & E); try (assumption || (cbn; lia)). set (l := bi_fields 1 0 (bi_ack c) 0 (bi_follows c) (bi_id c)) in *.
  exists (packed l m). split.
  - rewrite bi_pack_response by (rewrite ?H5; auto; lia). rewrite H5. cbn [put_feedback bind fst snd]. fold l. unfold packed at 1. unfold l at 1. rewrite bi_peek_raw by (try assumption; cbn; lia). reflexivity.
  - change 3%nat with (nbytes l) at 1 2 3. split; [apply packed_writes; [exact W|exact L]|]. intros b tail. rewrite firstn_packed. unfold l. split.
    + rewrite bi_peek_raw by (try assumption; cbn; lia). reflexivity.
    + rewrite bi_unpack_raw by (try assumption; cbn; lia). reflexivity.
Qed.
(** With the channel quality it is sent as the standard has it, but received as the feedback of two antennas, or the
    receiver aborts. *)
Theorem C28_broadcast_quality_refuted : forall c m q, bi_type c = 1 -> bi_id_type c = 0 -> bi_id c < 65536 -> bi_ack c < 2 -> bi_feedback c = 1 -> bi_value c = Mcs q -> 1 <= q <= 12 ->
  (4 <= length m)%nat ->
  exists m', bi_pack c m = Ok m' /\ writes 4 m m' (bi_fields 1 0 (bi_ack c) 1 (bi_follows c) (bi_id c) ++ [(4, 0); (4, q)]) /\
    forall tail, bi_unpack (firstn 4 m' ++ tail) =
      if q <=? 5 then Ok (mkBi 1 0 (bi_ack c) 2 (bi_follows c) (bi_id c) (Mimo 0 q), true)
      else if (8 <=? q) && (q <=? 10) then Ok (mkBi 1 0 (bi_ack c) 2 (bi_follows c) (bi_id c) (Mimo 1 (q - 8)), true) else Abort.
Proof.
  intros c m q H1 H2 H3 H4 H5 H6 Hq L. set (l := [(4, 0); (4, q)]). assert (Wl : whole l) by (split; [unfold l; fit_tac|reflexivity]).
  destruct (bi_fields_whole 1 0 (bi_ack c) 1 (bi_follows c) (bi_id c)) as (W & E); try (assumption || (cbn; lia)). set (h := bi_fields 1 0 (bi_ack c) 1 (bi_follows c) (bi_id c)) in *.
  assert (Wr : writer (fun m i => st m i q) l).
  { intros pre rest Lr. change (nbytes l) with 1%nat in *. unfold l. rewrite st_app0, (fb_eq 1) by reflexivity. fbx. cells rest 1%nat. mcbn. rewrite behind_ok. cells_eq. }
  assert (Whl : whole (h ++ l)) by now apply whole_app. exists (packed (h ++ l) m). split.
  - rewrite (bi_pack_feedback c m l); try (assumption || reflexivity || lia || (rewrite H5; lia)).
    + rewrite H5. reflexivity.
    + rewrite H5, H6. cbn [feedback_valid]. apply enum_valid_lower_lt; lia.
    + intros h' Wh' Nh'. rewrite H5, H6. cbn [put_feedback fst snd]. rewrite (put_byte (fun m i => st m i q) l m h' Wr Wl eq_refl Wh' Nh' L). reflexivity.
  - split; [change 4%nat with (nbytes (h ++ l)); apply packed_writes; [exact Whl|exact L]|]. intros tail. change 4%nat with (nbytes (h ++ l)). rewrite firstn_packed, fb_app, <- app_assoc by assumption.
    assert (Fl : field_bytes l = [q]) by (unfold l; rewrite (fb_eq 1) by reflexivity; fbx; f_equal; unfold u8; bits). rewrite Fl. cbn [app]. unfold h.
    rewrite bi_unpack_raw by (try assumption; cbn; lia). cbn [N.eqb Pos.eqb andb]. generalize (bi_ack c) (bi_follows c) (bi_id c). intros x y z. clear - Hq.
    assert (q = 1 \/ q = 2 \/ q = 3 \/ q = 4 \/ q = 5 \/ q = 6 \/ q = 7 \/ q = 8 \/ q = 9 \/ q = 10 \/ q = 11 \/ q = 12) as D by lia.
    repeat destruct D as [-> | D]; try subst q; reflexivity.
Qed.
(** With the feedback of two or four antennas it is sent as the standard has it, but the receiver aborts. *)
Theorem C28_broadcast_mimo_refuted : forall c m layers index, bi_type c = 1 -> bi_id_type c = 0 -> bi_id c < 65536 -> bi_ack c < 2 -> bi_value c = Mimo layers index ->
  (bi_feedback c = 2 /\ mimo_ok 2 layers index \/ bi_feedback c = 3 /\ mimo_ok 4 layers index) -> (4 <= length m)%nat ->
  exists m', bi_pack c m = Ok m' /\
    writes 4 m m' (bi_fields 1 0 (bi_ack c) (bi_feedback c) (bi_follows c) (bi_id c) ++
                   (if bi_feedback c =? 2 then [(4, 0); (1, layers); (3, index)] else [(2, layers); (6, index)])) /\
    forall tail, bi_unpack (firstn 4 m' ++ tail) = Abort.
Proof.
  intros c m layers index H1 H2 H3 H4 H5 H6 L. assert (Hf : 2 <= bi_feedback c < 4) by lia.
  set (l := if bi_feedback c =? 2 then [(4, 0); (1, layers); (3, index)] else [(2, layers); (6, index)]).
  set (w := fun m i => do m <- st m i (N.shiftl layers (if bi_feedback c =? 2 then 3 else 6)) ; orst m i index).
  assert (Q : whole l /\ nbytes l = 1%nat /\ writer w l /\ feedback_valid (bi_feedback c) (bi_value c) = true /\ exists b, field_bytes l = [b]).
  { unfold l, w. rewrite H5. clear - H6. destruct H6 as [(-> & M)|(-> & M)]; unfold mimo_ok in M.
    - change (2 =? 2) with true. cbv iota. assert (layers < 2 /\ index < 8) as (Hl & Hi) by lia. split; [split; [fit_tac|reflexivity]|]. split; [reflexivity|]. split; [|split; [|now eexists]].
      + intros pre rest Lr. change (nbytes _) with 1%nat in *. rewrite st_app0, bind_behind, (fb_eq 1) by reflexivity. fbx. cells rest 1%nat. mcbn. rewrite orst_app0. mcbn. rewrite behind_ok. cells_eq.
      + cbn [feedback_valid]. lia.
    - change (3 =? 2) with false. cbv iota. assert (layers < 4 /\ index < 64) as (Hl & Hi) by lia. split; [split; [fit_tac|reflexivity]|]. split; [reflexivity|]. split; [|split; [|now eexists]].
      + intros pre rest Lr. change (nbytes _) with 1%nat in *. rewrite st_app0, bind_behind, (fb_eq 1) by reflexivity. fbx. cells rest 1%nat. mcbn. rewrite orst_app0. mcbn. rewrite behind_ok. cells_eq.
      + cbn [feedback_valid]. lia. }
  destruct Q as (Wl & Nl & Wr & V & b & Fb). clearbody l. set (h := bi_fields 1 0 (bi_ack c) (bi_feedback c) (bi_follows c) (bi_id c)).
  assert (W : whole h /\ nbytes h = 3%nat) by (apply bi_fields_whole; try (assumption || (cbn; lia))). destruct W as (W & E). assert (Whl : whole (h ++ l)) by now apply whole_app.
  assert (Nhl : nbytes (h ++ l) = 4%nat) by (rewrite nbytes_app by assumption; lia). exists (packed (h ++ l) m). split.
  - apply (bi_pack_feedback c m l); try (assumption || lia). intros h' Wh' Nh'. rewrite H5.
    assert (P : put_feedback (bi_feedback c) (Mimo layers index) (packed h' m, 3%nat) = (do m <- w (packed h' m) 3%nat ; Ok (m, 4%nat))).
    { unfold w. clear - H6. destruct H6 as [(-> & _)|(-> & _)]; cbn [put_feedback fst snd N.eqb Pos.eqb]; destruct (st _ _ _); reflexivity. }
    rewrite P, (put_byte w l m h' Wr Wl Nl Wh' Nh' L). reflexivity.
  - split; [rewrite <- Nhl; apply packed_writes; [exact Whl|lia]|]. intros tail. rewrite <- Nhl, firstn_packed, fb_app, <- app_assoc by assumption. rewrite Fb. cbn [app]. unfold h.
    rewrite bi_unpack_raw by (try assumption; cbn; lia). replace (bi_feedback c =? 0) with false by lia. replace (bi_feedback c =? 1) with false by lia. reflexivity.
Qed.
(** What the sender accepts *)
Definition bi_ok (c : broadcast_indication) : Prop :=
  bi_type c = 0 /\ paging (bi_id_type c) (bi_id c) \/
  bi_type c = 1 /\ bi_id_type c = 0 /\ bi_id c < 65536 /\ bi_ack c < 2 /\
    match bi_value c with
    | Mcs q => bi_feedback c = 0 \/ bi_feedback c = 1 /\ 1 <= q <= 12
    | Mimo layers index => bi_feedback c = 0 \/ bi_feedback c = 2 /\ mimo_ok 2 layers index \/ bi_feedback c = 3 /\ mimo_ok 4 layers index
    | No_value => bi_feedback c = 0
    end.
Theorem C28_broadcast_invalid_aborts : forall c m, enumerator 2 (bi_type c) -> enumerator 2 (bi_id_type c) -> enumerator 2 (bi_ack c) -> enumerator 4 (bi_feedback c) -> bi_id c < 2 ^ 32 ->
  match bi_value c with Mcs q => enumerator 13 q | Mimo layers _ => enumerator 3 layers | No_value => True end ->
  ~ bi_ok c -> bi_pack c m = Abort /\ bi_size c = Abort.
Proof.
  intros c m E1 E2 E3 E4 H5 E6 O. unfold bi_pack, bi_size. destruct (bi_valid c) eqn:V; [|split; reflexivity]. exfalso. apply O. clear O. unfold bi_valid in V. rewrite !andb_true_iff in V.
  destruct V as (((V1 & V2) & V3) & V4). assert (T : bi_type c < 2) by (unfold enum_valid, enumerator, UNDEF32 in *; lia). assert (I : bi_id_type c < 2) by (unfold enum_valid, enumerator, UNDEF32 in *; lia).
  unfold bi_ok, paging. assert (bi_type c = 0 \/ bi_type c = 1) as [Et | Et] by lia; [left|right]; rewrite Et in *.
  - split; [reflexivity|]. lia.
  - change (1 =? 1) with true in V4. cbv iota in V4. rewrite !andb_true_iff in V4. destruct V4 as ((V4 & V5) & V6). split; [reflexivity|]. split; [lia|]. split; [lia|]. split; [unfold enum_valid, enumerator, UNDEF32 in *; lia|].
    unfold enumerator in E4. assert (bi_feedback c = 0 \/ bi_feedback c = 1 \/ bi_feedback c = 2 \/ bi_feedback c = 3 \/ 4 <= bi_feedback c) as [F | [F | [F | [F | F]]]] by lia.
    + rewrite F. destruct (bi_value c); auto.
    + rewrite F in *. cbn [feedback_valid] in V6. destruct (bi_value c) as [|q|]; try discriminate. right. split; [reflexivity|]. unfold enum_valid_lower, enumerator, UNDEF32 in *. lia.
    + rewrite F in *. cbn [feedback_valid] in V6. destruct (bi_value c) as [| |a b]; try discriminate. right. left. split; [reflexivity|]. unfold mimo_ok. lia.
    + rewrite F in *. cbn [feedback_valid] in V6. destruct (bi_value c) as [| |a b]; try discriminate. right. right. split; [reflexivity|]. unfold mimo_ok. lia.
    + exfalso. assert (feedback_valid (bi_feedback c) (bi_value c) = false); [|congruence]. destruct (bi_feedback c) as [|[p|p|]]; try lia; destruct p; try reflexivity; lia.
Qed.
(** Every received byte string: the first byte has a type, an identity type, an acknowledgement, a kind of feedback and a
    flag. For a reserved type the number of bytes peeked is 0xFFFFFFFF. *)
Theorem C28_broadcast_received : forall m, bytes m -> (6 <= length m)%nat ->
  exists n ty it ack fb fo id b, spells n m (bi_fields ty it ack fb fo id) /\ nth_error m n = Some b /\
    (ty = 0 -> bi_peek m = Ok (Some (N.of_nat n)) /\ bi_unpack m = Ok (mkBi 0 it UNDEF32 UNDEF32 fo id No_value, true)) /\
    (ty = 1 -> bi_peek m = Ok (Some (N.of_nat n + if fb =? 0 then 0 else 1))) /\
    (ty = 1 -> it = 0 -> fb = 0 -> bi_unpack m = Ok (mkBi 1 0 ack 0 fo id No_value, true)) /\
    (ty = 1 -> it = 0 -> fb = 1 -> forall x l k, spells 1 [b] [(4, x); (1, l); (3, k)] ->
       (mimo_ok 2 l k -> bi_unpack m = Ok (mkBi 1 0 ack 2 fo id (Mimo l k), true)) /\ (~ mimo_ok 2 l k -> bi_unpack m = Abort)) /\
    (ty = 1 -> it = 1 \/ 2 <= fb -> bi_unpack m = Abort) /\
    (2 <= ty -> bi_peek m = Ok (Some 4294967295) /\ bi_unpack m = Abort).
Proof.
  intros m B L. assert (Bm := B). destruct (parse_head [3; 1; 1; 2; 1] 1 m B eq_refl ltac:(lia)) as (h & m1 & W & Wh & B1 & E).
  destruct h as [|(?, ty) [|(?, it) [|(?, ack) [|(?, fb) [|(?, f) [|? ?]]]]]]; try discriminate. cbn [map fst] in W. injection W as -> -> -> -> ->.
  pose proof (whole_fits _ Wh) as Fh. fit_hyp. change (2 ^ 3) with 8 in Fh. change (2 ^ 1) with 2 in Fh. change (2 ^ 2) with 4 in Fh. destruct Fh as (F1 & F2 & F3 & F4 & F5 & _).
  assert (L1 : length m = (1 + length m1)%nat) by (rewrite E, app_length, fb_length; reflexivity). set (wd := if it =? 0 then 16 else 32).
  destruct (parse_head [wd] (bi_k it) m1 B1) as (h & m2 & W & Wh2 & B2 & E2).
  { unfold wd, bi_k. destruct (it =? 0); reflexivity. } { unfold bi_k. destruct (it =? 0); lia. }
  destruct h as [|(?, id) [|? ?]]; try discriminate. cbn [map fst] in W. injection W as ->.
  pose proof (whole_fits _ Wh2) as Fh. fit_hyp. destruct Fh as (F6 & _). assert (F6' : id < (if it =? 0 then 65536 else 2 ^ 32)) by (unfold wd in F6; destruct (it =? 0); exact F6).
  assert (L2 : length m1 = (bi_k it + length m2)%nat) by (rewrite E2, app_length, fb_length; unfold wd, bi_k; destruct (it =? 0); reflexivity).
  destruct m2 as [|b t]; [cbn [length] in L2; unfold bi_k in L2; destruct (it =? 0); lia|]. assert (Hb : b < 256) by now inversion B2.
  set (fo := f =? 1). destruct (bi_fields_whole ty it ack fb fo id F1 F2 F3 F4 F6') as (W & En).
  assert (Em : m = field_bytes (bi_fields ty it ack fb fo id) ++ b :: t).
  { rewrite E, E2. change (bi_fields ty it ack fb fo id) with ([(3, ty); (1, it); (1, ack); (2, fb); (1, bit fo)] ++ [(wd, id)]).
    replace (bit fo) with f by (unfold fo; destruct (N.eqb_spec f 1); cbn [bit]; lia). rewrite fb_app, <- app_assoc by assumption. reflexivity. }
  exists (bi_k it + 1)%nat, ty, it, ack, fb, fo, id, b. rewrite Em. split; [rewrite <- En; now apply fb_spells|]. split.
  { rewrite nth_error_app2 by (rewrite fb_length; lia). rewrite fb_length, En, Nat.sub_diag. reflexivity. }
  rewrite bi_unpack_raw by assumption. split; [|split; [|split; [|split; [|split]]]].
  - intros ->. rewrite bi_peek_raw by (try assumption; lia). cbn [N.eqb andb]. unfold bi_k. destruct (it =? 0); split; reflexivity.
  - intros ->. rewrite bi_peek_raw by (try assumption; lia). change (1 =? 1) with true. cbn [andb]. unfold bi_k. destruct (it =? 0), (fb =? 0); reflexivity.
  - intros -> -> ->. reflexivity.
  - intros -> -> -> x l k Sp. change (1 =? 0) with false. change (1 =? 1) with true. change (0 =? 0) with true. cbn [andb]. cbv zeta iota.
    destruct (spells_fb 1 [b] _ Sp) as (Wb & _ & Eb); [constructor; [exact Hb|constructor]|]. pose proof (whole_fits _ Wb) as Fh. fit_hyp. change (2 ^ 4) with 16 in Fh. change (2 ^ 1) with 2 in Fh. change (2 ^ 3) with 8 in Fh.
    destruct Fh as (G1 & G2 & G3 & _). cbn [skipn] in Eb. rewrite app_nil_r, (fb_eq 1) in Eb by reflexivity. assert (N.land (N.shiftr b 3) 1 = l /\ N.land b 7 = k) as (-> & ->).
    { clear - Eb G1 G2 G3. unfold cat_fields in Eb. cbn [fold_left fst snd le_bytes rev app] in Eb. injection Eb as ->. split; unfold u8; bits. }
    cbn [feedback_valid]. unfold mimo_ok. split; intros M.
    + match goal with |- (if ?c then _ else _) = _ => replace c with true by lia end. reflexivity.
    + match goal with |- (if ?c then _ else _) = _ => replace c with false by lia end. reflexivity.
  - intros -> D. change (1 =? 0) with false. change (1 =? 1) with true. cbn [andb]. destruct D as [-> | D]; [reflexivity|]. replace (fb =? 0) with false by lia. replace (fb =? 1) with false by lia. rewrite !andb_false_r. reflexivity.
  - intros D. replace (ty =? 0) with false by lia. replace (ty =? 1) with false by lia. cbn [andb]. split; [|reflexivity].
    destruct (bi_read ty it ack fb fo id F1 F2 F3 F4 F6') as (b0 & u & -> & _ & E1 & _). unfold bi_peek. cbn [app]. mcbn. rewrite E1. destruct (N.leb_spec 2 ty); [reflexivity|lia].
Qed.

Print Assumptions C28_rd_capability.
Print Assumptions C28_rd_capability_invalid_aborts.
Print Assumptions C28_rd_capability_received.
Print Assumptions C28_rx_gain.
Print Assumptions C28_rx_gain_index.
Print Assumptions C28_neighbouring_not_sent_refuted.
Print Assumptions C28_neighbouring_optional_throws.
Print Assumptions C28_neighbouring_received.
Print Assumptions C28_broadcast_paging.
Print Assumptions C28_broadcast_response.
Print Assumptions C28_broadcast_quality_refuted.
Print Assumptions C28_broadcast_mimo_refuted.
Print Assumptions C28_broadcast_invalid_aborts.
Print Assumptions C28_broadcast_received.

(** ** The hypotheses are satisfiable *)
Definition pc_sample : phy_capability := mkPc 2 3 1 8 9 7 3 6.
Example cap_ex : let c := mkCap [mkAd 3 5 pc_sample; mkAd 0 1 pc_sample] 2 1 true false 1 4 pc_sample in
  cap_ok c /\ cap_pack c (repeat 9 18) = Ok [66; 6; 48; 45; 137; 124; 96; 106; 45; 137; 124; 96; 2; 45; 137; 124; 96; 9].
Proof. split; [|reflexivity]. unfold cap_ok, ad_ok, pc_ok. cbn. repeat split; try lia. repeat constructor; cbn; lia. Qed.
Example gain_ex : get_rx_gain_dB (set_rx_gain (-5)) = Some (-4)%Z /\ get_rx_gain_dB (set_rx_gain (-40)) = Some (-10)%Z /\ get_rx_gain_dB (set_rx_gain 20) = Some 6%Z.
Proof. repeat split. Qed.
Example ng_ex : let c := mkNg 258 true 0 3 (Some 1680) None (Some 7) None (Some (1, 2)) in
  ng_ok c /\ ng_valid c = Ok true /\ ng_pack c (repeat 9 12) = Abort /\ ng_pack (mkNg 258 true 0 3 (Some 1680) None (Some 7) None None) (repeat 9 12) = Throw /\
  ng_peek [1; 2; 46; 3; 6; 144; 7; 36] = Ok (Some 10%nat) /\ ng_unpack [1; 2; 46; 3; 6; 144; 7; 36; 0; 0] = Ok (c, true).
Proof.
  split; [|repeat split]. unfold ng_ok. cbn. repeat split; try lia. apply channel_range. reflexivity.
Qed.
Example bi_ex : paging 1 66051 /\ bi_pack (mkBi 0 1 0 0 true 66051 No_value) (repeat 9 6) = Ok [17; 0; 1; 2; 3; 9] /\
  bi_pack (mkBi 1 0 1 1 false 258 (Mcs 5)) (repeat 9 6) = Ok [42; 1; 2; 5; 9; 9] /\ bi_unpack [42; 1; 2; 5] = Ok (mkBi 1 0 1 2 false 258 (Mimo 0 5), true) /\
  mimo_ok 4 1 21 /\ bi_pack (mkBi 1 0 1 3 false 258 (Mimo 1 21)) (repeat 9 6) = Ok [46; 1; 2; 85; 9; 9] /\ bi_unpack [46; 1; 2; 85] = Abort /\
  bi_peek [64; 1; 2] = Ok (Some 4294967295) /\ bi_unpack [64; 1; 2] = Abort.
Proof. unfold paging, mimo_ok. repeat split; try lia; reflexivity. Qed.
