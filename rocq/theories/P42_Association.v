(** C27: the association and reconfiguration messages. *)
From Coq Require Import Sorted.
From Verif Require Import Base Bytes WireSpec BitSolve ByteFacts Fields MacHeader Channels ChannelsSpec IeBase Beacons BeaconsSpec IeFacts IeCursor IeLists IeListFacts
  ResourceIes ResourceIesFacts RandomAccessFacts AssociationIes AssociationSpec AssociationFacts ReconfFacts P41_ResourceIes.
Open Scope N_scope.

(** ** Association request *)
(** A valid request occupies exactly the announced bytes in the layout of the standard and a receiver peeks this size.
    Unpacking returns the request, unless it carries an FT configuration with a network beacon period other than the
    first: then the receiver aborts. *)
Theorem C27_request : forall c, aq_ok c -> ascending (aq_flows c) ->
  exists n, aq_size c = Ok n /\ forall m, (n <= length m)%nat ->
  exists m', aq_pack c m = Ok m' /\ writes n m m' (aq_fields c (sent (aq_flows c)) 0 0 0) /\
  forall tail, aq_peek (firstn n m' ++ tail) = Ok (Some n) /\
    aq_unpack (firstn n m' ++ tail) = match aq_ft c with Some f => if ft_nbp f =? 0 then Ok (c, true) else Abort | None => Ok (c, true) end.
Proof.
  intros c O S1. pose proof (aq_ok_raw c O S1) as K. assert (Ls : length (sent (aq_flows c)) = length (aq_flows c)) by apply map_length.
  exists (aq_len c (length (aq_flows c))). split; [unfold aq_size; rewrite (aq_valid_ok c O); reflexivity|]. intros m L.
  rewrite (aq_pack_raw c m O S1 L). eexists. split; [reflexivity|]. pose proof (aq_nbytes _ _ _ _ _ K) as E. rewrite Ls in E. split.
  - rewrite <- E. apply packed_writes; [now apply aq_whole|lia].
  - intros tail. rewrite <- E at 1 3. rewrite firstn_packed. split.
    + rewrite aq_fields_eq. destruct (aq_parts _ _ _ _ _ K) as (W0 & W1 & W2 & W3). rewrite fb_app, <- app_assoc by auto 10 using whole_app.
      destruct K as (K & _). rewrite aq_peek_head by exact K. rewrite Ls. pose proof (flows_few _ (proj1 (proj2 (proj2 O))) S1).
      destruct (N.ltb_spec (N.of_nat (length (aq_flows c))) 7); [|lia]. do 2 f_equal. unfold aq_len. rewrite ?Nat2N.id. lia.
    + destruct (aq_receive c (sent (aq_flows c)) 0 0 0 tail K) as (R1 & R2). rewrite (aq_with_sent c S1), sent_snd in *.
      assert (D : NoDup (aq_flows c)). { rewrite <- (map_id (aq_flows c)). apply asc_nodup. now apply asc_ascending. }
      destruct (aq_ft c) as [f|] eqn:Ef; cbn [if_present] in *; [|now apply R1]. destruct (N.eqb_spec (ft_nbp f) 0); [apply R1; auto|apply R2; tauto].
Qed.
(** A request with a field out of its range is not sent. Enumerations hold one of their enumerators. *)
Theorem C27_request_invalid_aborts : forall c m, enumerator 7 (aq_cause c) -> Forall (enumerator 7) (aq_flows c) -> enumerator 31 (hq_delay (aq_tx c)) -> enumerator 31 (hq_delay (aq_rx c)) ->
  if_present (fun f => enumerator 7 (ft_nbp f) /\ enumerator 11 (ft_cbp f) /\ ft_time_to_next f < 2 ^ 32) (aq_ft c) -> ~ aq_ok c -> aq_pack c m = Abort.
Proof.
  intros c m E1 E2 E3 E4 E5 O. unfold aq_pack. destruct (aq_valid c) eqn:V; [|reflexivity]. exfalso. apply O. clear O.
  unfold aq_valid in V. rewrite !andb_true_iff, negb_true_iff, orb_false_iff, negb_false_iff in V.
  rewrite (opt_all_if channel_in_range channel _ channel_range) in V. destruct V as (((((V1 & V2 & V3) & V4) & V5) & V6) & V7).
  unfold enumerator, UNDEF32 in *. assert (Hv : forall h, hq_valid h = true -> hq_delay h <= 31 \/ hq_delay h = 4294967295 -> hq_ok h).
  { intros h. unfold hq_valid, hq_ok, enum_valid, UNDEF32. lia. }
  unfold aq_ok. repeat split; auto.
  - unfold enum_valid, UNDEF32 in V1. lia.
  - destruct (aq_flows c); [discriminate|congruence].
  - rewrite Forall_forall in *. intros i Hi. rewrite forallb_forall in V3. specialize (V3 i Hi). specialize (E2 i Hi). unfold enum_valid_lower, UNDEF32 in V3. unfold flow_ok. lia.
  - destruct (aq_ft c) as [f|]; [|exact I]. cbn [opt_all if_present] in *. unfold ft_valid in V4. rewrite !andb_true_iff in V4. destruct V4 as ((Va & Vb) & Vc).
    unfold enum_valid, UNDEF32 in Va, Vb. apply channel_range in Vc. unfold ft_ok. repeat split; auto; lia.
  - apply Hv; [assumption|]. tauto.
  - apply Hv; [assumption|]. tauto.
  - apply Hv; [assumption|]. tauto.
  - apply Hv; [assumption|]. tauto.
Qed.
(** Received bytes: with the peeked number of bytes there, nothing else is read. The request is accepted if it is
    valid, lists no flow twice and has no network beacon period but the first; anything else aborts. *)
Theorem C27_request_received : forall m n, bytes m -> aq_peek m = Ok (Some n) -> (n <= length m)%nat ->
  aq_unpack (firstn n m) = aq_unpack m /\
  exists c fl r1 r2 r3, spells n m (aq_fields c fl r1 r2 r3) /\ ascending (aq_flows c) /\ same_elements (aq_flows c) (map snd fl) /\
    let good := aq_ok c /\ NoDup (map snd fl) /\ if_present (fun f => ft_nbp f = 0) (aq_ft c) in
    (good -> aq_unpack m = Ok (c, true)) /\ (~ good -> aq_unpack m = Abort).
Proof.
  intros m n B P L. destruct (aq_parse m n B P L) as (c & fl & r1 & r2 & r3 & t & K & -> & ->).
  pose proof (aq_nbytes _ _ _ _ _ K) as E. split.
  - rewrite <- E, prefix_fields. rewrite !(aq_unpack_raw _ _ _ _ _ _ K). reflexivity.
  - exists (aq_with c fl), fl, r1, r2, r3. split; [rewrite <- E; apply fb_spells; now apply aq_whole|]. split; [|split].
    + apply asc_ascending. cbn [aq_with aq_flows]. apply set_asc.
    + intros x. cbn [aq_with aq_flows]. pose proof (set_key (fun x : N => x) (map snd fl) x) as S1. rewrite !map_id in S1. exact S1.
    + destruct (aq_receive c fl r1 r2 r3 t K) as (R1 & R2). cbn [aq_with aq_ft]. split; intros G; [apply R1; tauto|apply R2; tauto].
Qed.
(** The reserved number of flows is refused by the peek. *)
Theorem C27_request_reserved : forall m b, ld m 0 = Ok b -> N.land (N.shiftr b 2) 7 = 7 <-> aq_peek m = Ok None.
Proof.
  intros m b D. unfold aq_peek. rewrite D. cbn [bind]. assert (H : N.land (N.shiftr b 2) 7 < 8) by (change 7 with (N.ones 3); rewrite N.land_ones; change (2 ^ 3) with 8; lia).
  set (k := N.land (N.shiftr b 2) 7) in *. clearbody k. destruct (N.ltb_spec k 7); [|split; [reflexivity|intros; lia]]. split; [lia|]. destruct (ld m 1); discriminate.
Qed.

(** ** Association response *)
(** A rejection is two bytes, and unpacking returns it. *)
Theorem C27_response_reject : forall c cause time, ar_rejection c cause time ->
  ar_size c = Ok 2%nat /\ forall m, (2 <= length m)%nat ->
  exists m', ar_pack c m = Ok m' /\ writes 2 m m' [(1, 0); (7, 0); (4, cause); (4, time)] /\
  forall tail, ar_peek (firstn 2 m' ++ tail) = Ok (Some 2%nat) /\
  exists c', ar_unpack (firstn 2 m' ++ tail) = Ok (c', true) /\ ar_reject c' = Some (mkRj cause time) /\
    ar_harq c' = None /\ ar_flows c' = [] /\ ar_group c' = None /\ ar_power c' = false.
Proof.
  intros c cause time (R & H1 & H2). unfold ar_size, ar_pack, ar_valid. rewrite R. cbn [rj_cause rj_time is_some].
  rewrite !enum_valid_lt by lia. cbn [andb guard]. split; [reflexivity|]. intros m L.
  destruct m as [|x0 [|x1 m]]; [cbn in L; lia|cbn in L; lia|]. mcbn. unfold ar_peek. mcbn. rewrite ar_rejected_always. cbn [Nat.eqb guard].
  eexists. split; [reflexivity|]. split.
  - writes_tac.
  - intros tail. cbn [firstn app]. mcbn. rewrite ar_rejected_always. split; [reflexivity|]. unfold ar_unpack. mcbn. rewrite ar_rejected_always.
    replace (N.shiftr _ 4) with cause by (unfold u8; bits). replace (N.land _ 15) with time by (unfold u8; bits). rewrite !coded_id by lia.
    unfold ar_size, ar_valid. cbn [ar_reject is_some rj_cause rj_time]. rewrite !enum_valid_lt by lia. cbn [andb guard bind Nat.eqb]. eexists. split; [reflexivity|]. repeat split.
Qed.
(** An acceptance cannot be sent unless all it carries is one flow; then the receiver takes it for a rejection. *)
Theorem C27_response_accept : forall c, ar_acceptance_ok c -> ascending (ar_flows c) ->
  exists n, ar_size c = Ok n /\ forall m, (n <= length m)%nat ->
  (n <> 2%nat -> ar_pack c m = Abort) /\
  (n = 2%nat -> exists i m', ar_flows c = [i] /\ ar_harq c = None /\ ar_group c = None /\ ar_pack c m = Ok m' /\
    writes 2 m m' [(1, 1); (1, 0); (1, 0); (3, ar_accepted c); (1, 0); (1, bit (ar_power c)); (2, 0); (6, i)] /\
    forall tail, exists c', ar_unpack (firstn 2 m' ++ tail) = Ok (c', true) /\ ar_reject c' = Some (mkRj 0 i) /\ ar_flows c' = []).
Proof.
  intros c O S1. pose proof O as (H0 & H1 & H2 & H3 & H4). pose proof (flows_few _ H3 S1) as Few.
  assert (Hc : ar_code c < 8) by (unfold ar_code; destruct (N.eqb_spec (ar_accepted c) 1); destruct H2 as [H2|[H2|H2]]; lia).
  assert (V : ar_valid c = true).
  { destruct (ar_valid c) eqn:V; [reflexivity|]. exfalso. set (buf := repeat 0 (1 + opt_size (ar_harq c) 2 + length (ar_flows c) + opt_size (ar_group c) 2)).
    assert (Lb : length buf = (1 + opt_size (ar_harq c) 2 + length (ar_flows c) + opt_size (ar_group c) 2)%nat) by apply repeat_length.
    unfold ar_valid in V. rewrite H0 in V. rewrite !andb_false_iff in V. destruct V as [[[V|V]|V]|V].
    - destruct (ar_harq c) as [h|]; [|discriminate]. cbn in *. now rewrite !hq_valid_ok in V.
    - destruct H2 as [H2|[(H2 & H5)|H2]]; rewrite H2 in V; try discriminate. destruct (ar_flows c); [congruence|discriminate].
    - assert (V3 : forallb (enum_valid_lower 0 7) (ar_flows c) = true); [|congruence].
      apply forallb_forall. intros i Hi. rewrite Forall_forall in H3. apply H3 in Hi. unfold flow_ok in Hi. apply enum_valid_lower_lt; lia.
    - destruct (ar_group c) as [g|]; [|discriminate]. cbn in *. lia. }
  exists (1 + opt_size (ar_harq c) 2 + length (ar_flows c) + opt_size (ar_group c) 2)%nat. split; [unfold ar_size; rewrite V, H0; reflexivity|]. intros m L.
  destruct (ar_write c m O Hc L) as (P & W & E). split.
  - intros D. rewrite P. replace (2 =? _)%nat with false by lia. reflexivity.
  - intros D. assert (Hq : ar_harq c = None) by (destruct (ar_harq c); cbn [opt_size] in D; [lia|reflexivity]).
    assert (Hg : ar_group c = None) by (destruct (ar_group c); cbn [opt_size] in D; [lia|reflexivity]).
    destruct (ar_flows c) as [|i [|j fl]] eqn:Ef; rewrite Hq, Hg in D; cbn [opt_size length] in D; try lia.
    exists i. eexists. split; [reflexivity|]. split; [exact Hq|]. split; [exact Hg|]. rewrite P. rewrite Hq, Hg in *. cbn [opt_size length Nat.add Nat.eqb guard]. split; [reflexivity|].
    assert (Ea : ar_code c = ar_accepted c) by (unfold ar_code; rewrite Ef; destruct (N.eqb_spec (ar_accepted c) 1); [cbn [length]; lia|reflexivity]).
    unfold ar_head in *. rewrite Hq, Hg, Ea in *. cbn [present field_opt app flat_map fl_fields fst snd] in *. apply Forall_inv in H3. unfold flow_ok in H3. split.
    + cbn [opt_size length Nat.add] in E, L. rewrite <- E. apply packed_writes; [exact W|rewrite E; exact L].
    + intros tail. match goal with |- context [packed ?l m] => change 2%nat with (nbytes l) end. rewrite firstn_packed, (fb_eq 2) by reflexivity.
      pose proof (bit_lt (ar_power c)) as Hb. set (x := bit (ar_power c)) in *. set (v := ar_accepted c) in *. clearbody x v. clear - H3 Hc Hb.
      fbx. cbn [app]. unfold ar_unpack. mcbn. rewrite ar_rejected_always.
      assert (Hi : i <= 6) by lia. clear H3.
      match goal with |- context [N.shiftr ?a 4] => replace (N.shiftr a 4) with 0 by (unfold u8; bits) end.
      match goal with |- context [N.land ?a 15] => replace (N.land a 15) with i by (unfold u8; bits) end.
      rewrite !coded_id by lia. unfold ar_size, ar_valid. cbn [ar_reject rj_cause rj_time is_some]. rewrite !enum_valid_lt by lia. cbn [andb guard bind Nat.eqb].
      eexists. split; [reflexivity|]. split; reflexivity.
Qed.
(** Received bytes: always taken for a rejection, whatever the first byte. *)
Theorem C27_response_received : forall m, bytes m -> (2 <= length m)%nat ->
  ar_peek m = Ok (Some 2%nat) /\ ar_unpack (firstn 2 m) = ar_unpack m /\
  exists r cause time, spells 2 m [(8, r); (4, cause); (4, time)] /\
    (cause <= 4 /\ time <= 8 -> exists c, ar_unpack m = Ok (c, true) /\ ar_rejection c cause time) /\
    (~ (cause <= 4 /\ time <= 8) -> ar_unpack m = Abort).
Proof.
  intros m B L. destruct m as [|b0 [|b1 m]]; [cbn in L; lia|cbn in L; lia|]. apply Forall_inv_tail in B as B1. apply Forall_inv in B. apply Forall_inv in B1.
  unfold ar_peek. mcbn. rewrite ar_rejected_always. split; [reflexivity|]. unfold ar_unpack. cbn [firstn]. mcbn. rewrite ar_rejected_always. split; [reflexivity|].
  exists b0, (N.shiftr b1 4), (N.land b1 15). set (a := N.shiftr b1 4). set (b := N.land b1 15).
  assert (Ha : a < 16) by (unfold a; rewrite N.shiftr_div_pow2; change (2 ^ 4) with 16; lia).
  assert (Hb : b < 16) by (unfold b; change 15 with (N.ones 4); rewrite N.land_ones; change (2 ^ 4) with 16; lia). split.
  - split; [cbn; lia|]. split; [reflexivity|]. split; [repeat constructor; assumption|]. cbn [firstn be_number fold_left]. unfold cat_fields. cbn [fold_left fst snd].
    unfold a, b. clear - B B1. bits.
  - clearbody a b. unfold ar_size, ar_valid. cbn [ar_reject rj_cause rj_time is_some].
    assert (V : enum_valid 5 (from_coded 5 a) && enum_valid 9 (from_coded 9 b) = true <-> a <= 4 /\ b <= 8) by (rewrite andb_true_iff, !enum_coded by lia; lia).
    split; intros G.
    + rewrite (proj2 V G). cbn [guard bind Nat.eqb]. rewrite !coded_id by lia. eexists. split; [reflexivity|]. split; [reflexivity|exact G].
    + destruct (_ && _); [tauto|reflexivity].
Qed.
Theorem C27_response_accept_refuted : exists c, ar_acceptance_ok c /\ ar_accepted c = 7 /\ ar_flows c = [] /\ forall m, ar_pack c m = Abort \/ ar_pack c m = Oob.
Proof.
  exists (mkAr None None 7 [] None false). split; [split; [reflexivity|]; split; [exact I|]; split; [right; right; reflexivity|]; split; [constructor|exact I]|].
  split; [reflexivity|]. split; [reflexivity|]. intros [|b m]; [right; reflexivity|left; reflexivity].
Qed.

(** ** Association release *)
Theorem C27_release : forall cause m, cause <= 9 -> (1 <= length m)%nat ->
  exists m', al_release_pack cause m = Ok m' /\ writes al_release_size m m' [(4, cause); (4, 0)] /\
  forall tail, al_release_unpack (firstn al_release_size m' ++ tail) = Ok (cause, true).
Proof.
  intros cause m H L. unfold al_release_pack, al_release_valid, al_release_size. rewrite enum_valid_lt by lia. cbn [guard].
  destruct m as [|b m]; [cbn in L; lia|]. mcbn. eexists. split; [reflexivity|]. split; [writes_tac|]. intros tail. unfold al_release_unpack. cbn [firstn app]. mcbn.
  replace (N.shiftr _ 4) with cause by (unfold u8; bits). rewrite coded_id by lia. unfold al_release_valid. rewrite enum_valid_lt by lia. reflexivity.
Qed.
Theorem C27_release_invalid_aborts : forall cause m, enumerator 10 cause -> 9 < cause -> al_release_pack cause m = Abort.
Proof.
  intros cause m E H. unfold al_release_pack, al_release_valid, enum_valid. unfold enumerator, UNDEF32 in *.
  replace (_ && _) with false by (symmetry; apply andb_false_iff; rewrite !negb_false_iff, !N.eqb_eq; lia). reflexivity.
Qed.
(** Received: the cause is accepted if it is not reserved. *)
Theorem C27_release_received : forall m, bytes m -> (1 <= length m)%nat -> al_release_unpack (firstn 1 m) = al_release_unpack m /\
  exists cause r, spells 1 m [(4, cause); (4, r)] /\ (cause <= 9 -> al_release_unpack m = Ok (cause, true)) /\ (9 < cause -> exists c, al_release_unpack m = Ok (c, false)).
Proof.
  intros m B L. destruct m as [|b m]; [cbn in L; lia|]. apply Forall_inv in B. split; [reflexivity|]. exists (N.shiftr b 4), (N.land b 15). unfold al_release_unpack. mcbn. split; [|split].
  - split; [cbn; lia|]. split; [reflexivity|]. split; [|cbn [firstn be_number fold_left]; unfold cat_fields; cbn [fold_left fst snd]; clear - B; bits].
    repeat constructor; cbn [fst snd]; [rewrite N.shiftr_div_pow2; change (2 ^ 4) with 16; lia|change 15 with (N.ones 4); rewrite N.land_ones; change (2 ^ 4) with 16; lia].
  - intros H. rewrite coded_id by lia. unfold al_release_valid. rewrite enum_valid_lt by lia. reflexivity.
  - intros H. unfold from_coded. replace (_ <? 10) with false by lia. eexists. reflexivity.
Qed.

(** ** Reconfiguration request *)
(** A valid request with both HARQ configurations occupies exactly the announced bytes in the layout of the standard,
    a receiver peeks this size, and unpacking returns the request. *)
Theorem C27_reconfiguration_request : forall c, rq_ok c -> ascending_rc (rq_flows c) -> rq_tx c <> None -> rq_rx c <> None ->
  exists n, rq_size c = Ok n /\ forall m, (n <= length m)%nat ->
  exists m', rq_pack c m = Ok m' /\
    writes n m m' (rc_fields (rq_tx c) (rq_rx c) (rq_capability c) (N.of_nat (length (rq_flows c))) (rq_change c) (sent_rc (rq_flows c))) /\
  forall tail, rq_peek (firstn n m' ++ tail) = Ok (Some n) /\ rq_unpack (firstn n m' ++ tail) = Ok (c, true).
Proof.
  intros c (O1 & O2 & O3 & O4) S1 D1 D2. pose proof (flows_few_rc _ O3 S1) as Few. assert (Ls : length (sent_rc (rq_flows c)) = length (rq_flows c)) by apply map_length.
  assert (K : rc_raw (rq_tx c) (rq_rx c) (N.of_nat (length (rq_flows c))) (rq_change c) (sent_rc (rq_flows c))).
  { unfold rc_raw. repeat split; try lia; [| |now apply sent_rc_raw]; [destruct (rq_tx c)|destruct (rq_rx c)]; cbn in *; auto using hq_ok_raw. }
  assert (V : rq_valid c = Ok true).
  { unfold rq_valid, rc_harq_valid. destruct (rq_tx c); [|congruence]. destruct (rq_rx c); [|congruence]. cbn [value bind if_present] in *. rewrite !hq_valid_ok by assumption. cbn [negb].
    rewrite enum_valid_lt by lia. rewrite andb_true_r. f_equal. apply forallb_forall. intros f Hf. rewrite Forall_forall in O3. apply O3 in Hf. unfold fl_ok, flow_ok in Hf. apply enum_valid_lower_lt; lia. }
  exists (1 + opt_size (rq_tx c) 1 + opt_size (rq_rx c) 1 + length (rq_flows c))%nat. unfold rq_size, rq_pack. rewrite V. cbn [bind guard]. split; [reflexivity|]. intros m L.
  rewrite rc_write_ok by (auto; lia). cbn [bind fst snd].
  set (l := rc_fields _ _ _ _ _ _). pose proof (rc_nbytes _ _ (rq_capability c) _ _ _ K) as E. pose proof (rc_whole _ _ (rq_capability c) _ _ _ K) as W. fold l in E, W. unfold rc_len in E. rewrite Ls in E.
  assert (Pk : forall t, rq_peek (field_bytes l ++ t) = Ok (Some (1 + opt_size (rq_tx c) 1 + opt_size (rq_rx c) 1 + length (rq_flows c))%nat)).
  { intros t. unfold l. rewrite rc_fields_eq. destruct (rc_parts _ _ (rq_capability c) _ _ _ K) as (W0 & W1 & W2 & W3). rewrite fb_app, <- app_assoc by auto 10 using whole_app.
    rewrite rq_peek_head by lia. destruct (N.ltb_spec (N.of_nat (length (rq_flows c))) 7); [|lia]. now rewrite Nat2N.id. }
  unfold packed. rewrite Pk. cbn [bind]. rewrite Nat.eqb_refl. cbn [guard]. eexists. split; [reflexivity|]. split.
  - rewrite <- E. apply packed_writes; [exact W|lia].
  - intros tail. rewrite <- E at 1 3. fold (packed l m). rewrite firstn_packed, Pk. split; [reflexivity|].
    destruct (rq_receive _ _ (rq_capability c) _ _ _ tail K ltac:(now rewrite Ls)) as (_ & R & _). fold l in R. rewrite sent_rc_id in R. rewrite R.
    + unfold rq_with. rewrite flows_in_sent, set_sorted by now apply asc_rc. destruct c; reflexivity.
    + repeat (split; [assumption|]). split; [now rewrite Forall_map|]. apply asc_nodup. now apply asc_rc.
Qed.
(** Without one of them the request cannot be sent. *)
Theorem C27_reconfiguration_request_incomplete_throws : forall c m, rq_tx c = None \/ if_present hq_ok (rq_tx c) /\ rq_rx c = None ->
  rq_valid c = Throw /\ rq_size c = Throw /\ rq_pack c m = Throw.
Proof.
  intros c m D. assert (V : rq_valid c = Throw); [|unfold rq_size, rq_pack; rewrite V; auto]. unfold rq_valid, rc_harq_valid.
  destruct (rq_tx c) as [h|]; [|reflexivity]. destruct D as [D|(D1 & ->)]; [discriminate|]. cbn [value bind if_present] in *. now rewrite hq_valid_ok.
Qed.
Theorem C27_reconfiguration_request_invalid_aborts : forall c m, rq_tx c <> None -> rq_rx c <> None ->
  if_present (fun h => enumerator 31 (hq_delay h)) (rq_tx c) -> if_present (fun h => enumerator 31 (hq_delay h)) (rq_rx c) ->
  Forall (fun f => enumerator 7 (fl_id f)) (rq_flows c) -> enumerator 4 (rq_change c) -> ~ rq_ok c -> rq_pack c m = Abort.
Proof.
  intros c m D1 D2 E1 E2 E3 E4 O. unfold rq_pack, rq_valid.
  match goal with |- context [rc_harq_valid _ _ ?x] => set (k := x) end.
  destruct (rc_harq_sent (rq_tx c) (rq_rx c) k D1 D2 E1 E2) as [(H1 & H2 & ->)|(_ & ->)]; [|reflexivity]. cbn [bind]. destruct k eqn:V; [|reflexivity]. exfalso. apply O.
  unfold k in V. apply andb_true_iff in V. destruct V as (V1 & V2). rewrite forallb_forall in V1. unfold rq_ok. repeat (split; [assumption|]). split.
  - rewrite Forall_forall in *. intros f Hf. specialize (V1 f Hf). specialize (E3 f Hf). unfold enum_valid_lower in V1. unfold fl_ok, flow_ok. unfold enumerator, UNDEF32 in *. lia.
  - unfold enum_valid, enumerator, UNDEF32 in *. lia.
Qed.
(** Received bytes: with the peeked number of bytes there, nothing else is read. *)
Theorem C27_reconfiguration_request_received : forall m n, bytes m -> rq_peek m = Ok (Some n) -> (n <= length m)%nat ->
  rq_unpack (firstn n m) = rq_unpack m /\
  exists c fl, spells n m (rc_fields (rq_tx c) (rq_rx c) (rq_capability c) (N.of_nat (length fl)) (rq_change c) fl) /\
    ascending_rc (rq_flows c) /\
    let good := rq_tx c <> None /\ rq_rx c <> None /\ rq_ok c /\ NoDup (map snd fl) in
    let missing := rq_tx c = None \/ if_present hq_ok (rq_tx c) /\ rq_rx c = None in
    (missing -> rq_unpack m = Throw) /\
    (good -> rq_unpack m = Ok (c, true) /\ forall f, In f (rq_flows c) <-> In f (flows_in fl)) /\
    (~ missing -> ~ good -> rq_unpack m = Abort).
Proof.
  intros m n B P L.
  assert (L0 : (1 <= length m)%nat) by (unfold rq_peek in P; destruct m; [discriminate|cbn; lia]).
  destruct (rc_parse m N.to_nat B L0) as (tx & rx & cap & code & change & fl & t & K & Lf & E).
  { intros b0 tx rx code D E1 E2 E3. unfold rq_peek in P. rewrite D in P. cbn [bind] in P. rewrite E1, E2, E3, !to_nat_present in P. destruct (code <? 7); [|discriminate]. injection P as <-. exact L. }
  pose proof K as (K1 & K2 & K3 & K4 & K5). pose proof (rc_nbytes _ _ cap _ _ _ K) as Nb. destruct (rc_parts _ _ cap _ _ _ K) as (W0 & W1 & W2 & W3).
  assert (Hn : n = rc_len tx rx fl).
  { rewrite E, rc_fields_eq, fb_app, <- app_assoc, rq_peek_head in P by auto 10 using whole_app. destruct (code <? 7); [|discriminate]. injection P as <-. unfold rc_len. lia. }
  assert (Hc : code = N.of_nat (length fl)) by lia. subst n m.
  assert (U : forall t t', rq_unpack (field_bytes (rc_fields tx rx cap code change fl) ++ t) = rq_unpack (field_bytes (rc_fields tx rx cap code change fl) ++ t')).
  { intros u u'. destruct (rc_read tx rx cap code change fl (length fl) u K eq_refl) as (b0 & m & <- & D & E1 & E2 & E3 & G1 & G2 & G3).
    destruct (rc_read tx rx cap code change fl (length fl) u' K eq_refl) as (b0' & m' & <- & D' & E1' & E2' & E3' & G1' & G2' & G3').
    unfold rq_unpack. rewrite D, D'. cbn [bind]. rewrite G1, G1'. cbn [bind]. rewrite G2, G2'. cbn [bind]. rewrite E1, E1', <- Lf, G3, G3', E2, E2', E3, E3'. reflexivity. }
  split; [rewrite <- Nb, prefix_fields; apply U|].
  exists (rq_with tx rx cap change fl), fl. cbn [rq_with rq_tx rq_rx rq_capability rq_change rq_flows]. rewrite <- Hc. split; [rewrite <- Nb; apply fb_spells; now apply rc_whole|].
  split; [apply asc_rc, set_asc|]. destruct (rq_receive tx rx cap code change fl t K Hc) as (R1 & R2 & R3).
  assert (Ok' : rq_ok (rq_with tx rx cap change fl) <-> if_present hq_ok tx /\ if_present hq_ok rx /\ Forall flow_ok (map snd fl)).
  { unfold rq_ok. cbn [rq_with rq_tx rq_rx rq_flows rq_change]. rewrite <- (flows_in_id fl), Forall_map, !(Forall_forall _ (_ : list flow)).
    assert (Q : (forall f, In f (set_of fl_id (flows_in fl)) -> fl_ok f) <-> (forall f, In f (flows_in fl) -> flow_ok (fl_id f))); [|rewrite Q; intuition lia].
    split; intros Q f Hf.
    - assert (Hk : In (fl_id f) (map fl_id (set_of fl_id (flows_in fl)))) by (apply set_key; now apply in_map). apply in_map_iff in Hk. destruct Hk as (g & Eg & Hg). rewrite <- Eg. now apply Q.
    - apply Q. now apply set_in in Hf. }
  cbv zeta. split; [exact R1|]. split.
  - intros (G1 & G2 & G3 & G4). apply Ok' in G3. split; [apply R2; tauto|]. apply set_same. now rewrite flows_in_id.
  - intros G1 G2. apply R3; [exact G1|]. intros G3. apply G2. rewrite Ok'. tauto.
Qed.
(** The reserved number of flows is refused by the peek. *)
Theorem C27_reconfiguration_request_reserved : forall m b, ld m 0 = Ok b -> N.land (N.shiftr b 2) 7 = 7 <-> rq_peek m = Ok None.
Proof.
  intros m b D. unfold rq_peek. rewrite D. cbn [bind]. assert (H : N.land (N.shiftr b 2) 7 < 8) by (change 7 with (N.ones 3); rewrite N.land_ones; change (2 ^ 3) with 8; lia).
  set (k := N.land (N.shiftr b 2) 7) in *. clearbody k. destruct (N.ltb_spec k 7); [|split; [reflexivity|intros; lia]]. split; [lia|]. discriminate.
Qed.

(** ** Reconfiguration response *)
Theorem C27_reconfiguration_response : forall c, rs_ok c -> ascending_rc (rs_flows c) -> rs_tx c <> None -> rs_rx c <> None ->
  exists n, rs_size c = Ok n /\ forall m, (n <= length m)%nat ->
  exists m', rs_pack c m = Ok m' /\
    writes n m m' (rc_fields (rs_tx c) (rs_rx c) (rs_capability c) (rs_field c) (rs_change c) (sent_rc (rs_flows c))) /\
  forall tail, rs_peek (firstn n m' ++ tail) = Ok (Some n) /\ rs_unpack (firstn n m' ++ tail) = Ok (c, true).
Proof.
  intros c (O1 & O2 & O4 & O3 & O5) S1 D1 D2. pose proof (flows_few_rc _ O3 S1) as Few. assert (Ls : length (sent_rc (rs_flows c)) = length (rs_flows c)) by apply map_length.
  assert (Cd : rs_field c < 8 /\ length (rs_flows c) = (if listed (rs_field c) then N.to_nat (rs_field c) else 0%nat) /\ length (rs_flows c) = (if (rs_accepted c =? 1)%N then length (rs_flows c) else 0%nat) /\
               (if listed (rs_field c) then 1 else rs_field c) = rs_accepted c).
  { unfold rs_field, listed. destruct O5 as [([-> | ->] & ->)|(-> & O5)]; [cbn; repeat split; lia|cbn; repeat split; lia|]. cbn [N.eqb Pos.eqb]. destruct (rs_flows c) as [|f fl] eqn:Ef; [contradiction|]. clear Ef. cbn [length] in *.
    set (k := length fl) in *. destruct (N.eqb_spec (N.of_nat (S k)) 0); [lia|]. destruct (N.eqb_spec (N.of_nat (S k)) 7); [lia|]. cbn [negb andb]. repeat split; lia. }
  destruct Cd as (Cd1 & Cd2 & Cd3 & Cd4).
  assert (K : rc_raw (rs_tx c) (rs_rx c) (rs_field c) (rs_change c) (sent_rc (rs_flows c))).
  { unfold rc_raw. repeat split; try lia; [| |now apply sent_rc_raw]; [destruct (rs_tx c)|destruct (rs_rx c)]; cbn in *; auto using hq_ok_raw. }
  assert (V : rs_valid c = Ok true).
  { unfold rs_valid, rc_harq_valid. destruct (rs_tx c); [|congruence]. destruct (rs_rx c); [|congruence]. cbn [value bind if_present] in *. rewrite !hq_valid_ok by assumption. cbn [negb].
    rewrite (enum_valid_lt 4) by lia. rewrite andb_true_r. f_equal. apply andb_true_iff. split.
    - destruct O5 as [([-> | ->] & ->)|(-> & O5)]; [reflexivity|reflexivity|]. destruct (rs_flows c); [congruence|reflexivity].
    - apply forallb_forall. intros f Hf. rewrite Forall_forall in O3. apply O3 in Hf. unfold fl_ok, flow_ok in Hf. apply enum_valid_lower_lt; lia. }
  exists (1 + opt_size (rs_tx c) 1 + opt_size (rs_rx c) 1 + length (rs_flows c))%nat. unfold rs_size, rs_pack. rewrite V. cbn [bind guard]. split; [do 2 f_equal; lia|]. intros m L.
  change (rs_code c) with (rs_field c). rewrite rc_write_ok by (auto; lia). cbn [bind fst snd].
  set (l := rc_fields _ _ _ _ _ _). pose proof (rc_nbytes _ _ (rs_capability c) _ _ _ K) as E. pose proof (rc_whole _ _ (rs_capability c) _ _ _ K) as W. fold l in E, W. unfold rc_len in E. rewrite Ls in E.
  assert (Pk : forall t, rs_peek (field_bytes l ++ t) = Ok (Some (1 + opt_size (rs_tx c) 1 + opt_size (rs_rx c) 1 + length (rs_flows c))%nat)).
  { intros t. unfold l. rewrite rc_fields_eq. destruct (rc_parts _ _ (rs_capability c) _ _ _ K) as (W0 & W1 & W2 & W3). rewrite fb_app, <- app_assoc by auto 10 using whole_app.
    rewrite rs_peek_head by lia. do 3 f_equal. rewrite Cd2. unfold listed. destruct (N.ltb_spec (rs_field c) 7), (N.eqb_spec (rs_field c) 0), (N.eqb_spec (rs_field c) 7); cbn [negb andb]; lia. }
  unfold packed. rewrite Pk. cbn [bind]. rewrite Nat.eqb_refl. cbn [guard]. eexists. split; [reflexivity|]. split.
  - rewrite <- E. apply packed_writes; [exact W|lia].
  - intros tail. rewrite <- E at 1 3. fold (packed l m). rewrite firstn_packed, Pk. split; [reflexivity|].
    destruct (rs_receive _ _ (rs_capability c) _ _ _ tail K ltac:(now rewrite Ls)) as (_ & R & _). fold l in R. rewrite sent_rc_id in R. rewrite R.
    + unfold rs_with. rewrite flows_in_sent, set_sorted, Cd4 by now apply asc_rc. destruct c; reflexivity.
    + repeat (split; [assumption|]). split; [now rewrite Forall_map|]. apply asc_nodup. now apply asc_rc.
Qed.
Theorem C27_reconfiguration_response_incomplete_throws : forall c m, rs_tx c = None \/ if_present hq_ok (rs_tx c) /\ rs_rx c = None ->
  rs_valid c = Throw /\ rs_size c = Throw /\ rs_pack c m = Throw.
Proof.
  intros c m D. assert (V : rs_valid c = Throw); [|unfold rs_size, rs_pack; rewrite V; auto]. unfold rs_valid, rc_harq_valid.
  destruct (rs_tx c) as [h|]; [|reflexivity]. destruct D as [D|(D1 & ->)]; [discriminate|]. cbn [value bind if_present] in *. now rewrite hq_valid_ok.
Qed.
(** Not sent either: flows in a response that accepts none, or all requested. *)
Theorem C27_reconfiguration_response_invalid_aborts : forall c m, rs_tx c <> None -> rs_rx c <> None ->
  if_present (fun h => enumerator 31 (hq_delay h)) (rs_tx c) -> if_present (fun h => enumerator 31 (hq_delay h)) (rs_rx c) ->
  Forall (fun f => enumerator 7 (fl_id f)) (rs_flows c) -> enumerator 4 (rs_change c) -> enumerator 1 (rs_accepted c) \/ rs_accepted c = 7 \/ rs_accepted c = 8 ->
  (3 + length (rs_flows c) <= length m)%nat -> ~ rs_ok c -> rs_pack c m = Abort.
Proof.
  intros c m D1 D2 E1 E2 E3 E4 E5 L O. unfold rs_pack, rs_valid.
  match goal with |- context [rc_harq_valid _ _ ?x] => set (k := x) end.
  destruct (rc_harq_sent (rs_tx c) (rs_rx c) k D1 D2 E1 E2) as [(H1 & H2 & ->)|(_ & ->)]; [|reflexivity]. cbn [bind]. destruct k eqn:V; [|reflexivity]. cbn [guard].
  unfold k in V. rewrite !andb_true_iff, negb_true_iff, orb_false_iff, negb_false_iff, andb_false_iff in V. destruct V as (((V0 & V3) & V1) & V2). rewrite forallb_forall in V1.
  assert (F : Forall fl_ok (rs_flows c)).
  { rewrite Forall_forall in *. intros f Hf. specialize (V1 f Hf). specialize (E3 f Hf). unfold enum_valid_lower in V1. unfold fl_ok, flow_ok. unfold enumerator, UNDEF32 in *. lia. }
  assert (Hc : rs_change c <= 3) by (unfold enum_valid, enumerator, UNDEF32 in *; lia).
  assert (Ha : (rs_accepted c = 0 \/ rs_accepted c = 7) /\ rs_flows c <> []).
  { assert (Ha : rs_accepted c = 0 \/ rs_accepted c = 1 \/ rs_accepted c = 7) by (unfold enum_valid, enumerator, UNDEF32 in *; lia).
    destruct Ha as [Ha|[Ha|Ha]].
    - split; [auto|]. intros Z. apply O. unfold rs_ok. auto 10.
    - exfalso. apply O. unfold rs_ok. repeat (split; [assumption|]). right. split; [exact Ha|]. intros Z. rewrite Ha, Z in V3. destruct V3; discriminate.
    - split; [auto|]. intros Z. apply O. unfold rs_ok. auto 10. }
  destruct Ha as (Ha & Hn).
  assert (Cd : rs_code c = rs_accepted c) by (unfold rs_code; destruct (N.eqb_spec (rs_accepted c) 1); [lia|reflexivity]).
  assert (O1 : opt_size (rs_tx c) 1 = 1%nat) by (destruct (rs_tx c); [reflexivity|congruence]). assert (O2 : opt_size (rs_rx c) 1 = 1%nat) by (destruct (rs_rx c); [reflexivity|congruence]).
  rewrite Cd, rc_write_ok by (auto; lia). cbn [bind fst snd].
  assert (K : rc_raw (rs_tx c) (rs_rx c) (rs_accepted c) (rs_change c) (sent_rc (rs_flows c))).
  { unfold rc_raw. repeat split; try lia; [| |now apply sent_rc_raw]; [destruct (rs_tx c)|destruct (rs_rx c)]; cbn in *; auto using hq_ok_raw. }
  unfold packed. rewrite rc_fields_eq. destruct (rc_parts _ _ (rs_capability c) _ _ _ K) as (W0 & W1 & W2 & W3). rewrite fb_app, <- app_assoc by auto 10 using whole_app.
  rewrite rs_peek_head by lia. cbn [bind]. rewrite O1, O2. assert (Hl : (1 <= length (rs_flows c))%nat) by (clear - Hn; destruct (rs_flows c); [congruence|cbn; lia]). replace (_ =? _)%nat with false; [reflexivity|]. symmetry. apply Nat.eqb_neq.
  destruct Ha as [-> | ->]; cbn; lia.
Qed.
Theorem C27_reconfiguration_response_received : forall m n, bytes m -> rs_peek m = Ok (Some n) -> (n <= length m)%nat ->
  rs_unpack (firstn n m) = rs_unpack m /\
  exists c fl code, spells n m (rc_fields (rs_tx c) (rs_rx c) (rs_capability c) code (rs_change c) fl) /\
    (code = 0 /\ rs_accepted c = 0 \/ code = 7 /\ rs_accepted c = 7 \/ 1 <= code <= 6 /\ rs_accepted c = 1) /\
    N.of_nat (length fl) = (if code =? 7 then 0 else code) /\ ascending_rc (rs_flows c) /\
    let good := rs_tx c <> None /\ rs_rx c <> None /\ rs_ok c /\ NoDup (map snd fl) in
    let missing := rs_tx c = None \/ if_present hq_ok (rs_tx c) /\ rs_rx c = None in
    (missing -> rs_unpack m = Throw) /\
    (good -> rs_unpack m = Ok (c, true) /\ forall f, In f (rs_flows c) <-> In f (flows_in fl)) /\
    (~ missing -> ~ good -> rs_unpack m = Abort).
Proof.
  intros m n B P L.
  assert (L0 : (1 <= length m)%nat) by (unfold rs_peek in P; destruct m; [discriminate|cbn; lia]).
  assert (Hl : forall code, code < 8 -> (if (code <? 7)%N then N.to_nat code else 0%nat) = (if listed code then N.to_nat code else 0%nat)).
  { intros code H. unfold listed. destruct (N.ltb_spec code 7), (N.eqb_spec code 0), (N.eqb_spec code 7); cbn [negb andb]; lia. }
  destruct (rc_parse m (fun code => if (code <? 7)%N then N.to_nat code else 0%nat) B L0) as (tx & rx & cap & code & change & fl & t & K & Lf & E).
  { intros b0 tx rx code D E1 E2 E3. unfold rs_peek in P. rewrite D in P. cbn [bind] in P. rewrite E1, E2, E3, !to_nat_present in P. injection P as <-. exact L. }
  pose proof K as (K1 & K2 & K3 & K4 & K5). pose proof (rc_nbytes _ _ cap _ _ _ K) as Nb. destruct (rc_parts _ _ cap _ _ _ K) as (W0 & W1 & W2 & W3).
  assert (Hn : n = rc_len tx rx fl).
  { rewrite E, rc_fields_eq, fb_app, <- app_assoc, rs_peek_head in P by auto 10 using whole_app. injection P as <-. unfold rc_len. lia. }
  assert (Hc : length fl = (if listed code then N.to_nat code else 0%nat)) by (now rewrite Lf, Hl). subst n m.
  assert (U : forall t t', rs_unpack (field_bytes (rc_fields tx rx cap code change fl) ++ t) = rs_unpack (field_bytes (rc_fields tx rx cap code change fl) ++ t')).
  { intros u u'. destruct (rc_read tx rx cap code change fl (length fl) u K eq_refl) as (b0 & m & <- & D & E1 & E2 & E3 & G1 & G2 & G3).
    destruct (rc_read tx rx cap code change fl (length fl) u' K eq_refl) as (b0' & m' & <- & D' & E1' & E2' & E3' & G1' & G2' & G3').
    unfold rs_unpack. rewrite D, D'. cbn [bind]. rewrite G1, G1'. cbn [bind]. rewrite G2, G2'. cbn [bind]. rewrite E1, E1'. fold (listed code). rewrite <- Hc, G3, G3', E2, E2', E3, E3'. reflexivity. }
  split; [rewrite <- Nb, prefix_fields; apply U|].
  exists (rs_with tx rx cap code change fl), fl, code. cbn [rs_with rs_tx rs_rx rs_capability rs_change rs_flows rs_accepted]. split; [rewrite <- Nb; apply fb_spells; now apply rc_whole|].
  assert (Ca : code = 0 /\ (if listed code then 1 else code) = 0 \/ code = 7 /\ (if listed code then 1 else code) = 7 \/ 1 <= code <= 6 /\ (if listed code then 1 else code) = 1).
  { unfold listed. destruct (N.eqb_spec code 0), (N.eqb_spec code 7); cbn [negb andb]; lia. }
  split; [exact Ca|]. split; [rewrite Hc; unfold listed; destruct (N.eqb_spec code 0), (N.eqb_spec code 7); cbn [negb andb]; lia|].
  split; [apply asc_rc, set_asc|]. destruct (rs_receive tx rx cap code change fl t K Hc) as (R1 & R2 & R3).
  assert (Ok' : rs_ok (rs_with tx rx cap code change fl) <-> if_present hq_ok tx /\ if_present hq_ok rx /\ Forall flow_ok (map snd fl)).
  { unfold rs_ok. cbn [rs_with rs_tx rs_rx rs_flows rs_change rs_accepted]. rewrite <- (flows_in_id fl), Forall_map, !(Forall_forall _ (_ : list flow)).
    assert (Q : (forall f, In f (set_of fl_id (flows_in fl)) -> fl_ok f) <-> (forall f, In f (flows_in fl) -> flow_ok (fl_id f))).
    { split; intros Q f Hf.
      - assert (Hk : In (fl_id f) (map fl_id (set_of fl_id (flows_in fl)))) by (apply set_key; now apply in_map). apply in_map_iff in Hk. destruct Hk as (g & Eg & Hg). rewrite <- Eg. now apply Q.
      - apply Q. now apply set_in in Hf. }
    assert (Z : let a := if listed code then 1 else code in (a = 0 \/ a = 7) /\ set_of fl_id (flows_in fl) = [] \/ a = 1 /\ set_of fl_id (flows_in fl) <> []).
    { pose proof (set_empty' fl_id (flows_in fl)) as Se. cbv zeta. destruct Ca as [(Ca & ->)|[(Ca & ->)|(Ca & ->)]].
      - left. split; [auto|]. subst code. destruct fl; [reflexivity|discriminate].
      - left. split; [auto|]. subst code. destruct fl; [reflexivity|discriminate].
      - right. split; [reflexivity|]. intros Z. rewrite Z in Se. destruct fl; [|discriminate]. unfold listed in Hc. destruct (N.eqb_spec code 0), (N.eqb_spec code 7); cbn [negb andb length] in Hc; lia. }
    cbv zeta in Z. rewrite Q. intuition lia. }
  cbv zeta. split; [exact R1|]. split.
  - intros (G1 & G2 & G3 & G4). apply Ok' in G3. split; [apply R2; tauto|]. apply set_same. now rewrite flows_in_id.
  - intros G1 G2. apply R3; [exact G1|]. intros G3. apply G2. rewrite Ok'. tauto.
Qed.
(** So a valid request without HARQ configurations throws at the sender, and at whoever receives its bytes. *)
Theorem C27_reconfiguration_without_harq_refuted : exists c m, rq_ok c /\ ascending_rc (rq_flows c) /\ rq_flows c <> [] /\ (forall buf, rq_pack c buf = Throw) /\
  spells (length m) m (rc_fields (rq_tx c) (rq_rx c) (rq_capability c) (N.of_nat (length (rq_flows c))) (rq_change c) (sent_rc (rq_flows c))) /\
  rq_peek m = Ok (Some (length m)) /\ rq_unpack m = Throw.
Proof.
  exists (mkRq None None false [mkFl 3 false] 1), [5; 3]. unfold rq_ok. cbn [rq_tx rq_rx rq_flows rq_change rq_capability if_present].
  split; [split; [exact I|]; split; [exact I|]; split; [repeat constructor; vm_compute; discriminate|vm_compute; discriminate]|].
  split; [repeat constructor|]. split; [discriminate|]. split; [reflexivity|]. split; [|split; vm_compute; reflexivity].
  split; [cbn; lia|]. split; [reflexivity|]. split; [repeat constructor; vm_compute; reflexivity|reflexivity].
Qed.

(** ** Cases that meet the hypotheses *)
Definition example_request : association_request := mkAq 2 [1; 4; 6] true (Some (mkFt 0 4 1671 12345)) (Some 1673) (mkHq 3 7) (mkHq 7 30).
Definition example_response : association_response := mkAr None (Some (mkHq 1 2, mkHq 3 4)) 1 [2; 5] (Some (mkGi 9 100)) true.
Definition example_reconf : reconf_request := mkRq (Some (mkHq 3 7)) (Some (mkHq 2 30)) true [mkFl 2 true; mkFl 5 false] 2.
Definition example_reconf_response : reconf_response := mkRs (Some (mkHq 3 7)) (Some (mkHq 2 30)) true 1 [mkFl 2 true; mkFl 5 false] 2.
(** A valid request of an FT with a beacon period stops the receiver. *)
Theorem C27_request_ft_refuted : exists c m', aq_ok c /\ ascending (aq_flows c) /\ aq_pack c (repeat 0 12) = Ok m' /\ aq_peek m' = Ok (Some 12%nat) /\ aq_unpack m' = Abort.
Proof.
  exists (mkAq 2 [1] true (Some (mkFt 3 4 1671 12345)) None (mkHq 3 7) (mkHq 7 30)). eexists. split; [|split; [repeat constructor|split; [vm_compute; reflexivity|split; vm_compute; reflexivity]]].
  unfold aq_ok, hq_ok, ft_ok. cbn [aq_cause aq_flows aq_ft aq_current aq_tx aq_rx if_present ft_nbp ft_cbp ft_next_channel ft_time_to_next hq_processes hq_delay].
  repeat split; try lia; try discriminate; try (vm_compute; reflexivity); [repeat constructor; vm_compute; discriminate|apply channel_range; vm_compute; reflexivity].
Qed.
Example C27_request_nonvacuous :
  aq_ok example_request /\ ascending (aq_flows example_request) /\ aq_size example_request = Ok 16%nat /\
  aq_pack example_request (repeat 255 17) = Ok [79; 128; 103; 254; 1; 4; 6; 4; 6; 135; 0; 0; 48; 57; 6; 137; 255] /\
  aq_unpack [79; 255; 103; 254; 70; 132; 1; 4; 230; 135; 0; 0; 48; 57; 230; 137] = Ok (example_request, true) /\
  aq_unpack [79; 255; 103; 254; 1; 4; 4; 4; 230; 135; 0; 0; 48; 57; 230; 137] = Abort /\
  aq_peek [92; 0; 103; 254] = Ok None.
Proof.
  split; [|repeat split; try (vm_compute; reflexivity); repeat constructor].
  unfold aq_ok, hq_ok, ft_ok. cbn [example_request aq_cause aq_flows aq_ft aq_current aq_tx aq_rx if_present ft_nbp ft_cbp ft_next_channel ft_time_to_next hq_processes hq_delay].
  repeat split; try lia; try discriminate; try (vm_compute; reflexivity); [repeat constructor; vm_compute; discriminate|apply channel_range; vm_compute; reflexivity|apply channel_range; vm_compute; reflexivity].
Qed.
Example C27_request_invalid_nonvacuous : let c := mkAq 7 [1] true None None (mkHq 3 7) (mkHq 7 30) in
  enumerator 7 (aq_cause c) /\ Forall (enumerator 7) (aq_flows c) /\ ~ aq_ok c.
Proof. split; [left; cbn; lia|]. split; [repeat constructor; vm_compute; discriminate|]. intros (H & _). cbn in H. lia. Qed.
Example C27_response_nonvacuous :
  ar_rejection (mkAr (Some (mkRj 3 8)) None 0 [] None false) 3 8 /\ ar_acceptance_ok example_response /\ ascending (ar_flows example_response) /\
  ar_size example_response = Ok 7%nat /\ ar_pack example_response (repeat 0 9) = Abort /\
  ar_pack (mkAr None None 1 [4] None true) [0; 0; 9] = Ok [133; 4; 9] /\
  ar_unpack [133; 4; 9] = Ok (mkAr (Some (mkRj 0 4)) None UNDEF32 [] None false, true).
Proof.
  split; [repeat split; lia|]. split; [|split; [unfold ascending; cbn [example_response ar_flows]; repeat constructor|do 3 (split; [vm_compute; reflexivity|]); vm_compute; reflexivity]].
  split; [reflexivity|]. split; [unfold hq_ok; cbn; lia|]. split; [right; left; split; [reflexivity|discriminate]|]. split; [repeat constructor; vm_compute; discriminate|].
  split; vm_compute; reflexivity.
Qed.
Example C27_reconfiguration_nonvacuous :
  rq_ok example_reconf /\ ascending_rc (rq_flows example_reconf) /\ rq_pack example_reconf (repeat 255 6) = Ok [234; 103; 94; 130; 5; 255] /\
  rq_unpack [234; 103; 94; 69; 194; 255] = Ok (example_reconf, true) /\ rq_unpack [234; 103; 94; 5; 133; 255] = Abort /\ rq_unpack [106; 94; 5; 2] = Throw /\
  rs_ok example_reconf_response /\ rs_pack example_reconf_response (repeat 255 6) = Ok [234; 103; 94; 130; 5; 255] /\
  rs_unpack [254; 103; 94] = Ok (mkRs (Some (mkHq 3 7)) (Some (mkHq 2 30)) true 7 [] 2, true) /\
  (let c := mkRs (Some (mkHq 3 7)) (Some (mkHq 2 30)) true 7 [mkFl 2 true] 2 in ~ rs_ok c /\ rs_valid c = Ok true /\ rs_pack c (repeat 0 9) = Abort).
Proof.
  assert (H : if_present hq_ok (Some (mkHq 3 7)) /\ if_present hq_ok (Some (mkHq 2 30))) by (cbn; unfold hq_ok; cbn; lia). destruct H as (H1 & H2).
  assert (F : Forall fl_ok [mkFl 2 true; mkFl 5 false]) by (repeat constructor; vm_compute; discriminate).
  split; [split; [exact H1|split; [exact H2|split; [exact F|vm_compute; discriminate]]]|]. split; [repeat constructor|].
  do 4 (split; [vm_compute; reflexivity|]). split; [|split; [vm_compute; reflexivity|split; [vm_compute; reflexivity|]]].
  - split; [exact H1|]. split; [exact H2|]. split; [vm_compute; discriminate|]. split; [exact F|]. right. split; [reflexivity|discriminate].
  - split; [|split; vm_compute; reflexivity]. intros (_ & _ & _ & _ & [(_ & Z)|(Z & _)]); discriminate.
Qed.

Print Assumptions C27_request.
Print Assumptions C27_request_invalid_aborts.
Print Assumptions C27_request_received.
Print Assumptions C27_request_reserved.
Print Assumptions C27_request_ft_refuted.
Print Assumptions C27_response_reject.
Print Assumptions C27_response_accept.
Print Assumptions C27_response_received.
Print Assumptions C27_response_accept_refuted.
Print Assumptions C27_release.
Print Assumptions C27_release_invalid_aborts.
Print Assumptions C27_release_received.
Print Assumptions C27_reconfiguration_request.
Print Assumptions C27_reconfiguration_request_incomplete_throws.
Print Assumptions C27_reconfiguration_request_invalid_aborts.
Print Assumptions C27_reconfiguration_request_received.
Print Assumptions C27_reconfiguration_request_reserved.
Print Assumptions C27_reconfiguration_response.
Print Assumptions C27_reconfiguration_response_incomplete_throws.
Print Assumptions C27_reconfiguration_response_invalid_aborts.
Print Assumptions C27_reconfiguration_response_received.
Print Assumptions C27_reconfiguration_without_harq_refuted.
