(** C28: radio device status, security info, route info, group assignment, configuration request, higher layer signalling. *)
From Verif Require Import Base Bytes WireSpec BitSolve ByteFacts Fields MacHeader Mux MuxFacts IeBase IeLists BeaconsSpec IeFacts IeCursor IeListFacts ResourceIesFacts
  SmallIes AssociationSpec InfoIes CapabilityIes InfoIesSpec P41_ResourceIes P30_SmallIes.
Open Scope N_scope.

(** ** The multiplexing header in front of an element *)
(** The header is one byte with the type of the element, the element follows it. *)
Theorem C28_element_headers : forall h t pack a m,
  In (h, t) [(ds_header, [(2, 3); (1, 1); (5, 1)]); (cr_header, [(2, 3); (1, 0); (5, 1)]); (si_header, [(2, 0); (6, 16)]); (ri_header, [(2, 0); (6, 17)]);
             (cap_header, [(2, 0); (6, 20)]); (ng_header, [(2, 0); (6, 21)]); (bi_header, [(2, 0); (6, 22)]); (li_header, [(2, 0); (6, 24)]);
             (mr_header, [(2, 0); (6, 25)])] ->
  mmh_size h = Ok 1%nat /\ exists b, spells 1 [b] t /\ pack_mmh_sdu h pack (a :: m) = (do s <- pack m ; Ok (b :: s)).
Proof.
  intros h t pack a m H. assert (Q : forall b, spells 1 [b] t -> pack_mmh_sdu h pack (a :: m) = (do s <- pack m ; Ok (b :: s)) -> mmh_size h = Ok 1%nat ->
    mmh_size h = Ok 1%nat /\ exists b, spells 1 [b] t /\ pack_mmh_sdu h pack (a :: m) = (do s <- pack m ; Ok (b :: s))) by eauto.
  cbn [In] in H. repeat destruct H as [H|H]; try contradiction; injection H as <- <-;
    match goal with |- _ /\ exists b, spells 1 [b] ?t /\ _ => apply (Q (be_number (field_bytes t))) end; clear Q; try reflexivity;
    try (unfold pack_mmh_sdu, at_off; cbn; destruct (pack m); reflexivity);
    (split; [cbn; lia|]; split; [reflexivity|]; split; [repeat constructor; cbn; lia|reflexivity]).
Qed.
(** The group assignment cannot be sent: its header has no extension, and there is no way to set one. *)
Theorem C28_group_assignment_not_sent_refuted : forall c m, pack_mmh_sdu ga_header (ga_pack c) m = Abort.
Proof. reflexivity. Qed.

(** ** Radio device status *)
Theorem C28_radio_device_status : forall c m, ds_ok c -> (1 <= length m)%nat ->
  exists m', ds_pack c m = Ok m' /\ writes ds_size m m' (ds_fields c 0) /\ forall tail, ds_unpack (firstn ds_size m' ++ tail) = Ok (c, true).
Proof.
  intros [f d] m (H1 & H2) L. cbn [ds_flag ds_duration] in *. destruct m as [|a m]; [cbn in L; lia|]. unfold ds_pack, ds_valid, ds_fields. cbn [ds_flag ds_duration].
  rewrite enum_valid_lower_lt, enum_valid_lt by lia. cbn [andb guard]. mcbn. assert (Hf : f < 4) by lia. assert (Hd : d < 16) by lia. clear L.
  eexists. split; [reflexivity|]. split; [unfold ds_size; writes_tac|]. intros tail. unfold ds_unpack, ds_size. cbn [firstn app]. mcbn.
  replace (N.land (N.shiftr _ 4) 3) with f by (unfold u8; bits). replace (N.land _ 15) with d by (unfold u8; bits).
  rewrite coded_lower_id, coded_id by lia. unfold ds_valid. cbn [ds_flag ds_duration]. rewrite enum_valid_lower_lt, enum_valid_lt by lia. reflexivity.
Qed.
Theorem C28_radio_device_status_invalid_aborts : forall c m, enumerator 3 (ds_flag c) -> enumerator 12 (ds_duration c) -> ~ ds_ok c -> ds_pack c m = Abort.
Proof.
  intros c m E1 E2 O. unfold ds_pack. destruct (ds_valid c) eqn:V; [|reflexivity]. exfalso. apply O. unfold ds_valid, enum_valid, enum_valid_lower, enumerator, UNDEF32, ds_ok in *. lia.
Qed.
(** Every byte is accepted or refused; the reserved bits do not matter. *)
Theorem C28_radio_device_status_received : forall m, bytes m -> (1 <= length m)%nat ->
  exists c r, spells ds_size m (ds_fields c r) /\
    (ds_ok c -> ds_unpack m = Ok (c, true)) /\ (~ ds_ok c -> exists c', ds_unpack m = Ok (c', false)).
Proof.
  intros m B L. destruct (parse_head [2; 2; 4] 1 m B eq_refl L) as (l & t & W & Wh & _ & ->).
  destruct l as [|(?, r) [|(?, f) [|(?, d) [|? ?]]]]; try discriminate. cbn [map fst] in W. injection W as -> -> ->.
  pose proof (whole_fits _ Wh) as F. fit_hyp. change (2 ^ 2) with 4 in F. change (2 ^ 4) with 16 in F. destruct F as (F1 & F2 & F3 & _).
  exists (mkDs f d), r. split; [exact (fb_spells _ t Wh)|]. rewrite (fb_eq 1) by reflexivity. fbx. unfold ds_unpack. mcbn.
  replace (N.land (N.shiftr _ 4) 3) with f by (unfold u8; bits). replace (N.land _ 15) with d by (unfold u8; bits). unfold ds_ok. cbn [ds_flag ds_duration].
  assert (V : ds_valid (mkDs (from_coded_lower 0 3 f) (from_coded 12 d)) = true <-> 0 < f < 3 /\ d < 12).
  { unfold ds_valid. cbn [ds_flag ds_duration]. rewrite andb_true_iff, enum_coded, enum_coded_lower by lia. tauto. }
  split; intros O.
  - rewrite (proj2 V) by lia. rewrite coded_lower_id, coded_id by lia. reflexivity.
  - eexists. do 2 f_equal. apply not_true_iff_false. rewrite V. lia.
Qed.

(** ** Security info *)
Theorem C28_security_info : forall c m, si_ok c -> (5 <= length m)%nat ->
  exists m', si_pack c m = Ok m' /\ writes si_size m m' (si_fields c 0) /\ forall tail, si_unpack (firstn si_size m' ++ tail) = Ok (c, true).
Proof.
  intros [k v h] m (H1 & H2 & H3) L. cbn [si_key si_iv si_hpc] in *. unfold si_pack, si_valid, si_fields, wr_num. cbn [si_key si_iv si_hpc].
  rewrite enum_valid_lt by lia. replace (k <=? 3) with true by lia. cbn [andb guard]. cells m 5%nat. mcbn. assert (Hv : v < 16) by lia. change (2 ^ 32) with 4294967296 in H3. clear L.
  eexists. split; [reflexivity|]. split; [unfold si_size; writes_tac|]. intros tail. unfold si_unpack, si_size, rd_num. cbn [firstn app]. mcbn.
  replace (N.shiftr _ 6) with 0 by (unfold u8; bits). cbn [N.eqb negb].
  replace (N.land (N.shiftr _ 4) 3) with k by (unfold u8; bits). replace (N.land _ 15) with v by (unfold u8; bits). rewrite coded_id by lia.
  match goal with |- context [mkSi k v ?x] => replace x with h by (unfold u8; bits) end.
  unfold si_valid. cbn [si_key si_iv]. rewrite enum_valid_lt by lia. replace (k <=? 3) with true by lia. reflexivity.
Qed.
Theorem C28_security_info_invalid_aborts : forall c m, enumerator 3 (si_iv c) -> si_hpc c < 2 ^ 32 -> ~ si_ok c -> si_pack c m = Abort.
Proof.
  intros c m E1 E2 O. unfold si_pack. destruct (si_valid c) eqn:V; [|reflexivity]. exfalso. apply O. unfold si_valid, enum_valid, enumerator, UNDEF32, si_ok in *. lia.
Qed.
(** Five bytes are accepted exactly if the version is the first and the initialisation vector type is known. *)
Theorem C28_security_info_received : forall m, bytes m -> (5 <= length m)%nat ->
  exists c v, spells si_size m (si_fields c v) /\
    (v = 0 /\ si_ok c -> si_unpack m = Ok (c, true)) /\ (~ (v = 0 /\ si_ok c) -> exists c', si_unpack m = Ok (c', false)).
Proof.
  intros m B L. destruct (parse_head [2; 2; 4; 32] 5 m B eq_refl L) as (l & t & W & Wh & _ & ->).
  destruct l as [|(?, r) [|(?, k) [|(?, v) [|(?, h) [|? ?]]]]]; try discriminate. cbn [map fst] in W. injection W as -> -> -> ->.
  pose proof (whole_fits _ Wh) as F. fit_hyp. change (2 ^ 2) with 4 in F. change (2 ^ 4) with 16 in F. change (2 ^ 32) with 4294967296 in F. destruct F as (F1 & F2 & F3 & F4 & _).
  exists (mkSi k v h), r. split; [exact (fb_spells _ t Wh)|]. rewrite (fb_eq 5) by reflexivity. fbx. unfold si_unpack, rd_num. mcbn.
  replace (N.shiftr _ 6) with r by (unfold u8; bits).
  replace (N.land (N.shiftr _ 4) 3) with k by (unfold u8; bits). replace (N.land _ 15) with v by (unfold u8; bits). 
  match goal with |- context [mkSi k (from_coded 3 v) ?x] => replace x with h by (unfold u8; bits) end. unfold si_ok. cbn [si_key si_iv si_hpc]. change (2 ^ 32) with 4294967296.
  assert (V : si_valid (mkSi k (from_coded 3 v) h) = true <-> k <= 3 /\ v < 3).
  { unfold si_valid. cbn [si_key si_iv]. rewrite andb_true_iff, enum_coded by lia. lia. }
  split; intros O.
  - replace (negb (r =? 0)) with false by lia. rewrite (proj2 V) by lia. rewrite coded_id by lia. reflexivity.
  - destruct (N.eqb_spec r 0) as [E|E]; cbn [negb]; [|eauto]. eexists. do 2 f_equal. apply not_true_iff_false. rewrite V. lia.
Qed.

(** ** Route info *)
Theorem C28_route_info : forall c m, ri_ok c -> (6 <= length m)%nat ->
  exists m', ri_pack c m = Ok m' /\ writes ri_size m m' (ri_fields c) /\ forall tail, ri_unpack (firstn ri_size m' ++ tail) = Ok (c, true).
Proof.
  intros [k v h] m (H1 & H2 & H3) L. cbn [ri_sink ri_cost ri_seq] in *. unfold ri_pack, ri_valid, ri_fields, wr_num. cbn [ri_sink ri_cost ri_seq].
  replace (v <=? 255) with true by lia. replace (h <=? 255) with true by lia. cbn [andb guard]. cells m 6%nat. mcbn. change (2 ^ 32) with 4294967296 in H1. clear L.
  eexists. split; [reflexivity|]. split; [unfold ri_size; writes_tac|]. intros tail. unfold ri_unpack, ri_size, rd_num. cbn [firstn app]. mcbn.
  do 2 f_equal. f_equal; unfold u8; bits.
Qed.
Theorem C28_route_info_invalid_aborts : forall c m, ri_sink c < 2 ^ 32 -> ~ ri_ok c -> ri_pack c m = Abort.
Proof. intros c m E O. unfold ri_pack. destruct (ri_valid c) eqn:V; [|reflexivity]. exfalso. apply O. unfold ri_valid, ri_ok in *. lia. Qed.
(** Any six bytes are a route info. *)
Theorem C28_route_info_received : forall m, bytes m -> (6 <= length m)%nat ->
  exists c, ri_ok c /\ spells ri_size m (ri_fields c) /\ ri_unpack m = Ok (c, true).
Proof.
  intros m B L. destruct (parse_head [32; 8; 8] 6 m B eq_refl L) as (l & t & W & Wh & _ & ->).
  destruct l as [|(?, k) [|(?, v) [|(?, h) [|? ?]]]]; try discriminate. cbn [map fst] in W. injection W as -> -> ->.
  pose proof (whole_fits _ Wh) as F. fit_hyp. change (2 ^ 8) with 256 in F. change (2 ^ 32) with 4294967296 in F. destruct F as (F1 & F2 & F3 & _).
  exists (mkRi k v h). split; [unfold ri_ok; cbn; lia|]. split; [exact (fb_spells _ t Wh)|]. rewrite (fb_eq 6) by reflexivity. fbx. unfold ri_unpack, rd_num. mcbn.
  do 2 f_equal. f_equal; unfold u8; bits.
Qed.

(** ** Group assignment *)
Definition as_fields (a : N * N) : list (N * N) := [(1, fst a); (7, snd a)].
Definition as_raw (a : N * N) : Prop := fst a < 2 /\ snd a < 128.
Lemma as_whole a : as_raw a -> whole (as_fields a).
Proof. intros (H1 & H2). split; [|reflexivity]. unfold as_fields. fit_tac. Qed.
Lemma as_reader a : as_raw a -> reader rd_assignment (as_fields a) a.
Proof.
  intros (H1 & H2) pre tail. unfold rd_assignment, as_fields. destruct a as [d g]. cbn [fst snd] in *.
  rewrite ld_app0, (fb_eq 1) by reflexivity. fbx. mcbn. do 2 f_equal; [|unfold u8; bits].
  match goal with |- from_coded 2 ?x = _ => replace x with d by (unfold u8; bits) end. apply coded_id. exact H1.
Qed.
Lemma as_writer a : as_raw a -> writer (wr_assignment a) (as_fields a).
Proof.
  intros (H1 & H2) pre rest L. change (nbytes _) with 1%nat in *. unfold wr_assignment, as_fields. destruct a as [d g]. cbn [fst snd] in *.
  rewrite st_app0, bind_behind, (fb_eq 1) by reflexivity. fbx. cells rest 1%nat. mcbn. rewrite orst_app0. mcbn. rewrite behind_ok. cells_eq.
Qed.
Definition ga_head (c : group_assignment) : list (N * N) := [(1, ga_single c); (7, ga_group c)].
Lemma ga_parts c : ga_single c < 2 -> ga_group c < 128 -> Forall as_raw (ga_assignments c) ->
  whole (ga_head c) /\ whole (flat_map as_fields (ga_assignments c)) /\ whole (ga_fields c) /\ nbytes (ga_fields c) = (1 + length (ga_assignments c))%nat.
Proof.
  intros H1 H2 H3. assert (W0 : whole (ga_head c)) by (split; [unfold ga_head; fit_tac|reflexivity]).
  assert (W1 : whole (flat_map as_fields (ga_assignments c))) by (apply whole_flat; intros x Hx; rewrite Forall_forall in H3; now apply as_whole, H3).
  split; [exact W0|]. split; [exact W1|]. change (ga_fields c) with (ga_head c ++ flat_map as_fields (ga_assignments c)). split; [now apply whole_app|].
  rewrite nbytes_app by exact W0. rewrite (nbytes_flat _ as_fields 1); [change (nbytes (ga_head c)) with 1%nat; lia| |reflexivity].
  intros x Hx. rewrite Forall_forall in H3. now apply as_whole, H3.
Qed.
Lemma ga_valid_iff c : ga_single c < 2 -> Forall as_raw (ga_assignments c) -> (ga_valid c = true <-> ga_ok c).
Proof.
  intros H1 H2. assert (Fa : forallb (fun a => enum_valid 2 (fst a) && (snd a <=? 127)) (ga_assignments c) = true).
  { apply forallb_forall. intros x Hx. rewrite Forall_forall in H2. destruct (H2 x Hx) as (D1 & D2). rewrite enum_valid_lt by lia. lia. }
  unfold ga_valid, ga_ok. rewrite Fa, andb_true_r, enum_valid_lt by lia. cbn [andb]. split.
  - intros V. split; [|split; [lia|exact H2]]. assert (ga_single c = 0 \/ ga_single c = 1) as [E|E] by lia; rewrite E in *; lia.
  - intros (V & G & _). destruct V as [(E & V)|(E & V)]; rewrite E; lia.
Qed.
Lemma ga_unpack_raw c t : ga_single c < 2 -> ga_group c < 128 -> Forall as_raw (ga_assignments c) ->
  ga_unpack (1 + length (ga_assignments c)) (field_bytes (ga_fields c) ++ t) = if ga_valid c then Ok (c, true) else Abort.
Proof.
  intros H1 H2 H3. destruct (ga_parts c H1 H2 H3) as (W0 & W1 & _ & _). change (ga_fields c) with (ga_head c ++ flat_map as_fields (ga_assignments c)).
  rewrite fb_app, <- app_assoc by assumption. destruct c as [s g l]. cbn [ga_single ga_group ga_assignments] in *.
  assert (Hb : exists b, field_bytes (ga_head (mkGa s g l)) = [b] /\ N.shiftr b 7 = s /\ N.land b 127 = g).
  { rewrite (fb_eq 1) by reflexivity. unfold ga_head. cbn [ga_single ga_group]. fbx. eexists. split; [reflexivity|]. split; unfold u8; bits. }
  destruct Hb as (b & -> & E1 & E2). set (u := field_bytes _ ++ t). assert (P : skipn 1 ([b] ++ u) = u) by reflexivity. unfold u in P at 2.
  assert (D : ld ([b] ++ u) 0 = Ok b) by reflexivity. set (m := [b] ++ u) in *. clearbody m. unfold ga_unpack. rewrite D. cbn [bind].
  replace (1 + length l - 1)%nat with (length l) by lia.
  destruct (get_all_at l rd_assignment 1 as_fields (fun x => x) _ m _ _ P eq_refl ltac:(lia)) as (G & _).
  { intros x Hx. rewrite Forall_forall in H3. split; [now apply as_reader, H3|]. split; [reflexivity|now apply as_whole, H3]. }
  rewrite G, map_id. cbn [bind]. rewrite E1, E2, coded_id by lia. unfold ga_size. destruct (ga_valid (mkGa s g l)); [|reflexivity]. cbn [guard bind ga_assignments].
  rewrite Nat.eqb_refl. reflexivity.
Qed.
(** A valid assignment is written in the layout of the standard and, with its length, read back. *)
Theorem C28_group_assignment : forall c, ga_ok c -> exists n, ga_size c = Ok n /\ forall m, (n <= length m)%nat ->
  exists m', ga_pack c m = Ok m' /\ writes n m m' (ga_fields c) /\ forall tail, ga_unpack n (firstn n m' ++ tail) = Ok (c, true).
Proof.
  intros c O. pose proof O as (H1 & H2 & H3). assert (Hs : ga_single c < 2) by lia. pose proof (proj2 (ga_valid_iff c Hs H3) O) as V.
  destruct (ga_parts c Hs H2 H3) as (W0 & W1 & W & E). exists (1 + length (ga_assignments c))%nat. split; [unfold ga_size; now rewrite V|]. intros m L.
  exists (packed (ga_fields c) m). split.
  - unfold ga_pack. rewrite V. cbn [guard].
    assert (Hw : forall B (f : list N -> res B), (do m <- st m 0 (N.shiftl (ga_single c) 7) ; do m <- orst m 0 (ga_group c) ; f m) = f (packed (ga_head c) m)).
    { intros B f. unfold packed. rewrite (fb_eq 1) by reflexivity. change (nbytes (ga_head c)) with 1%nat. unfold ga_head. set (s := ga_single c) in *. set (g := ga_group c) in *.
      assert (L1 : (1 <= length m)%nat) by lia. clear - Hs H2 L1. clearbody s g. fbx. cells m 1%nat. mcbn. f_equal. repeat first [reflexivity | apply f_equal2; [unfold u8; bits|]]. }
    rewrite Hw. change (packed (ga_head c) m, 1%nat) with (packed (ga_head c) m, nbytes (ga_head c)).
    destruct (put_all_at (ga_assignments c) wr_assignment 1 as_fields m (ga_head c)) as (G & _ & _); [|exact W0|change (nbytes (ga_head c)) with 1%nat; lia|].
    { intros x Hx. rewrite Forall_forall in H3. split; [now apply as_writer, H3|]. split; [reflexivity|now apply as_whole, H3]. }
    rewrite G. reflexivity.
  - split; [rewrite <- E; apply packed_writes; [exact W|lia]|]. intros tail. rewrite <- E at 2. rewrite firstn_packed, ga_unpack_raw by assumption. now rewrite V.
Qed.
Theorem C28_group_assignment_invalid_aborts : forall c m, enumerator 2 (ga_single c) -> Forall (fun a => enumerator 2 (fst a)) (ga_assignments c) -> ~ ga_ok c -> ga_pack c m = Abort.
Proof.
  intros c m E1 E2 O. unfold ga_pack. destruct (ga_valid c) eqn:V; [|reflexivity]. exfalso. apply O. pose proof V as V'. unfold ga_valid in V'. rewrite !andb_true_iff in V'.
  destruct V' as ((((V1 & _) & _) & V4) & V5). unfold enumerator, enum_valid, UNDEF32 in *. apply ga_valid_iff; [lia| |exact V].
  rewrite Forall_forall in *. intros x Hx. rewrite forallb_forall in V5. specialize (V5 x Hx). specialize (E2 x Hx). cbn beta in E2. unfold as_raw. lia.
Qed.
(** Received bytes: exactly [len] of them are read, where [len] is the length the multiplexing header gives. They are
    accepted if the number of assignments suits the first bit; otherwise the receiver aborts. *)
Theorem C28_group_assignment_received : forall m len, bytes m -> (1 <= len <= length m)%nat ->
  ga_unpack len (firstn len m) = ga_unpack len m /\
  exists c, spells len m (ga_fields c) /\ (ga_ok c -> ga_unpack len m = Ok (c, true)) /\ (~ ga_ok c -> ga_unpack len m = Abort).
Proof.
  intros m len B L. destruct (parse_head [1; 7] 1 m B eq_refl ltac:(lia)) as (h & m1 & W & Wh & B1 & ->).
  destruct h as [|(?, s) [|(?, g) [|? ?]]]; try discriminate. cbn [map fst] in W. injection W as -> ->.
  pose proof (whole_fits _ Wh) as F. fit_hyp. change (2 ^ 1) with 2 in F. change (2 ^ 7) with 128 in F. destruct F as (F1 & F2 & _).
  rewrite app_length, fb_length in L. change (nbytes [(1, s); (7, g)]) with 1%nat in L.
  destruct (parse_all [1; 7] 1 (len - 1) m1 B1 eq_refl ltac:(lia)) as (ls & t & L1 & Ls & _ & -> & _).
  assert (Fl : exists fl, length fl = length ls /\ concat ls = flat_map as_fields fl /\ Forall as_raw fl).
  { clear - Ls. induction Ls as [|l ls (H1 & H2) _ (fl & I1 & I2 & I3)]; [exists []; auto|].
    destruct l as [|(?, a) [|(?, b) [|? ?]]]; try discriminate. cbn [map fst] in H1. injection H1 as -> ->. exists ((a, b) :: fl). cbn [length concat flat_map].
    split; [lia|]. split; [now rewrite I2|]. constructor; [|exact I3]. apply whole_fits in H2. fit_hyp. unfold as_raw. cbn. change (2 ^ 1) with 2 in *. change (2 ^ 7) with 128 in *. tauto. }
  destruct Fl as (fl & Fl1 & -> & Fl3). set (c := mkGa s g fl). destruct (ga_parts c F1 F2 Fl3) as (W0 & W1 & W2 & E).
  assert (Em : field_bytes [(1, s); (7, g)] ++ field_bytes (flat_map as_fields fl) ++ t = field_bytes (ga_fields c) ++ t).
  { change (ga_fields c) with (ga_head c ++ flat_map as_fields fl). rewrite fb_app, <- app_assoc by assumption. reflexivity. }
  rewrite Em. assert (En : len = (1 + length fl)%nat) by lia. cbn [c ga_assignments] in E. rewrite <- E in En.
  assert (U : forall t, ga_unpack len (field_bytes (ga_fields c) ++ t) = if ga_valid c then Ok (c, true) else Abort).
  { intros t'. rewrite En, E. now apply (ga_unpack_raw c). }
  split.
  - rewrite En at 2. rewrite prefix_fields, !U. reflexivity.
  - exists c. split; [rewrite En; now apply fb_spells|]. rewrite U. pose proof (ga_valid_iff c F1 Fl3) as V. split; intros O; [rewrite (proj2 V O); reflexivity|].
    replace (ga_valid c) with false; [reflexivity|]. symmetry. apply not_true_iff_false. tauto.
Qed.

(** ** Higher layer signalling: flows 1 and 2 *)
Theorem C28_higher_layer_signalling : forall flow n h m off, 1 <= flow <= 2 -> 1 <= n <= 65535 ->
  exists h1 h2 hdr, hl_set_flow_id h flow = Ok h1 /\ set_data_size h1 n = Ok h2 /\ hl_get_flow_id h2 = flow /\ mx_len h2 = n /\
  hdr = (if (n <=? 255)%N then 2 else 3)%nat /\ flowing_size h2 = Ok (N.of_nat hdr + n) /\
  ((off + hdr <= length m)%nat -> exists m', flowing_pack h2 m off = Ok (m', (off + hdr)%nat) /\ firstn off m' = firstn off m /\
     writes hdr (skipn off m) (skipn off m') (if n <=? 255 then [(2, 1); (6, flow); (8, n)] else [(2, 2); (6, flow); (16, n)])).
Proof.
  intros flow n h m off F Hn. assert (flow = 1 \/ flow = 2) as Fc by lia.
  exists (mkMmh (mx_ext h) flow (mx_len h) (mx_tinfo h)), (mkMmh (if n <=? 255 then 1 else 2) flow n (mx_tinfo h)), (if (n <=? 255)%N then 2 else 3)%nat.
  split; [destruct Fc as [->| ->]; reflexivity|]. split; [unfold set_data_size; replace ((0 <? n) && (n <=? 65535)) with true by lia; reflexivity|].
  split; [destruct Fc as [->| ->]; reflexivity|]. split; [reflexivity|]. split; [reflexivity|].
  assert (Sz : mmh_size (mkMmh (if n <=? 255 then 1 else 2) flow n (mx_tinfo h)) = Ok (if (n <=? 255)%N then 2 else 3)%nat) by (destruct (n <=? 255); reflexivity).
  split; [unfold flowing_size; rewrite Sz; reflexivity|]. intros L. unfold flowing_pack. rewrite Sz. unfold at_off.
  replace (off <=? length m)%nat with true by (symmetry; apply Nat.leb_le; destruct (n <=? 255); lia).
  assert (Lk : length (skipn off m) = (length m - off)%nat) by now rewrite skipn_length. set (s := skipn off m) in *.
  assert (Wr : exists s', mmh_pack (mkMmh (if n <=? 255 then 1 else 2) flow n (mx_tinfo h)) s = Ok s' /\
     writes (if n <=? 255 then 2%nat else 3%nat) s s' (if n <=? 255 then [(2, 1); (6, flow); (8, n)] else [(2, 2); (6, flow); (16, n)])).
  { assert (Hf : flow < 4) by lia. assert (Ff : (flow =? UNDEF32) = false) by (unfold UNDEF32; lia). clearbody s. clear - Hf Ff Hn L Lk Fc. unfold mmh_pack, mmh_valid. cbn [mx_ext mx_ie mx_len]. rewrite Ff.
    destruct (N.leb_spec n 255) as [Le|Gt].
    - replace (255 <? n) with false by lia. replace (65535 <? n) with false by lia. cbn [negb andb guard]. assert (L2 : (2 <= length s)%nat) by lia. clear L Lk. cells s 2%nat. mcbn.
      eexists. split; [reflexivity|]. assert (Hn' : n < 256) by lia. clear Hn Fc. writes_tac.
    - replace (65535 <? n) with false by lia. cbn [negb andb guard]. assert (L2 : (3 <= length s)%nat) by lia. clear L Lk. cells s 3%nat. mcbn.
      eexists. split; [reflexivity|]. assert (Hn' : n < 65536) by lia. clear Hn Fc Gt. writes_tac. }
  destruct Wr as (s' & -> & Wr). cbn [bind]. eexists. split; [reflexivity|]. assert (Lf : length (firstn off m) = off) by (rewrite firstn_length; destruct (n <=? 255); lia).
  split; [rewrite firstn_app, Lf, Nat.sub_diag, firstn_O, app_nil_r, firstn_firstn, Nat.min_id; reflexivity|].
  rewrite skipn_app, Lf, Nat.sub_diag, skipn_all2 by lia. exact Wr.
Qed.
Theorem C28_higher_layer_signalling_flow : forall h flow, ~ 1 <= flow <= 2 -> hl_set_flow_id h flow = Abort.
Proof. intros h flow F. destruct flow as [|[p|[p|p|]|]]; cbn; try reflexivity; lia. Qed.

Print Assumptions C28_element_headers.
Print Assumptions C28_group_assignment_not_sent_refuted.
Print Assumptions C28_radio_device_status.
Print Assumptions C28_radio_device_status_invalid_aborts.
Print Assumptions C28_radio_device_status_received.
Print Assumptions C28_security_info.
Print Assumptions C28_security_info_invalid_aborts.
Print Assumptions C28_security_info_received.
Print Assumptions C28_route_info.
Print Assumptions C28_route_info_invalid_aborts.
Print Assumptions C28_route_info_received.
Print Assumptions C28_group_assignment.
Print Assumptions C28_group_assignment_invalid_aborts.
Print Assumptions C28_group_assignment_received.
Print Assumptions C28_higher_layer_signalling.
Print Assumptions C28_higher_layer_signalling_flow.

(** ** The hypotheses are satisfiable *)
Example ds_ex : ds_ok (mkDs 2 11) /\ ds_pack (mkDs 2 11) [255] = Ok [43] /\ ds_unpack [235] = Ok (mkDs 2 11, true) /\ ds_unpack [59] = Ok (mkDs UNDEF32 11, false).
Proof. unfold ds_ok. cbn [ds_flag ds_duration]. repeat split; try lia; reflexivity. Qed.
Example si_ex : si_ok (mkSi 3 2 66051) /\ si_pack (mkSi 3 2 66051) [9; 9; 9; 9; 9] = Ok [50; 0; 1; 2; 3] /\ si_unpack [50; 0; 1; 2; 3] = Ok (mkSi 3 2 66051, true).
Proof. unfold si_ok. cbn [si_key si_iv si_hpc]. repeat split; try lia; reflexivity. Qed.
Example ri_ex : ri_ok (mkRi 258 7 255) /\ ri_pack (mkRi 258 7 255) [9; 9; 9; 9; 9; 9] = Ok [0; 0; 1; 2; 7; 255].
Proof. unfold ri_ok. cbn [ri_sink ri_cost ri_seq]. repeat split; try lia; reflexivity. Qed.
Example ga_ex : ga_ok (mkGa 0 5 [(1, 3); (0, 127)]) /\ ga_pack (mkGa 0 5 [(1, 3); (0, 127)]) [9; 9; 9] = Ok [5; 131; 127] /\
  ga_unpack 3 [5; 131; 127; 8] = Ok (mkGa 0 5 [(1, 3); (0, 127)], true) /\ ga_unpack 2 [5; 131; 127; 8] = Abort /\ ga_unpack 1 [133] = Abort.
Proof. unfold ga_ok. cbn [ga_single ga_group ga_assignments length]. repeat split; try lia; try reflexivity. repeat constructor; cbn; lia. Qed.
