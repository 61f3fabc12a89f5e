(** Lemmas on the random access resource IE. *)
From Verif Require Import Base Bytes WireSpec BitSolve ByteFacts Fields MacHeader Channels ChannelsSpec IeBase Beacons BeaconsSpec IeFacts IeCursor
  ResourceIes ResourceIesSpec ResourceIesFacts.
Open Scope N_scope.

Lemma mask_flag b w i : w = 2 ^ i -> N.land b w = 2 ^ i * N.land (N.shiftr b i) 1.
Proof.
  intros ->. rewrite N.mul_comm, <- N.shiftl_mul_pow2. apply N.bits_inj. intros n. rewrite N.land_spec. destruct (N.lt_ge_cases n i) as [H|H].
  - rewrite N.shiftl_spec_low, N.pow2_bits_false, andb_false_r by lia. reflexivity.
  - rewrite N.shiftl_spec_high', N.land_spec, N.shiftr_spec' by lia. replace (n - i + i) with n by lia. f_equal.
    change 1 with (2 ^ 0). destruct (N.eq_dec n i) as [->|Hn].
    + rewrite N.sub_diag, !N.pow2_bits_true. reflexivity.
    + rewrite !N.pow2_bits_false by lia. reflexivity.
Qed.

Section Random.
Variable mu : N.
Definition rr_head (c : random_access) (r0 : N) : list (N * N) :=
  [(3, r0); (2, repeat_field (rr_repeat c)); (1, present (rr_sfn_offset c)); (1, present (rr_channel c)); (1, present (rr_channel_2 c));
   (start_bits mu, al_start (rr_allocation c)); (1, bit (al_in_slots (rr_allocation c))); (7, al_length (rr_allocation c));
   (1, bit (rr_max_in_slots c)); (4, rr_max_length c); (3, rr_cw_min c);
   (1, bit (rr_delay c)); (4, rr_window c); (3, rr_cw_max c)].
Definition head_ok (c : random_access) (r0 : N) : Prop :=
  r0 < 8 /\ if_present (fun r => rp_specific r = false) (rr_repeat c) /\ al_ok mu (rr_allocation c) /\
  rr_max_length c < 16 /\ rr_cw_min c < 8 /\ rr_window c < 16 /\ rr_cw_max c < 8.
Lemma rr_code_lt c : if_present (fun r => rp_specific r = false) (rr_repeat c) -> repeat_field (rr_repeat c) < 3.
Proof. destruct (rr_repeat c) as [[a b ? ?]|]; cbn; [|lia]. intros ->. destruct a; cbn; lia. Qed.
Lemma rr_head_nbytes c r0 : nbytes (rr_head c r0) = (4 + fo_size mu)%nat.
Proof. unfold rr_head, start_bits, fo_size. destruct (mu <=? 4); reflexivity. Qed.
Ltac names c :=
  pose proof (present_lt (rr_sfn_offset c)); pose proof (present_lt (rr_channel c)); pose proof (present_lt (rr_channel_2 c));
  pose proof (bit_lt (al_in_slots (rr_allocation c))); pose proof (bit_lt (rr_max_in_slots c)); pose proof (bit_lt (rr_delay c));
  set (x0 := repeat_field (rr_repeat c)) in *;
  set (x1 := present (rr_sfn_offset c)) in *; set (x2 := present (rr_channel c)) in *; set (x3 := present (rr_channel_2 c)) in *;
  set (x4 := bit (al_in_slots (rr_allocation c))) in *; set (x5 := bit (rr_max_in_slots c)) in *; set (x6 := bit (rr_delay c)) in *;
  set (y0 := al_start (rr_allocation c)) in *; set (y1 := al_length (rr_allocation c)) in *; set (y2 := rr_max_length c) in *;
  set (y3 := rr_cw_min c) in *; set (y4 := rr_window c) in *; set (y5 := rr_cw_max c) in *;
  clearbody x0 x1 x2 x3 x4 x5 x6 y0 y1 y2 y3 y4 y5.
Lemma rr_head_whole c r0 : head_ok c r0 -> whole (rr_head c r0).
Proof.
  intros (H0 & H1 & (H2 & H2') & H3 & H4 & H5 & H6). pose proof (rr_code_lt c H1). unfold rr_head, start_bits in *. names c.
  destruct (mu <=? 4); (split; [fit_tac|reflexivity]).
Qed.
Lemma rr_head_read c r0 t : head_ok c r0 -> let m := field_bytes (rr_head c r0) ++ t in let n := (1 + fo_size mu)%nat in
  exists b0 b b' b'', ld m 0 = Ok b0 /\ ld m n = Ok b /\ ld m (n + 1) = Ok b' /\ ld m (n + 2) = Ok b'' /\
  b2l_lower m 1 4 (fo_size mu) = Ok (al_start (rr_allocation c)) /\
  N.land (N.shiftr b0 3) 3 = repeat_field (rr_repeat c) /\
  N.land (N.shiftr b0 2) 1 = present (rr_sfn_offset c) /\ N.land (N.shiftr b0 1) 1 = present (rr_channel c) /\ N.land b0 1 = present (rr_channel_2 c) /\
  N.shiftr b 7 = bit (al_in_slots (rr_allocation c)) /\ N.land b 127 = al_length (rr_allocation c) /\
  N.shiftr b' 7 = bit (rr_max_in_slots c) /\ N.land (N.shiftr b' 3) 15 = rr_max_length c /\ N.land b' 7 = rr_cw_min c /\
  N.shiftr b'' 7 = bit (rr_delay c) /\ N.land (N.shiftr b'' 3) 15 = rr_window c /\ N.land b'' 7 = rr_cw_max c.
Proof.
  intros (H0 & H1 & (H2 & H2') & H3 & H4 & H5 & H6) m n. subst m n. pose proof (rr_code_lt c H1) as R. clear H1.
  pose proof (rr_head_nbytes c r0) as Hn.
  rewrite (fb_eq _ _ Hn). clear Hn. unfold rr_head, start_bits, fo_size in *. names c.
  assert (x0 < 4) by lia. clear R.
  destruct (mu <=? 4).
  - change (2 ^ 8) with 256 in H2. cbn [Nat.add]. fbx. mcbn. do 4 eexists. repeat (split; [reflexivity|]).
    repeat match goal with |- _ /\ _ => split end; try bits; try (f_equal; bits).
  - change (2 ^ 16) with 65536 in H2. cbn [Nat.add]. fbx. mcbn. do 4 eexists. repeat (split; [reflexivity|]).
    repeat match goal with |- _ /\ _ => split end; try bits; try (f_equal; bits).
Qed.
Lemma rr_head_write c m {B} (k : list N -> res B) : head_ok c 0 -> rr_repeat c <> None -> (4 + fo_size mu <= length m)%nat ->
  (do m <- rr_pack_required mu c m ;
   do r <- value (rr_repeat c) ;
   do m <- orst m 0 (N.shiftl (if rp_in_subslots r then 2 else 1) 3) ; k m) = k (packed (rr_head c 0) m).
Proof.
  intros (H0 & H1 & (H2 & H2') & H3 & H4 & H5 & H6) D L. pose proof (rr_code_lt c H1) as R.
  assert (Hr : exists r, rr_repeat c = Some r /\ (if rp_in_subslots r then 2 else 1) = repeat_field (rr_repeat c)).
  { destruct (rr_repeat c) as [r|]; [|congruence]. exists r. split; [reflexivity|]. cbn [if_present repeat_field] in *. rewrite H1. destruct (rp_in_subslots r); reflexivity. }
  destruct Hr as (r & Er & Hr). assert (Ev : value (rr_repeat c) = Ok r) by (rewrite Er; reflexivity). rewrite Ev. cbn [bind]. rewrite Hr. clear H1 D Er Ev Hr r.
  unfold packed. pose proof (rr_head_nbytes c 0) as Hn. rewrite (fb_eq _ _ Hn), Hn. clear Hn.
  unfold rr_pack_required, rr_head, start_bits, fo_size in *. rewrite (present_is_some (rr_sfn_offset c)), (present_is_some (rr_channel c)), (present_is_some (rr_channel_2 c)).
  rewrite (bit_b2n (al_in_slots (rr_allocation c))), (bit_b2n (rr_max_in_slots c)), (bit_b2n (rr_delay c)). names c.
  assert (x0 < 4) by lia. clear R.
  destruct (mu <=? 4).
  - change (2 ^ 8) with 256 in H2. cbn [Nat.add] in *. fbx. cells m 5%nat. mcbn. f_equal.
    repeat first [reflexivity | apply f_equal2; [unfold u8; bits|]].
  - change (2 ^ 16) with 65536 in H2. cbn [Nat.add] in *. fbx. cells m 6%nat. mcbn. f_equal.
    repeat first [reflexivity | apply f_equal2; [unfold u8; bits|]].
Qed.

(** The values the fields can hold. *)
Definition rr_raw (c : random_access) (r0 r1 r2 : N) : Prop :=
  head_ok c r0 /\ if_present (fun r => rp_repetition r < 256 /\ rp_validity r < 256) (rr_repeat c) /\
  if_present (fun s => s < 256) (rr_sfn_offset c) /\ if_present (fun n => n < 8192) (rr_channel c) /\ if_present (fun n => n < 8192) (rr_channel_2 c) /\
  r1 < 8 /\ r2 < 8.
Lemma rr_ok_raw c : rr_ok mu c -> rr_raw c 0 0 0.
Proof.
  intros (H1 & H2 & H3 & H4 & H5 & H6 & H7 & H8 & H9). unfold rr_raw, head_ok. repeat split; try assumption; try lia; try apply H5.
  - destruct (rr_repeat c) as [r|]; [|exact I]. apply H1.
  - destruct (rr_repeat c) as [r|]; [|exact I]. destruct H1 as ((H1 & H1') & _). cbn. lia.
  - destruct (rr_channel c) as [n|]; [|exact I]. now apply channel_lt.
  - destruct (rr_channel_2 c) as [n|]; [|exact I]. now apply channel_lt.
Qed.
Definition g_rep c := field_opt (rr_repeat c) rp_fields.
Definition g_sfn c := field_opt (rr_sfn_offset c) (fun s => [(8, s)]).
Definition g_ch c r1 := field_opt (rr_channel c) (ch_fields r1).
Definition g_ch2 c r2 := field_opt (rr_channel_2 c) (ch_fields r2).
Lemma rr_fields_eq c r0 r1 r2 : rr_fields mu c r0 r1 r2 = rr_head c r0 ++ g_rep c ++ g_sfn c ++ g_ch c r1 ++ g_ch2 c r2.
Proof. reflexivity. Qed.
Lemma rr_parts c r0 r1 r2 : rr_raw c r0 r1 r2 -> whole (rr_head c r0) /\ whole (g_rep c) /\ whole (g_sfn c) /\ whole (g_ch c r1) /\ whole (g_ch2 c r2).
Proof.
  intros (K0 & K1 & K2 & K3 & K4 & K5 & K6). split; [now apply rr_head_whole|]. unfold g_rep, g_sfn, g_ch, g_ch2.
  repeat match goal with |- _ /\ _ => split end; apply whole_opt; intros x E; rewrite ?E in *; cbn [if_present] in *;
    try (apply rp_whole'; assumption); try (apply ch_whole; assumption); (split; [|reflexivity]; fit_tac).
Qed.
Lemma rr_whole c r0 r1 r2 : rr_raw c r0 r1 r2 -> whole (rr_fields mu c r0 r1 r2).
Proof. intros K. rewrite rr_fields_eq. destruct (rr_parts c r0 r1 r2 K) as (W0 & W1 & W2 & W3 & W4). auto 10 using whole_app. Qed.
Definition rr_len (c : random_access) : nat :=
  (4 + fo_size mu + opt_size (rr_repeat c) 2 + opt_size (rr_sfn_offset c) 1 + opt_size (rr_channel c) 2 + opt_size (rr_channel_2 c) 2)%nat.
(** what a receiver peeks *)
Definition rr_peeked (c : random_access) : nat :=
  (4 + fo_size mu + opt_size (rr_repeat c) 2 + opt_size (rr_sfn_offset c) 4 + opt_size (rr_channel c) 4 + opt_size (rr_channel_2 c) 2)%nat.
Lemma rr_nbytes c r0 r1 r2 : rr_raw c r0 r1 r2 -> nbytes (rr_fields mu c r0 r1 r2) = rr_len c.
Proof.
  intros K. rewrite rr_fields_eq. destruct (rr_parts c r0 r1 r2 K) as (W0 & W1 & W2 & W3 & W4). rewrite !nbytes_app by assumption.
  rewrite rr_head_nbytes. unfold g_rep, g_sfn, g_ch, g_ch2.
  rewrite (nbytes_opt _ rp_fields 2), (nbytes_opt _ (fun s => [(8, s)]) 1), !(nbytes_opt _ (ch_fields _) 2) by reflexivity. unfold rr_len. lia.
Qed.
Lemma rr_peek_raw c r0 t : head_ok c r0 -> rr_peek mu (field_bytes (rr_head c r0) ++ t) = Ok (Some (rr_peeked c)).
Proof.
  intros K. destruct (rr_head_read c r0 t K) as (b0 & b & b' & b'' & E & _ & _ & _ & _ & E1 & E2 & E3 & E4 & _).
  unfold rr_peek. rewrite E. cbn [bind]. rewrite E1, E4, (mask_flag b0 4 2 eq_refl), (mask_flag b0 2 1 eq_refl), E2, E3. change (2 ^ 2) with 4. change (2 ^ 1) with 2. pose proof (rr_code_lt c (proj1 (proj2 K))).
  replace (repeat_field (rr_repeat c) =? 3) with false by lia. do 2 f_equal. unfold rr_peeked, fo_size.
  rewrite <- (negb_involutive (repeat_field (rr_repeat c) =? 0)), code_zero.
  destruct (rr_repeat c), (rr_sfn_offset c), (rr_channel c), (rr_channel_2 c); cbn [is_some negb present opt_size]; destruct (mu <=? 4); lia.
Qed.
Lemma rr_unpack_raw c r0 r1 r2 t : rr_raw c r0 r1 r2 ->
  rr_unpack mu (field_bytes (rr_fields mu c r0 r1 r2) ++ t) =
  (do n <- rr_size mu c ; guard (n =? rr_len c)%nat (do v <- rr_valid mu c ; Ok (Some c, v))).
Proof.
  intros K. pose proof K as (K0 & K1 & K2 & K3 & K4 & K5 & K6). destruct (rr_parts c r0 r1 r2 K) as (W0 & W1 & W2 & W3 & W4).
  rewrite rr_fields_eq, !fb_app by auto 10 using whole_app. rewrite <- !app_assoc.
  match goal with |- context [field_bytes (rr_head c r0) ++ ?u] => set (u0 := u) end.
  destruct (rr_head_read c r0 u0 K0) as (b0 & b & b' & b'' & D0 & D1 & D2 & D3 & D4 & E1 & E2 & E3 & E4 & E5 & E6 & E7 & E8 & E9 & E10 & E11 & E12).
  assert (P : skipn (1 + fo_size mu + 3) (field_bytes (rr_head c r0) ++ u0) = u0).
  { replace (1 + fo_size mu + 3)%nat with (length (field_bytes (rr_head c r0))) by (rewrite fb_length, rr_head_nbytes; lia).
    rewrite skipn_app, skipn_all, Nat.sub_diag. reflexivity. }
  unfold u0 in P at 2. set (m := field_bytes (rr_head c r0) ++ u0) in *. clearbody m.
  unfold rr_unpack. rewrite D4. cbn [bind]. rewrite D1. cbn [bind]. rewrite D2. cbn [bind]. rewrite D3. cbn [bind]. rewrite D0. cbn [bind].
  rewrite E1, E6, E8, E9, E11, E12, (bit_of _ _ E5), (bit_of _ _ E7), (bit_of _ _ E10), (flag_present _ _ _ E2), (flag_present _ _ _ E3), (flag0 _ _ E4), code_zero.
  pose proof (rr_code_lt c (proj1 (proj2 K0))). replace (repeat_field (rr_repeat c) =? 3) with false by lia.
  destruct (get_at (rr_repeat c) rd_two 2 rp_fields (fun r => (rp_repetition r, rp_validity r)) _ m _ _ P eq_refl ltac:(lia)) as (G & P4); clear P.
  { intros x Ex. rewrite Ex in K1. split; [now apply rp_reader'|reflexivity]. }
  rewrite G. cbn [bind]. clear G.
  destruct (get_at (rr_sfn_offset c) (fun m i => ld m i) 1 (fun s => [(8, s)]) (fun x => x) _ m _ _ P4 eq_refl ltac:(lia)) as (G & P5); clear P4.
  { intros x Ex. rewrite Ex in K2. split; [now apply reader_ld|reflexivity]. }
  rewrite G, opt_map_id. cbn [bind]. clear G.
  destruct (get_at (rr_channel c) rd_channel 2 (ch_fields r1) (fun x => x) _ m _ _ P5 eq_refl ltac:(lia)) as (G & P6); clear P5.
  { intros x Ex. rewrite Ex in K3. split; [now apply reader_channel|reflexivity]. }
  rewrite G, opt_map_id. cbn [bind]. clear G.
  destruct (get_at (rr_channel_2 c) rd_channel 2 (ch_fields r2) (fun x => x) _ m _ _ P6 eq_refl ltac:(lia)) as (G & P7); clear P6.
  { intros x Ex. rewrite Ex in K4. split; [now apply reader_channel|reflexivity]. }
  rewrite G, opt_map_id. cbn [bind]. clear G.
  destruct K0 as (_ & Sp & _ & B1 & B2 & B3 & B4). rewrite !coded_id by assumption.
  match goal with |- context [mkRr ?x _ _ _ (mkAl ?s ?i ?l) _ _ _ _ _ _] => replace x with (rr_repeat c); [replace (mkAl s i l) with (rr_allocation c) by (destruct (rr_allocation c); reflexivity)|] end.
  2: { destruct (rr_repeat c) as [r|] eqn:Er; [|reflexivity]. cbn [option_map fst snd if_present repeat_field] in *. rewrite Sp. destruct r as [a q x y]. cbn [rp_in_subslots rp_repetition rp_validity rp_specific] in *. subst q. destruct a; reflexivity. }
  replace (1 + fo_size mu + 3 + opt_size (rr_repeat c) 2 + opt_size (rr_sfn_offset c) 1 + opt_size (rr_channel c) 2 + opt_size (rr_channel_2 c) 2)%nat with (rr_len c) by (unfold rr_len; lia).
  destruct c; reflexivity.
Qed.
Lemma rr_valid_some c : rr_repeat c <> None -> if_present (fun r => rp_specific r = false) (rr_repeat c) ->
  rr_cw_min c <= 8 \/ rr_cw_min c = UNDEF32 -> rr_cw_max c <= 8 \/ rr_cw_max c = UNDEF32 ->
  (rr_ok mu c /\ rr_valid mu c = Ok true) \/ (~ rr_ok mu c /\ rr_valid mu c = Ok false).
Proof.
  intros D Sp C1 C2. unfold rr_valid, rr_ok. destruct (rr_repeat c) as [r|]; [|congruence]. cbn [value bind if_present] in *.
  pose proof (opt_all_if (fun s => s <=? 255) (fun s => s < 256) (rr_sfn_offset c) ltac:(intros; cbv beta; lia)) as Q2.
  pose proof (opt_all_if channel_in_range channel (rr_channel c) channel_range) as Q3.
  pose proof (opt_all_if channel_in_range channel (rr_channel_2 c) channel_range) as Q4.
  assert (Q5 : enum_valid 8 (rr_cw_min c) = true <-> rr_cw_min c < 8) by (unfold enum_valid, UNDEF32 in *; lia).
  assert (Q6 : enum_valid 8 (rr_cw_max c) = true <-> rr_cw_max c < 8) by (unfold enum_valid, UNDEF32 in *; lia).
  assert (Q7 : (rr_max_length c <=? 15) = true <-> rr_max_length c < 16) by lia.
  assert (Q8 : (rr_window c <=? 15) = true <-> rr_window c < 16) by lia.
  rewrite <- Q2, <- Q3, <- Q4, <- Q5, <- Q6, <- Q7, <- Q8, <- rp_valid_iff, <- al_valid_iff.
  destruct (rp_valid r), (opt_all (fun s => s <=? 255) (rr_sfn_offset c)), (opt_all channel_in_range (rr_channel c)), (opt_all channel_in_range (rr_channel_2 c)),
    (al_valid mu (rr_allocation c)), (rr_max_length c <=? 15), (enum_valid 8 (rr_cw_min c)), (rr_window c <=? 15), (enum_valid 8 (rr_cw_max c)); cbn [negb andb]; 
    clear - Sp; intuition discriminate.
Qed.
Lemma rr_valid_none c : rr_repeat c = None -> rr_valid mu c = Throw.
Proof. unfold rr_valid. intros ->. reflexivity. Qed.
Lemma rr_ok_size c : rr_valid mu c = Ok true -> rr_size mu c = Ok (rr_len c).
Proof. intros V. unfold rr_size. rewrite V. cbn [bind guard]. f_equal. unfold rr_len, fo_size. destruct (mu <=? 4); lia. Qed.
Lemma rr_receive c r0 r1 r2 t : rr_raw c r0 r1 r2 ->
  let r := rr_unpack mu (field_bytes (rr_fields mu c r0 r1 r2) ++ t) in
  (rr_repeat c <> None -> rr_ok mu c -> r = Ok (Some c, true)) /\ (rr_repeat c <> None -> ~ rr_ok mu c -> r = Abort) /\ (rr_repeat c = None -> r = Throw).
Proof.
  intros K r. unfold r. rewrite rr_unpack_raw by exact K. destruct K as ((_ & Sp & _ & _ & B2 & _ & B4) & _). split; [|split].
  - intros D O. destruct (rr_valid_some c D Sp) as [(_ & V)|(V & _)]; [lia|lia| |tauto]. rewrite (rr_ok_size c V), V. cbn [bind]. rewrite Nat.eqb_refl. reflexivity.
  - intros D O. destruct (rr_valid_some c D Sp) as [(V & _)|(_ & V)]; [lia|lia|tauto|]. unfold rr_size. rewrite V. reflexivity.
  - intros D. unfold rr_size. rewrite rr_valid_none by exact D. reflexivity.
Qed.

Lemma rr_parse m n : bytes m -> rr_peek mu m = Ok (Some n) -> (n <= length m)%nat -> 
  exists c r0 r1 r2 t, rr_raw c r0 r1 r2 /\ m = field_bytes (rr_fields mu c r0 r1 r2) ++ t /\ n = rr_peeked c.
Proof.
  intros B P L.
  assert (L0 : (4 + fo_size mu <= length m)%nat).
  { unfold rr_peek in P. destruct (ld m 0); try discriminate. cbn [bind] in P. destruct (_ =? 3); [discriminate|]. injection P as P.
    unfold fo_size. destruct (mu <=? 4); lia. }
  destruct (parse_head [3; 2; 1; 1; 1; start_bits mu; 1; 7; 1; 4; 3; 1; 4; 3] (4 + fo_size mu) m B) as (h & m1 & W & Wh & B1 & E); [|exact L0|].
  { cbn [fold_right]. rewrite start_bits_size. lia. }
  destruct h as [|(?, r0) [|(?, n1) [|(?, n2) [|(?, n3) [|(?, n4) [|(?, n5) [|(?, n6) [|(?, n7) [|(?, n8) [|(?, n9) [|(?, n10) [|(?, n11) [|(?, n12) [|(?, n13) [|? ?]]]]]]]]]]]]]]]; try discriminate.
  cbn [map fst] in W. injection W as -> -> -> -> -> -> -> -> -> -> -> -> -> ->.
  pose proof (whole_fits _ Wh) as Fh. fit_hyp. change (2 ^ 1) with 2 in Fh. change (2 ^ 3) with 8 in Fh. change (2 ^ 2) with 4 in Fh. change (2 ^ 4) with 16 in Fh. change (2 ^ 7) with 128 in Fh.
  destruct Fh as (F0 & F1 & F2 & F3 & F4 & F5 & F6 & F7 & F8 & F9 & F10 & F11 & F12 & F13 & _).
  set (h := [(3, r0); (2, n1); (1, n2); (1, n3); (1, n4); (start_bits mu, n5); (1, n6); (7, n7); (1, n8); (4, n9); (3, n10); (1, n11); (4, n12); (3, n13)]) in *.
  assert (C3 : n1 < 3).
  { assert (Hb : exists c0 l, field_bytes h = c0 :: l /\ N.land (N.shiftr c0 3) 3 = n1).
    { unfold h. change (((3, r0) :: (2, n1) :: (1, n2) :: (1, n3) :: (1, n4) :: ?l)) with ([(3, r0); (2, n1); (1, n2); (1, n3); (1, n4)] ++ l).
      rewrite fb_app.
      - rewrite (fb_eq 1) by reflexivity. fbx. cbn [app]. do 2 eexists. split; [reflexivity|]. clear - F0 F1 F2 F3 F4. bits.
      - split; [|reflexivity]. fit_tac.
      - unfold start_bits in *. destruct (mu <=? 4); (split; [fit_tac|reflexivity]). }
    destruct Hb as (c0 & l & Hb & Hb1). rewrite E, Hb in P. unfold rr_peek in P. mcbn in P. rewrite Hb1 in P. destruct (N.eqb_spec n1 3); [discriminate|lia]. }
  set (s := mkRr (dummy_rep n1) (dummy n2 0) (dummy n3 0) (dummy n4 0) (mkAl n5 (n6 =? 1) n7) (n8 =? 1) n9 n10 (n11 =? 1) n12 n13).
  assert (Hs : rr_head s r0 = h).
  { unfold rr_head, s. cbn [rr_repeat rr_sfn_offset rr_channel rr_channel_2 rr_allocation al_start al_in_slots al_length rr_max_in_slots rr_max_length rr_cw_min rr_delay rr_window rr_cw_max].
    assert (Bt : forall x, x < 2 -> bit (x =? 1) = x) by (intros x Hx; unfold bit; destruct (N.eqb_spec x 1); lia).
    rewrite !dummy_present, dummy_rep_field, !Bt by (try assumption; lia). reflexivity. }
  assert (Ho : head_ok s r0).
  { unfold head_ok, s, al_ok. cbn [rr_repeat rr_allocation al_start al_length rr_max_length rr_cw_min rr_window rr_cw_max]. repeat split; try assumption.
    unfold dummy_rep. destruct (n1 =? 0); [exact I|]. cbn [if_present rp_specific]. lia. }
  rewrite E, <- Hs, (rr_peek_raw s r0 m1 Ho) in P. injection P as P.
  assert (L1 : length m = (4 + fo_size mu + length m1)%nat) by (rewrite E, app_length, fb_length, <- Hs, rr_head_nbytes; reflexivity).
  rewrite L1 in L. rewrite E, <- Hs. clearbody s. clear - B1 L P Ho. unfold rr_peeked in P.
  assert (M : (opt_size (rr_sfn_offset s) 1 <= opt_size (rr_sfn_offset s) 4 /\ opt_size (rr_channel s) 2 <= opt_size (rr_channel s) 4)%nat)
    by (destruct (rr_sfn_offset s), (rr_channel s); cbn; lia).
  destruct (parse_rep (rr_repeat s) m1 B1 ltac:(apply is_some_need; lia)) as (rep & m5 & S4 & R4 & I4 & B5 & -> & L5). rewrite (is_some_size _ _ _ S4) in L5.
  destruct (parse_num (is_some (rr_sfn_offset s)) 8 1 m5 B5 eq_refl ltac:(apply is_some_need; lia)) as (sfn & m6 & S5 & I5 & B6 & -> & L6). rewrite (is_some_size _ _ _ S5) in L6.
  destruct (parse_num2 (is_some (rr_channel s)) 3 13 2 m6 B6 eq_refl ltac:(apply is_some_need; lia)) as (ch & r1 & m7 & S6 & I6 & J6 & B7 & -> & L7). rewrite (is_some_size _ _ _ S6) in L7.
  destruct (parse_num2 (is_some (rr_channel_2 s)) 3 13 2 m7 B7 eq_refl ltac:(apply is_some_need; lia)) as (ch2 & r2 & m8 & S7 & I7 & J7 & B8 & -> & L8).
  set (c := mkRr rep sfn ch ch2 (rr_allocation s) (rr_max_in_slots s) (rr_max_length s) (rr_cw_min s) (rr_delay s) (rr_window s) (rr_cw_max s)).
  assert (Hc : rr_head c r0 = rr_head s r0).
  { unfold rr_head. cbn [c rr_repeat rr_sfn_offset rr_channel rr_channel_2 rr_allocation rr_max_in_slots rr_max_length rr_cw_min rr_delay rr_window rr_cw_max].
    rewrite R4, (is_some_present _ _ S5), (is_some_present _ _ S6), (is_some_present _ _ S7). reflexivity. }
  assert (K : rr_raw c r0 r1 r2).
  { split; [|cbn [c rr_repeat rr_sfn_offset rr_channel rr_channel_2]; auto 10].
    destruct Ho as (O1 & O2 & O3). split; [exact O1|]. split; [|exact O3]. cbn [c rr_repeat].
    clear - R4 O2. destruct rep as [[a b x y]|], (rr_repeat s) as [[a' b' x' y']|]; cbn in *; auto; subst; destruct a, b; try reflexivity; try destruct a'; cbn in R4; try lia. }
  exists c, r0, r1, r2, m8. split; [exact K|]. split.
  - destruct (rr_parts c r0 r1 r2 K) as (W0 & W1 & W2 & W3 & W4). rewrite rr_fields_eq, !fb_app by auto 10 using whole_app. rewrite <- !app_assoc, Hc. reflexivity.
  - unfold rr_peeked. cbn [c rr_repeat rr_sfn_offset rr_channel rr_channel_2].
    rewrite (is_some_size _ _ _ S4), (is_some_size _ _ _ S5), (is_some_size _ _ _ S6), (is_some_size _ _ _ S7). lia.
Qed.

Lemma rr_pack_raw c m : rr_ok mu c -> rr_repeat c <> None -> rr_valid mu c = Ok true -> (rr_len c <= length m)%nat ->
  rr_pack mu c m = guard (rr_peeked c =? rr_len c)%nat (Ok (packed (rr_fields mu c 0 0 0) m)).
Proof.
  intros O D V L. pose proof (rr_ok_raw c O) as K. pose proof O as (K1 & K2 & K3 & K4 & _). pose proof (proj1 K) as Ho.
  unfold rr_pack. rewrite V. cbn [bind guard]. unfold rr_len in L. rewrite (rr_head_write c m) by (auto; lia).
  assert (W0 : whole (rr_head c 0)) by now apply rr_head_whole.
  rewrite <- (rr_head_nbytes c 0) at 1.
  destruct (put_at (rr_repeat c) wr_repeat 2 rp_fields m (rr_head c 0)) as (G & W1 & N1); [|exact W0|rewrite rr_head_nbytes; lia|].
  { intros x Ex. rewrite Ex in K1. destruct K1 as (K1 & _). split; [now apply rp_writer|]. split; [reflexivity|]. now apply rp_whole. }
  rewrite rr_head_nbytes in N1. rewrite G. cbn [bind]. clear G.
  edestruct (fun H => put_at (rr_sfn_offset c) wr_byte 1 (fun s => [(8, s)]) m _ H W1) as (G & W5 & N5); [|lia|].
  { intros x Ex. rewrite Ex in K2. cbn [if_present] in K2. split; [now apply writer_wr_byte|]. split; [reflexivity|]. split; [|reflexivity]. fit_tac. }
  rewrite G. cbn [bind]. clear G. rewrite N1 in N5.
  edestruct (fun H => put_at (rr_channel c) wr_channel 2 (ch_fields 0) m _ H W5) as (G & W6 & N6); [|lia|].
  { intros x Ex. rewrite Ex in K3. cbn [if_present] in K3. apply channel_lt in K3. split; [now apply writer_channel|]. split; [reflexivity|]. now apply ch_whole. }
  rewrite G. cbn [bind]. clear G. rewrite N5 in N6.
  edestruct (fun H => put_at (rr_channel_2 c) wr_channel 2 (ch_fields 0) m _ H W6) as (G & W7 & N7); [|lia|].
  { intros x Ex. rewrite Ex in K4. cbn [if_present] in K4. apply channel_lt in K4. split; [now apply writer_channel|]. split; [reflexivity|]. now apply ch_whole. }
  rewrite G. cbn [bind fst snd]. clear G. rewrite N6 in N7. rewrite N7.
  match goal with |- context [packed ?x m] => replace x with (rr_fields mu c 0 0 0) by (rewrite rr_fields_eq; rewrite <- !app_assoc; reflexivity) end.
  unfold packed at 1. rewrite rr_fields_eq, fb_app, <- app_assoc.
  - rewrite rr_peek_raw by exact Ho. cbn [bind]. rewrite <- rr_fields_eq. unfold rr_len. reflexivity.
  - exact W0.
  - destruct (rr_parts c 0 0 0 K) as (? & ? & ? & ? & ?). auto 10 using whole_app.
Qed.
End Random.
