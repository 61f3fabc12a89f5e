(** Lemmas on the resource allocation IE and the random access resource IE. *)
From Verif Require Import Base Bytes WireSpec BitSolve ByteFacts Fields MacHeader Channels ChannelsSpec IeBase Beacons BeaconsSpec IeFacts IeCursor
  ResourceIes ResourceIesSpec.
Open Scope N_scope.

Lemma start_bits_size mu : start_bits mu = 8 * N.of_nat (fo_size mu).
Proof. unfold start_bits, fo_size. destruct (mu <=? 4); reflexivity. Qed.
Lemma al_whole mu a : al_ok mu a -> whole (al_fields mu a).
Proof.
  intros (H1 & H2). unfold al_fields, start_bits in *. pose proof (bit_lt (al_in_slots a)).
  destruct (mu <=? 4); (split; [fit_tac|reflexivity]).
Qed.
Lemma al_nbytes mu a : nbytes (al_fields mu a) = (fo_size mu + 1)%nat.
Proof. unfold al_fields, start_bits, fo_size. destruct (mu <=? 4); reflexivity. Qed.
Lemma al_writer mu a : al_ok mu a -> writer (wr_allocation mu a) (al_fields mu a).
Proof.
  intros (H1 & H2) pre rest L. rewrite al_nbytes in *. unfold wr_allocation, al_fields, start_bits, fo_size in *.
  pose proof (bit_lt (al_in_slots a)) as H3. rewrite bit_b2n. set (x := bit (al_in_slots a)) in *. clearbody x.
  destruct a as [s t l]. cbn [al_start al_length] in *.
  destruct (mu <=? 4).
  - change (2 ^ 8) with 256 in H1. rewrite l2b_app0, bind_behind, (fb_eq 2) by reflexivity. fbx. cells rest 2%nat. mcbn.
    rewrite st_app, bind_behind. mcbn. rewrite orst_app. mcbn. rewrite behind_ok. cells_eq.
  - change (2 ^ 16) with 65536 in H1. rewrite l2b_app0, bind_behind, (fb_eq 3) by reflexivity. fbx. cells rest 3%nat. mcbn.
    rewrite st_app, bind_behind. mcbn. rewrite orst_app. mcbn. rewrite behind_ok. cells_eq.
Qed.
Lemma bit_of b x : x = bit b -> negb (x =? 0) = b.
Proof. intros ->. destruct b; reflexivity. Qed.
Lemma al_reader mu a : al_ok mu a -> reader (rd_allocation mu) (al_fields mu a) a.
Proof.
  intros (H1 & H2) pre tail. unfold rd_allocation, al_fields, start_bits, fo_size in *.
  pose proof (bit_lt (al_in_slots a)) as H3. destruct a as [s t l]. cbn [al_start al_length al_in_slots] in *.
  destruct (mu <=? 4).
  - change (2 ^ 8) with 256 in H1. rewrite b2l_app0, ld_app, (fb_eq 2) by reflexivity. fbx. mcbn. f_equal. f_equal; [bits| |bits].
    apply bit_of. set (x := bit t) in *. clearbody x. bits.
  - change (2 ^ 16) with 65536 in H1. rewrite b2l_app0, ld_app, (fb_eq 3) by reflexivity. fbx. mcbn. f_equal. f_equal; [bits| |bits].
    apply bit_of. set (x := bit t) in *. clearbody x. bits.
Qed.
Lemma rp_writer r : rp_ok r -> writer (wr_repeat r) (rp_fields r).
Proof.
  intros (H1 & H2) pre rest L. change (nbytes (rp_fields r)) with 2%nat in *. unfold wr_repeat, rp_fields.
  destruct r as [a b c d]. cbn [rp_repetition rp_validity] in *. assert (c < 256) by lia.
  rewrite st_app0, bind_behind, (fb_eq 2) by reflexivity. fbx. cells rest 2%nat. mcbn. rewrite st_app. mcbn. rewrite behind_ok. cells_eq.
Qed.
Lemma rp_reader r : rp_ok r -> reader rd_two (rp_fields r) (rp_repetition r, rp_validity r).
Proof.
  intros (H1 & H2) pre tail. unfold rd_two, rp_fields. destruct r as [a b c d]. cbn [rp_repetition rp_validity] in *. assert (c < 256) by lia.
  rewrite ld_app0, ld_app, (fb_eq 2) by reflexivity. fbx. mcbn. f_equal. f_equal; bits.
Qed.
Lemma rp_whole r : rp_ok r -> whole (rp_fields r).
Proof. intros (H1 & H2). split; [|reflexivity]. unfold rp_fields. fit_tac. Qed.
Lemma ch_whole r n : r < 8 -> n < 8192 -> whole (ch_fields r n).
Proof. intros Hr H. split; [|reflexivity]. unfold ch_fields. fit_tac. Qed.
Lemma reader_channel' r v : r < 8 -> v < 8192 ->
  reader (fun m i => do hi <- ld m i ; do lo <- ld m (i + 1) ; Ok (N.land (N.lor (N.shiftl hi 8) lo) 8191)) (ch_fields r v) v.
Proof. intros Hr Hv pre tail. cbv beta. unfold ch_fields. rewrite ld_app, ld_app0, (fb_eq 2) by reflexivity. fbx. mcbn. f_equal. bits. Qed.

Lemma al_valid_iff mu a : al_valid mu a = true <-> al_ok mu a.
Proof. unfold al_valid, al_ok, start_bits. destruct (mu <=? 4); [change (2 ^ 8) with 256|change (2 ^ 16) with 65536]; lia. Qed.
Lemma rp_valid_iff r : rp_valid r = true <-> rp_ok r.
Proof. unfold rp_valid, rp_ok. lia. Qed.
Lemma opt_all_if {A} (p : A -> bool) (P : A -> Prop) o : (forall x, p x = true <-> P x) -> (opt_all p o = true <-> if_present P o).
Proof. intros H. destruct o; cbn; [apply H|tauto]. Qed.

(** Received bytes as fields of given widths, or as nothing. *)
Lemma parse_if (p : bool) ws k m : bytes m -> fold_right N.add 0 ws = 8 * N.of_nat k -> (p = true -> (k <= length m)%nat) ->
  exists l tail, map fst l = (if p then ws else []) /\ whole l /\ bytes tail /\ m = field_bytes l ++ tail /\ length tail = (length m - (if p then k else 0))%nat.
Proof.
  intros B W L. destruct p.
  - destruct (parse_head ws k m B W (L eq_refl)) as (l & tail & H1 & H2 & H3 & H4). exists l, tail. repeat split; try assumption; try apply H2.
    rewrite H4, app_length, fb_length. enough (nbytes l = k) by lia.
    unfold nbytes. rewrite width_fst, H1, W. rewrite N.mul_comm, N.div_mul by lia. apply Nat2N.id.
  - exists [], m. rewrite fb_nil. repeat split; auto; try constructor. lia.
Qed.
Lemma whole_fits l : whole l -> fields_fit l. Proof. intros (H & _). exact H. Qed.

(** ** Resource allocation *)
Definition ra_head (c : resource_allocation) (r0 : N) : list (N * N) :=
  [(1, present (ra_ul c)); (1, present (ra_dl c)); (1, bit (ra_additional c)); (1, present (ra_short_rd_id c));
   (3, repeat_field (ra_repeat c)); (1, present (ra_sfn_offset c));
   (1, present (ra_channel c)); (1, present (ra_failure c)); (6, r0)].
Lemma repeat_field_lt o : repeat_field o < 5.
Proof. destruct o as [[a b ? ?]|]; cbn [repeat_field rp_in_subslots rp_specific]; [destruct a, b; cbn; lia|lia]. Qed.
Lemma ra_head_whole c r0 : r0 < 64 -> whole (ra_head c r0).
Proof.
  intros R. split; [|reflexivity]. unfold ra_head. pose proof (present_lt (ra_ul c)). pose proof (present_lt (ra_dl c)). pose proof (bit_lt (ra_additional c)).
  pose proof (present_lt (ra_short_rd_id c)). pose proof (repeat_field_lt (ra_repeat c)). pose proof (present_lt (ra_sfn_offset c)).
  pose proof (present_lt (ra_channel c)). pose proof (present_lt (ra_failure c)). fit_tac.
Qed.
Lemma ra_head_bytes c r0 : r0 < 64 -> exists b0 b1, field_bytes (ra_head c r0) = [b0; b1] /\
  N.shiftr b0 6 = N.lor (N.shiftl (present (ra_ul c)) 1) (present (ra_dl c)) /\
  N.land (N.shiftr b0 7) 1 = present (ra_ul c) /\ N.land (N.shiftr b0 6) 1 = present (ra_dl c) /\
  N.land (N.shiftr b0 5) 1 = bit (ra_additional c) /\ N.land (N.shiftr b0 4) 1 = present (ra_short_rd_id c) /\
  N.land (N.shiftr b0 1) 7 = repeat_field (ra_repeat c) /\ N.land b0 1 = present (ra_sfn_offset c) /\
  N.shiftr b1 7 = present (ra_channel c) /\ N.land (N.shiftr b1 7) 1 = present (ra_channel c) /\ N.land (N.shiftr b1 6) 1 = present (ra_failure c).
Proof.
  intros R.
  pose proof (present_lt (ra_ul c)). pose proof (present_lt (ra_dl c)). pose proof (bit_lt (ra_additional c)).
  pose proof (present_lt (ra_short_rd_id c)). pose proof (repeat_field_lt (ra_repeat c)). pose proof (present_lt (ra_sfn_offset c)).
  pose proof (present_lt (ra_channel c)). pose proof (present_lt (ra_failure c)).
  rewrite (fb_eq 2) by reflexivity. unfold ra_head. fbx.
  set (x1 := present (ra_ul c)) in *. set (x2 := present (ra_dl c)) in *. set (x3 := bit (ra_additional c)) in *.
  set (x4 := present (ra_short_rd_id c)) in *. set (x5 := repeat_field (ra_repeat c)) in *. set (x6 := present (ra_sfn_offset c)) in *.
  set (x7 := present (ra_channel c)) in *. set (x8 := present (ra_failure c)) in *.
  assert (x5 < 8) by lia.
  clearbody x1 x2 x3 x4 x5 x6 x7 x8. clear H3. do 2 eexists. split; [reflexivity|]. repeat split; bits.
Qed.
Lemma flag0 {A} (o : option A) b : N.land b 1 = present o -> flag b 0 = is_some o.
Proof. intros H. apply flag_present. now rewrite N.shiftr_0_r. Qed.
Lemma code_zero o : negb (repeat_field o =? 0) = is_some o.
Proof. destruct o as [[a b ? ?]|]; [|reflexivity]. destruct a, b; reflexivity. Qed.
Lemma ul_dl_zero {A} (u d : option A) : (N.lor (N.shiftl (present u) 1) (present d) =? 0) = negb (is_some d) && negb (is_some u).
Proof. destruct u, d; reflexivity. Qed.
Lemma ul_dl_both {A} (u d : option A) : (N.lor (N.shiftl (present u) 1) (present d) =? 3) = is_some d && is_some u.
Proof. destruct u, d; reflexivity. Qed.

Section Alloc.
Variable mu : N.
(** The values the fields can hold. *)
Definition ra_raw (c : resource_allocation) (r0 r1 r2 : N) : Prop :=
  if_present (al_ok mu) (ra_dl c) /\ if_present (al_ok mu) (ra_ul c) /\
  if_present (fun s => s < 2 ^ 16) (ra_short_rd_id c) /\ if_present (fun r => rp_repetition r < 256 /\ rp_validity r < 256) (ra_repeat c) /\
  if_present (fun s => s < 256) (ra_sfn_offset c) /\ if_present (fun n => n < 8192) (ra_channel c) /\
  if_present (fun f => f < 16) (ra_failure c) /\ r0 < 64 /\ r1 < 8 /\ r2 < 16.
Lemma ra_ok_raw c : ra_ok mu c -> ra_raw c 0 0 0.
Proof.
  intros (H1 & H2 & H3 & H4 & H5 & H6 & H7). unfold ra_raw. repeat split; try assumption; try lia.
  - destruct (ra_repeat c) as [r|]; [|exact I]. destruct H4 as (H4 & H4'). cbn. lia.
  - destruct (ra_channel c) as [n|]; [|exact I]. now apply channel_lt.
  - destruct (ra_failure c) as [n|]; [|exact I]. cbn in *. lia.
Qed.
Lemma rp_whole' r : rp_repetition r < 256 /\ rp_validity r < 256 -> whole (rp_fields r).
Proof. intros (H1 & H2). split; [|reflexivity]. unfold rp_fields. fit_tac. Qed.
Lemma rp_reader' r : rp_repetition r < 256 /\ rp_validity r < 256 -> reader rd_two (rp_fields r) (rp_repetition r, rp_validity r).
Proof.
  intros (H1 & H2) pre tail. unfold rd_two, rp_fields. destruct r as [a b c d]. cbn [rp_repetition rp_validity] in *.
  rewrite ld_app0, ld_app, (fb_eq 2) by reflexivity. fbx. mcbn. f_equal. f_equal; bits.
Qed.

Definition f_dl c := field_opt (ra_dl c) (al_fields mu).
Definition f_ul c := field_opt (ra_ul c) (al_fields mu).
Definition f_srd c := field_opt (ra_short_rd_id c) (fun s => [(16, s)]).
Definition f_rep c := field_opt (ra_repeat c) rp_fields.
Definition f_sfn c := field_opt (ra_sfn_offset c) (fun s => [(8, s)]).
Definition f_ch c r1 := field_opt (ra_channel c) (ch_fields r1).
Definition f_fl c r2 := field_opt (ra_failure c) (fun f => [(4, r2); (4, f)]).
Lemma ra_fields_eq c r0 r1 r2 : ra_fields mu c r0 r1 r2 =
  ra_head c r0 ++ f_dl c ++ f_ul c ++ f_srd c ++ f_rep c ++ f_sfn c ++ f_ch c r1 ++ f_fl c r2.
Proof. reflexivity. Qed.
Definition ra_parts c r0 r1 r2 : Prop :=
  whole (ra_head c r0) /\ whole (f_dl c) /\ whole (f_ul c) /\ whole (f_srd c) /\ whole (f_rep c) /\ whole (f_sfn c) /\ whole (f_ch c r1) /\ whole (f_fl c r2).
Lemma ra_parts_whole c r0 r1 r2 : ra_raw c r0 r1 r2 -> ra_parts c r0 r1 r2.
Proof.
  intros (K1 & K2 & K3 & K4 & K5 & K6 & K7 & K8 & K9 & K10).
  split; [now apply ra_head_whole|].
  unfold f_dl, f_ul, f_srd, f_rep, f_sfn, f_ch, f_fl.
  repeat match goal with |- _ /\ _ => split end; apply whole_opt; intros x E; rewrite ?E in *; cbn [if_present] in *;
    try (apply al_whole; assumption); try (apply rp_whole'; assumption); try (apply ch_whole; assumption);
    (split; [|reflexivity]; fit_tac).
Qed.
Lemma ra_whole c r0 r1 r2 : ra_raw c r0 r1 r2 -> whole (ra_fields mu c r0 r1 r2).
Proof. intros K. rewrite ra_fields_eq. destruct (ra_parts_whole c r0 r1 r2 K) as (W0 & W1 & W2 & W3 & W4 & W5 & W6 & W7). auto 10 using whole_app. Qed.

(** Number of bytes of an element that is not a release. *)
Definition ra_len (c : resource_allocation) : nat :=
  (2 + opt_size (ra_dl c) (fo_size mu + 1) + opt_size (ra_ul c) (fo_size mu + 1) + opt_size (ra_short_rd_id c) 2 + opt_size (ra_repeat c) 2 +
   opt_size (ra_sfn_offset c) 1 + opt_size (ra_channel c) 2 + opt_size (ra_failure c) 1)%nat.
Lemma n_dl c : nbytes (f_dl c) = opt_size (ra_dl c) (fo_size mu + 1). Proof. apply nbytes_opt. intros. apply al_nbytes. Qed.
Lemma n_ul c : nbytes (f_ul c) = opt_size (ra_ul c) (fo_size mu + 1). Proof. apply nbytes_opt. intros. apply al_nbytes. Qed.
Lemma n_srd c : nbytes (f_srd c) = opt_size (ra_short_rd_id c) 2. Proof. apply nbytes_opt. reflexivity. Qed.
Lemma n_rep c : nbytes (f_rep c) = opt_size (ra_repeat c) 2. Proof. apply nbytes_opt. reflexivity. Qed.
Lemma n_sfn c : nbytes (f_sfn c) = opt_size (ra_sfn_offset c) 1. Proof. apply nbytes_opt. reflexivity. Qed.
Lemma n_ch c r1 : nbytes (f_ch c r1) = opt_size (ra_channel c) 2. Proof. apply nbytes_opt. reflexivity. Qed.
Lemma n_fl c r2 : nbytes (f_fl c r2) = opt_size (ra_failure c) 1. Proof. apply nbytes_opt. reflexivity. Qed.
Lemma ra_nbytes c r0 r1 r2 : ra_raw c r0 r1 r2 -> nbytes (ra_fields mu c r0 r1 r2) = ra_len c.
Proof.
  intros K. rewrite ra_fields_eq. destruct (ra_parts_whole c r0 r1 r2 K) as (W0 & W1 & W2 & W3 & W4 & W5 & W6 & W7).
  rewrite !nbytes_app by assumption. rewrite n_dl, n_ul, n_srd, n_rep, n_sfn, n_ch, n_fl. change (nbytes (ra_head c r0)) with 2%nat. unfold ra_len. lia.
Qed.

Lemma ra_peek_raw c r0 t : r0 < 64 -> (ra_dl c <> None \/ ra_ul c <> None) -> ra_peek mu (field_bytes (ra_head c r0) ++ t) = Ok (Some (ra_len c)).
Proof.
  intros R H. destruct (ra_head_bytes c r0 R) as (b0 & b1 & -> & E1 & E2 & E3 & E4 & E5 & E6 & E7 & E8 & E9 & E10).
  unfold ra_peek. mcbn. rewrite E1, ul_dl_zero, ul_dl_both, E6, E7, E8, E10, (flag_present _ _ _ E5).
  replace (negb (is_some (ra_dl c)) && negb (is_some (ra_ul c))) with false by (destruct (ra_dl c), (ra_ul c); cbn; try reflexivity; destruct H; congruence).
  pose proof (repeat_field_lt (ra_repeat c)). replace (4 <? repeat_field (ra_repeat c)) with false by lia.
  rewrite <- (negb_involutive (repeat_field (ra_repeat c) =? 0)), code_zero. rewrite !opt_size_present, !to_nat_present. do 2 f_equal.
  unfold ra_len, fo_size. destruct (ra_dl c), (ra_ul c), (ra_short_rd_id c), (ra_repeat c); cbn [is_some opt_size andb negb];
    destruct (mu <=? 4); try lia; destruct H; congruence.
Qed.
Definition ra_dec (c : resource_allocation) : resource_allocation :=
  mkRa (ra_dl c) (ra_ul c) (ra_additional c) (ra_short_rd_id c) (ra_repeat c) (ra_sfn_offset c) (ra_channel c)
    (option_map (from_coded_lower 1 12) (ra_failure c)).
Lemma repeat_code_sub r : ((repeat_field (Some r) =? 2) || (repeat_field (Some r) =? 4)) = rp_in_subslots r.
Proof. destruct r as [[] [] ? ?]; reflexivity. Qed.
Lemma repeat_code_spec r : ((repeat_field (Some r) =? 3) || (repeat_field (Some r) =? 4)) = rp_specific r.
Proof. destruct r as [[] [] ? ?]; reflexivity. Qed.
Lemma repeat_code_eq r : repeat_code r = repeat_field (Some r).
Proof. destruct r as [[] [] ? ?]; reflexivity. Qed.

Lemma ra_unpack_raw c r0 r1 r2 t : ra_raw c r0 r1 r2 -> (ra_dl c <> None \/ ra_ul c <> None) ->
  ra_unpack mu (field_bytes (ra_fields mu c r0 r1 r2) ++ t) =
  (do n <- ra_size mu (ra_dec c) ; guard (n =? ra_len c)%nat (do v <- ra_valid mu (ra_dec c) ; Ok (ra_dec c, v))).
Proof.
  intros K H. pose proof K as (K1 & K2 & K3 & K4 & K5 & K6 & K7 & K8 & K9 & K10).
  destruct (ra_parts_whole c r0 r1 r2 K) as (W0 & W1 & W2 & W3 & W4 & W5 & W6 & W7).
  destruct (ra_head_bytes c r0 K8) as (b0 & b1 & E & E1 & E2 & E3 & E4 & E5 & E6 & E7 & E8 & E9 & E10).
  rewrite ra_fields_eq, !fb_app by auto 10 using whole_app. rewrite E, <- !app_assoc.
  match goal with |- ra_unpack mu ?x = _ => set (m := x) end.
  assert (D0 : ld m 0 = Ok b0) by reflexivity. assert (D1 : ld m 1 = Ok b1) by reflexivity.
  assert (P : skipn 2 m = field_bytes (f_dl c) ++ field_bytes (f_ul c) ++ field_bytes (f_srd c) ++ field_bytes (f_rep c) ++ field_bytes (f_sfn c) ++
    field_bytes (f_ch c r1) ++ field_bytes (f_fl c r2) ++ t) by reflexivity.
  clearbody m. unfold ra_unpack. rewrite D0. cbn [bind]. rewrite E1, ul_dl_zero.
  replace (negb (is_some (ra_dl c)) && negb (is_some (ra_ul c))) with false by (destruct (ra_dl c), (ra_ul c); cbn; try reflexivity; destruct H; congruence).
  rewrite (flag_present _ _ _ E2), (flag_present _ _ _ E3), (flag_bit _ _ _ E4), (flag_present _ _ _ E5), E6, (flag0 _ _ E7).
  destruct (get_at (ra_dl c) (rd_allocation mu) (fo_size mu + 1) (al_fields mu) (fun x => x) _ m 2 _ P eq_refl ltac:(lia)) as (G & P1); clear P.
  { intros x Ex. rewrite Ex in K1. split; [now apply al_reader|apply al_nbytes]. }
  rewrite G, opt_map_id. cbn [bind]. clear G.
  destruct (get_at (ra_ul c) (rd_allocation mu) (fo_size mu + 1) (al_fields mu) (fun x => x) _ m _ _ P1 eq_refl ltac:(lia)) as (G & P2); clear P1.
  { intros x Ex. rewrite Ex in K2. split; [now apply al_reader|apply al_nbytes]. }
  rewrite G, opt_map_id. cbn [bind]. clear G.
  destruct (get_at (ra_short_rd_id c) (rd_num 2) 2 (fun s => [(16, s)]) (fun x => x) _ m _ _ P2 eq_refl ltac:(lia)) as (G & P3); clear P2.
  { intros x Ex. rewrite Ex in K3. split; [now apply reader_num2|reflexivity]. }
  rewrite G, opt_map_id. cbn [bind]. clear G.
  pose proof (repeat_field_lt (ra_repeat c)). replace (4 <? repeat_field (ra_repeat c)) with false by lia. rewrite code_zero.
  destruct (get_at (ra_repeat c) rd_two 2 rp_fields (fun r => (rp_repetition r, rp_validity r)) _ m _ _ P3 eq_refl ltac:(lia)) as (G & P4); clear P3.
  { intros x Ex. rewrite Ex in K4. split; [now apply rp_reader'|reflexivity]. }
  rewrite G. cbn [bind]. clear G.
  destruct (get_at (ra_sfn_offset c) (fun m i => ld m i) 1 (fun s => [(8, s)]) (fun x => x) _ m _ _ P4 eq_refl ltac:(lia)) as (G & P5); clear P4.
  { intros x Ex. rewrite Ex in K5. split; [now apply reader_ld|reflexivity]. }
  rewrite G, opt_map_id, D1. cbn [bind]. clear G. rewrite (flag_present _ _ _ E9), (flag_present _ _ _ E10).
  destruct (get_at (ra_channel c) (fun m i => do hi <- ld m i ; do lo <- ld m (i + 1) ; Ok (N.land (N.lor (N.shiftl hi 8) lo) 8191)) 2 (ch_fields r1) (fun x => x) _ m _ _ P5 eq_refl ltac:(lia)) as (G & P6); clear P5.
  { intros x Ex. rewrite Ex in K6. split; [now apply reader_channel'|reflexivity]. }
  rewrite G, opt_map_id. cbn [bind]. clear G.
  destruct (get_at (ra_failure c) (fun m i => do v <- rd_low4 m i ; Ok (from_coded_lower 1 12 v)) 1 (fun f => [(4, r2); (4, f)]) (from_coded_lower 1 12) _ m _ _ P6 eq_refl ltac:(lia)) as (G & P7); clear P6.
  { intros x Ex. rewrite Ex in K7. split; [apply reader_map; now apply reader_low4|reflexivity]. }
  rewrite G. cbn [bind]. clear G.
  match goal with |- context [mkRa _ _ _ _ ?r _ _ _] => replace r with (ra_repeat c) end.
  2: { destruct (ra_repeat c) as [r|] eqn:Er; [|reflexivity]. cbn [option_map fst snd]. rewrite repeat_code_sub, repeat_code_spec. destruct r; reflexivity. }
  fold (ra_dec c). unfold ra_len. 
  match goal with |- context [(_ =? 2 + ?a + ?b + ?cc + ?d + ?e + ?f + ?g)%nat] => idtac end.
  destruct (ra_size mu (ra_dec c)); reflexivity.
Qed.

Lemma ra_valid_full c : ra_full c -> if_present (fun f => f <= 12 \/ f = UNDEF32) (ra_failure c) -> if_present (fun f => f <> 0) (ra_failure c) ->
  (ra_ok mu c /\ ra_valid mu c = Ok true) \/ (~ ra_ok mu c /\ ra_valid mu c = Ok false).
Proof.
  intros (H1 & H2 & H3) F F0. unfold ra_valid, ra_ok. destruct (ra_dl c) as [d|]; [|congruence]. destruct (ra_ul c) as [u|]; [|congruence].
  destruct (ra_repeat c) as [r|]; [|congruence]. cbn [is_some negb andb value bind if_present].
  rewrite <- !al_valid_iff, <- rp_valid_iff.
  pose proof (opt_all_if (fun s => s <=? 65535) (fun s => s < 2 ^ 16) (ra_short_rd_id c) ltac:(intros; cbv beta; change (2 ^ 16) with 65536; lia)) as Q1.
  pose proof (opt_all_if (fun s => s <=? 255) (fun s => s < 256) (ra_sfn_offset c) ltac:(intros; cbv beta; lia)) as Q2.
  pose proof (opt_all_if channel_in_range channel (ra_channel c) channel_range) as Q3.
  assert (Q4 : opt_all (enum_valid_lower 1 12) (ra_failure c) = true <-> if_present (fun f => 2 <= f <= 11) (ra_failure c))
    by (destruct (ra_failure c) as [f|]; cbn [if_present opt_all] in *; [unfold enum_valid_lower, UNDEF32 in *; lia|tauto]).
  rewrite <- Q1, <- Q2, <- Q3, <- Q4.
  destruct (al_valid mu d), (al_valid mu u), (opt_all (fun s => s <=? 65535) (ra_short_rd_id c)), (rp_valid r), (opt_all (fun s => s <=? 255) (ra_sfn_offset c)),
    (opt_all channel_in_range (ra_channel c)), (opt_all (enum_valid_lower 1 12) (ra_failure c)); cbn [negb andb]; intuition discriminate.
Qed.
Lemma ra_valid_partial c : if_present (al_ok mu) (ra_dl c) -> if_present (al_ok mu) (ra_ul c) -> if_present (fun s => s < 2 ^ 16) (ra_short_rd_id c) ->
  (ra_dl c <> None \/ ra_ul c <> None) -> ~ ra_full c -> ra_valid mu c = Throw.
Proof.
  intros K1 K2 K3 H F. unfold ra_valid, ra_full in *.
  destruct (ra_dl c) as [d|] eqn:D; cbn [is_some negb andb value bind].
  - apply al_valid_iff in K1. rewrite K1. cbn [negb]. destruct (ra_ul c) as [u|] eqn:U; cbn [value bind]; [|reflexivity].
    apply al_valid_iff in K2. rewrite K2. cbn [negb].
    pose proof (opt_all_if (fun s => s <=? 65535) (fun s => s < 2 ^ 16) (ra_short_rd_id c) ltac:(intros; cbv beta; change (2 ^ 16) with 65536; lia)) as Q1.
    apply Q1 in K3. rewrite K3. cbn [negb]. destruct (ra_repeat c); [|reflexivity]. exfalso. apply F. repeat split; discriminate.
  - destruct (ra_ul c); [reflexivity|]. destruct H; congruence.
Qed.
Lemma ra_full_size c : ra_full c -> ra_valid mu c = Ok true -> ra_size mu c = Ok (ra_len c).
Proof.
  intros (H1 & H2 & _) V. unfold ra_size. rewrite V. cbn [bind guard]. unfold ra_len, fo_size. destruct (ra_dl c); [|congruence]. destruct (ra_ul c); [|congruence].
  cbn [is_some andb negb opt_size]. f_equal. destruct (mu <=? 4); lia.
Qed.
Lemma dec_failure o : if_present (fun f => f < 16) o -> if_present (fun f => f <= 12 \/ f = UNDEF32) (option_map (from_coded_lower 1 12) o) /\
  if_present (fun f => f <> 0) (option_map (from_coded_lower 1 12) o) .
Proof.
  destruct o as [f|]; cbn; [|auto]. unfold from_coded_lower, UNDEF32. intros H. destruct (N.ltb_spec 1 f), (N.ltb_spec f 12); cbn [andb]; lia.
Qed.
Lemma ra_ok_dec c : ra_ok mu c -> ra_dec c = c.
Proof.
  intros (_ & _ & _ & _ & _ & _ & H). destruct c as [d u a s r f ch fl]. unfold ra_dec. cbn [ra_dl ra_ul ra_additional ra_short_rd_id ra_repeat ra_sfn_offset ra_channel ra_failure] in *.
  f_equal. destruct fl as [x|]; [|reflexivity]. cbn [option_map if_present] in *. rewrite coded_lower_id by lia. reflexivity.
Qed.
Lemma ra_dec_ok c : ra_ok mu (ra_dec c) -> ra_ok mu c.
Proof.
  intros (H1 & H2 & H3 & H4 & H5 & H6 & H7). repeat split; try assumption. cbn [ra_dec ra_failure] in H7.
  destruct (ra_failure c) as [x|]; [|exact I]. cbn [option_map if_present] in *. unfold from_coded_lower, UNDEF32 in H7.
  destruct (N.ltb_spec 1 x), (N.ltb_spec x 12); cbn [andb] in *; lia.
Qed.

(** What the receiver makes of an element that is not a release. *)
Lemma ra_receive c r0 r1 r2 t : ra_raw c r0 r1 r2 -> (ra_dl c <> None \/ ra_ul c <> None) ->
  let r := ra_unpack mu (field_bytes (ra_fields mu c r0 r1 r2) ++ t) in
  (ra_full c -> ra_ok mu c -> r = Ok (c, true)) /\ (ra_full c -> ~ ra_ok mu c -> r = Abort) /\ (~ ra_full c -> r = Throw).
Proof.
  intros K H r. unfold r. rewrite ra_unpack_raw by assumption. pose proof K as (K1 & K2 & K3 & K4 & K5 & K6 & K7 & K8 & K9 & K10). split; [|split].
  - intros F O. rewrite (ra_ok_dec c O). destruct (dec_failure _ K7) as (D1 & D2).
    destruct (ra_valid_full (ra_dec c) F D1 D2) as [(_ & V)|(V & _)]; [|exfalso; apply V; now rewrite ra_ok_dec].
    rewrite (ra_ok_dec c O) in V. rewrite (ra_full_size c F V), V. cbn [bind guard]. rewrite Nat.eqb_refl. reflexivity.
  - intros F O. destruct (dec_failure _ K7) as (D1 & D2).
    destruct (ra_valid_full (ra_dec c) F D1 D2) as [(V & _)|(_ & V)]; [exfalso; apply O; now apply ra_dec_ok|].
    unfold ra_size. rewrite V. reflexivity.
  - intros F. unfold ra_size. rewrite (ra_valid_partial (ra_dec c)); try assumption. reflexivity.
Qed.


(** The parts of an element from received bytes. *)
Lemma parse_al (p : bool) m : bytes m -> (p = true -> (fo_size mu + 1 <= length m)%nat) ->
  exists o tail, is_some o = p /\ if_present (al_ok mu) o /\ bytes tail /\ m = field_bytes (field_opt o (al_fields mu)) ++ tail /\
    length tail = (length m - opt_size o (fo_size mu + 1))%nat.
Proof.
  intros B L. destruct (parse_if p [start_bits mu; 1; 7] (fo_size mu + 1) m B) as (l & tail & W & Wh & Bt & E & Ln); [|exact L|].
  { cbn [fold_right]. rewrite start_bits_size. lia. }
  destruct p.
  - destruct l as [|(?, s) [|(?, f) [|(?, n) [|? ?]]]]; try discriminate. cbn [map fst] in W. injection W as -> -> ->.
    pose proof (whole_fits _ Wh) as F. fit_hyp. destruct F as (F1 & F2 & F3 & _). change (2 ^ 1) with 2 in F2. change (2 ^ 7) with 128 in F3.
    exists (Some (mkAl s (f =? 1) n)), tail. cbn [is_some if_present field_opt opt_size]. repeat split; auto.
    rewrite E at 1. do 2 f_equal. unfold al_fields. cbn [al_start al_in_slots al_length]. do 2 f_equal. f_equal. unfold bit. destruct (N.eqb_spec f 1); lia.
  - destruct l; [|discriminate]. exists None, tail. cbn. repeat split; auto.
Qed.
Lemma parse_rep (o0 : option repeat_info) m : bytes m -> (is_some o0 = true -> (2 <= length m)%nat) ->
  exists o tail, is_some o = is_some o0 /\ repeat_field o = repeat_field o0 /\ if_present (fun r => rp_repetition r < 256 /\ rp_validity r < 256) o /\ bytes tail /\
    m = field_bytes (field_opt o rp_fields) ++ tail /\ length tail = (length m - opt_size o 2)%nat.
Proof.
  intros B L. destruct (parse_if (is_some o0) [8; 8] 2 m B eq_refl L) as (l & tail & W & Wh & Bt & E & Ln).
  destruct o0 as [r|]; cbn [is_some] in *.
  - destruct l as [|(?, a) [|(?, b) [|? ?]]]; try discriminate. cbn [map fst] in W. injection W as -> ->.
    pose proof (whole_fits _ Wh) as F. fit_hyp. destruct F as (F1 & F2 & _). change (2 ^ 8) with 256 in *.
    exists (Some (mkRp (rp_in_subslots r) (rp_specific r) a b)), tail. cbn [is_some if_present field_opt opt_size]. repeat split; auto.
  - destruct l; [|discriminate]. exists None, tail. cbn. repeat split; auto.
Qed.
Lemma parse_num (p : bool) w k m : bytes m -> w = 8 * N.of_nat k -> (p = true -> (k <= length m)%nat) ->
  exists o tail, is_some o = p /\ if_present (fun s => s < 2 ^ w) o /\ bytes tail /\ m = field_bytes (field_opt o (fun s => [(w, s)])) ++ tail /\
    length tail = (length m - opt_size o k)%nat.
Proof.
  intros B Hw L. destruct (parse_if p [w] k m B) as (l & tail & W & Wh & Bt & E & Ln); [cbn; lia|exact L|]. destruct p.
  - destruct l as [|(?, a) [|? ?]]; try discriminate. cbn [map fst] in W. injection W as ->.
    pose proof (whole_fits _ Wh) as F. fit_hyp. destruct F as (F1 & _).
    exists (Some a), tail. cbn [is_some if_present field_opt opt_size]. repeat split; auto.
  - destruct l; [|discriminate]. exists None, tail. cbn. repeat split; auto.
Qed.
Lemma parse_num2 (p : bool) w1 w2 k m : bytes m -> w1 + w2 = 8 * N.of_nat k -> (p = true -> (k <= length m)%nat) ->
  exists o r tail, is_some o = p /\ if_present (fun s => s < 2 ^ w2) o /\ r < 2 ^ w1 /\ bytes tail /\ m = field_bytes (field_opt o (fun s => [(w1, r); (w2, s)])) ++ tail /\
    length tail = (length m - opt_size o k)%nat.
Proof.
  intros B Hw L. destruct (parse_if p [w1; w2] k m B) as (l & tail & W & Wh & Bt & E & Ln); [cbn; lia|exact L|]. destruct p.
  - destruct l as [|(?, r) [|(?, a) [|? ?]]]; try discriminate. cbn [map fst] in W. injection W as -> ->.
    pose proof (whole_fits _ Wh) as F. fit_hyp. destruct F as (F1 & F2 & _).
    exists (Some a), r, tail. cbn [is_some if_present field_opt opt_size]. repeat split; auto.
  - destruct l; [|discriminate]. exists None, 0, tail. cbn. repeat split; auto. assert (2 ^ w1 <> 0) by (apply N.pow_nonzero; lia). lia.
Qed.
Lemma is_some_size {A B} (a : option A) (b : option B) k : is_some a = is_some b -> opt_size a k = opt_size b k.
Proof. destruct a, b; cbn; congruence. Qed.
Lemma is_some_present {A B} (a : option A) (b : option B) : is_some a = is_some b -> present a = present b.
Proof. destruct a, b; cbn; congruence. Qed.
Lemma is_some_none {A B} (a : option A) (b : option B) : is_some a = is_some b -> b <> None -> a <> None.
Proof. destruct a, b; cbn; congruence. Qed.
Lemma is_some_need {A} (o : option A) k n : (opt_size o k <= n)%nat -> is_some o = true -> (k <= n)%nat.
Proof. destruct o; cbn; [auto|discriminate]. Qed.
Definition dummy {A} (v : N) (x : A) : option A := if v =? 1 then Some x else None.
Lemma dummy_present {A} v (x : A) : v < 2 -> present (dummy v x) = v.
Proof. unfold dummy. destruct (N.eqb_spec v 1); cbn; lia. Qed.
Definition dummy_rep (v : N) : option repeat_info :=
  if v =? 0 then None else Some (mkRp ((v =? 2) || (v =? 4)) ((v =? 3) || (v =? 4)) 0 0).
Lemma dummy_rep_field v : v <= 4 -> repeat_field (dummy_rep v) = v.
Proof. intros H. assert (v = 0 \/ v = 1 \/ v = 2 \/ v = 3 \/ v = 4) as [-> | [-> | [-> | [-> | ->]]]] by lia; reflexivity. Qed.

Lemma ra_parse m n : bytes m -> ra_peek mu m = Ok (Some n) -> (n <= length m)%nat ->
  (n = 1%nat /\ exists b0 t, m = b0 :: t /\ b0 < 64) \/
  exists c r0 r1 r2 t, ra_raw c r0 r1 r2 /\ (ra_dl c <> None \/ ra_ul c <> None) /\ m = field_bytes (ra_fields mu c r0 r1 r2) ++ t /\ n = ra_len c.
Proof.
  intros B P L. destruct m as [|b0 m0]; [discriminate|]. destruct (N.lt_ge_cases b0 64) as [G|G].
  { left. assert (E : N.shiftr b0 6 = 0) by (rewrite N.shiftr_div_pow2; apply N.div_small; exact G).
    unfold ra_peek in P. mcbn in P. rewrite E in P. injection P as P. split; [auto|]. exists b0, m0. auto. }
  right. assert (E0 : N.shiftr b0 6 <> 0).
  { rewrite N.shiftr_div_pow2. change (2 ^ 6) with 64. intros E. apply N.div_small_iff in E; lia. }
  assert (C4 : N.land (N.shiftr b0 1) 7 <= 4).
  { unfold ra_peek in P. mcbn in P. replace (N.shiftr b0 6 =? 0) with false in P by lia. destruct (N.ltb_spec 4 (N.land (N.shiftr b0 1) 7)); [discriminate|assumption]. }
  destruct m0 as [|b1 m0].
  { exfalso. unfold ra_peek in P. mcbn in P. replace (N.shiftr b0 6 =? 0) with false in P by lia. destruct (4 <? _); discriminate. }
  destruct (parse_head [1; 1; 1; 1; 3; 1; 1; 1; 6] 2 (b0 :: b1 :: m0) B eq_refl ltac:(cbn [length]; lia)) as (h & m1 & W & Wh & B1 & E).
  destruct h as [|(?, n0) [|(?, n1) [|(?, n2) [|(?, n3) [|(?, n4) [|(?, n5) [|(?, n6) [|(?, n7) [|(?, n8) [|? ?]]]]]]]]]]; try discriminate.
  cbn [map fst] in W. injection W as -> -> -> -> -> -> -> -> ->.
  pose proof (whole_fits _ Wh) as Fh. fit_hyp. change (2 ^ 1) with 2 in Fh. change (2 ^ 3) with 8 in Fh. change (2 ^ 6) with 64 in Fh.
  destruct Fh as (F0 & F1 & F2 & F3 & F4 & F5 & F6 & F7 & F8 & _).
  set (h := [(1, n0); (1, n1); (1, n2); (1, n3); (3, n4); (1, n5); (1, n6); (1, n7); (6, n8)]) in *.
  assert (Hb : exists c0 c1, field_bytes h = [c0; c1] /\ N.shiftr c0 6 = N.lor (N.shiftl n0 1) n1 /\ N.land (N.shiftr c0 1) 7 = n4).
  { rewrite (fb_eq 2) by reflexivity. unfold h. fbx. do 2 eexists. split; [reflexivity|]. clear - F0 F1 F2 F3 F4 F5 F6 F7 F8. split; bits. }
  destruct Hb as (c0 & c1 & Hb & Hb1 & Hb2).
  assert (c0 = b0) as -> by (rewrite Hb in E; cbn [app] in E; congruence).
  rewrite Hb2 in C4. rewrite Hb1 in E0.
  set (s := mkRa (dummy n1 (mkAl 0 false 0)) (dummy n0 (mkAl 0 false 0)) (n2 =? 1) (dummy n3 0) (dummy_rep n4) (dummy n5 0) (dummy n6 0) (dummy n7 0)).
  assert (Hs : ra_head s n8 = h).
  { unfold ra_head, s. cbn [ra_dl ra_ul ra_additional ra_short_rd_id ra_repeat ra_sfn_offset ra_channel ra_failure].
    rewrite !dummy_present, dummy_rep_field by assumption. replace (bit (n2 =? 1)) with n2 by (unfold bit; destruct (N.eqb_spec n2 1); lia). reflexivity. }
  assert (D : ra_dl s <> None \/ ra_ul s <> None).
  { cbn [s ra_dl ra_ul]. unfold dummy. destruct (N.eqb_spec n1 1); [left; discriminate|]. destruct (N.eqb_spec n0 1); [right; discriminate|].
    exfalso. apply E0. replace n0 with 0 by lia. replace n1 with 0 by lia. reflexivity. }
  rewrite E, <- Hs, (ra_peek_raw s n8 m1 F8 D) in P. injection P as P.
  assert (L1 : length (b0 :: b1 :: m0) = (2 + length m1)%nat) by (rewrite E, app_length, fb_length; reflexivity).
  rewrite L1 in L. rewrite E. rewrite <- Hs. clearbody s. clear - B1 L P F8 D. unfold ra_len in P.
  destruct (parse_al (is_some (ra_dl s)) m1 B1 ltac:(apply is_some_need; lia)) as (dl & m2 & S1 & I1 & B2 & -> & L2). rewrite (is_some_size _ _ _ S1) in L2.
  destruct (parse_al (is_some (ra_ul s)) m2 B2 ltac:(apply is_some_need; lia)) as (ul & m3 & S2 & I2 & B3 & -> & L3). rewrite (is_some_size _ _ _ S2) in L3.
  destruct (parse_num (is_some (ra_short_rd_id s)) 16 2 m3 B3 eq_refl ltac:(apply is_some_need; lia)) as (srd & m4 & S3 & I3 & B4 & -> & L4). rewrite (is_some_size _ _ _ S3) in L4.
  destruct (parse_rep (ra_repeat s) m4 B4 ltac:(apply is_some_need; lia)) as (rep & m5 & S4 & R4 & I4 & B5 & -> & L5). rewrite (is_some_size _ _ _ S4) in L5.
  destruct (parse_num (is_some (ra_sfn_offset s)) 8 1 m5 B5 eq_refl ltac:(apply is_some_need; lia)) as (sfn & m6 & S5 & I5 & B6 & -> & L6). rewrite (is_some_size _ _ _ S5) in L6.
  destruct (parse_num2 (is_some (ra_channel s)) 3 13 2 m6 B6 eq_refl ltac:(apply is_some_need; lia)) as (ch & r1 & m7 & S6 & I6 & J6 & B7 & -> & L7). rewrite (is_some_size _ _ _ S6) in L7.
  destruct (parse_num2 (is_some (ra_failure s)) 4 4 1 m7 B7 eq_refl ltac:(apply is_some_need; lia)) as (fl & r2 & m8 & S7 & I7 & J7 & B8 & -> & L8). rewrite (is_some_size _ _ _ S7) in L8.
  exists (mkRa dl ul (ra_additional s) srd rep sfn ch fl), n8, r1, r2, m8.
  set (c := mkRa dl ul (ra_additional s) srd rep sfn ch fl).
  assert (K : ra_raw c n8 r1 r2) by (unfold ra_raw; cbn [c ra_dl ra_ul ra_short_rd_id ra_repeat ra_sfn_offset ra_channel ra_failure]; auto 12).
  split; [exact K|]. split; [|split].
  - cbn [c ra_dl ra_ul]. destruct D as [D|D]; [left|right]; eapply is_some_none; eassumption.
  - destruct (ra_parts_whole c n8 r1 r2 K) as (W0 & W1 & W2 & W3 & W4 & W5 & W6 & W7).
    rewrite ra_fields_eq, !fb_app by auto 10 using whole_app. rewrite <- !app_assoc.
    replace (ra_head c n8) with (ra_head s n8); [reflexivity|].
    unfold ra_head. cbn [c ra_dl ra_ul ra_additional ra_short_rd_id ra_repeat ra_sfn_offset ra_channel ra_failure].
    rewrite R4, (is_some_present _ _ S1), (is_some_present _ _ S2), (is_some_present _ _ S3), (is_some_present _ _ S5), (is_some_present _ _ S6), (is_some_present _ _ S7).
    reflexivity.
  - unfold ra_len. cbn [c ra_dl ra_ul ra_additional ra_short_rd_id ra_repeat ra_sfn_offset ra_channel ra_failure].
    rewrite (is_some_size _ _ _ S1), (is_some_size _ _ _ S2), (is_some_size _ _ _ S3), (is_some_size _ _ _ S4), (is_some_size _ _ _ S5), (is_some_size _ _ _ S6), (is_some_size _ _ _ S7).
    lia.
Qed.

(** Packing. *)
Lemma ra_pack_head c m k : (ra_dl c <> None \/ ra_ul c <> None) -> ra_repeat c <> None -> (2 <= length m)%nat ->
  (do m <- st m 0 (N.shiftl (N.b2n (is_some (ra_ul c))) 7) ;
   do m <- orst m 0 (N.shiftl (N.b2n (is_some (ra_dl c))) 6) ;
   do b0 <- ld m 0 ;
   if b0 =? 0 then
     do p <- ra_peek mu m ;
     guard (match p with Some n => (n =? 1)%nat | None => false end) (Ok m)
   else
     do m <- orst m 0 (N.shiftl (N.b2n (ra_additional c)) 5) ;
     do m <- orst m 0 (N.shiftl (N.b2n (is_some (ra_short_rd_id c))) 4) ;
     do r <- value (ra_repeat c) ;
     do m <- orst m 0 (N.shiftl (repeat_code r) 1) ;
     do m <- orst m 0 (N.b2n (is_some (ra_sfn_offset c))) ;
     do m <- st m 1 (N.shiftl (N.b2n (is_some (ra_channel c))) 7) ;
     do m <- orst m 1 (N.shiftl (N.b2n (is_some (ra_failure c))) 6) ; k m) = k (packed (ra_head c 0) m).
Proof.
  intros D R L. destruct (ra_repeat c) as [r|] eqn:Er; [|congruence]. cbn [value bind]. rewrite repeat_code_eq. clear R.
  unfold packed. change (nbytes (ra_head c 0)) with 2%nat. rewrite (fb_eq 2) by reflexivity. unfold ra_head. fbx. rewrite Er.
  pose proof (repeat_field_lt (Some r)). set (x5 := repeat_field (Some r)) in *.
  rewrite !present_is_some, bit_b2n.
  pose proof (present_lt (ra_ul c)). pose proof (present_lt (ra_dl c)). pose proof (bit_lt (ra_additional c)).
  pose proof (present_lt (ra_short_rd_id c)). pose proof (present_lt (ra_sfn_offset c)).
  pose proof (present_lt (ra_channel c)). pose proof (present_lt (ra_failure c)).
  assert (D' : present (ra_ul c) <> 0 \/ present (ra_dl c) <> 0) by (destruct (ra_ul c), (ra_dl c); cbn; destruct D; try congruence; lia).
  set (x1 := present (ra_ul c)) in *. set (x2 := present (ra_dl c)) in *. set (x3 := bit (ra_additional c)) in *.
  set (x4 := present (ra_short_rd_id c)) in *. set (x6 := present (ra_sfn_offset c)) in *.
  set (x7 := present (ra_channel c)) in *. set (x8 := present (ra_failure c)) in *.
  assert (x5 < 8) by lia. clearbody x1 x2 x3 x4 x5 x6 x7 x8. clear H D.
  cells m 2%nat. mcbn.
  match goal with |- context [if ?b =? 0 then _ else _] => replace (b =? 0) with false end.
  2: { symmetry. apply N.eqb_neq. assert (x1 = 0 \/ x1 = 1) as [-> | ->] by lia; assert (x2 = 0 \/ x2 = 1) as [-> | ->] by lia; vm_compute; try discriminate. destruct D'; lia. }
  mcbn. f_equal. apply f_equal2; [unfold u8; bits|]. apply f_equal2; [unfold u8; bits|reflexivity].
Qed.
Lemma ra_pack_ok c m : ra_ok mu c -> ra_full c -> ra_valid mu c = Ok true -> (ra_len c <= length m)%nat ->
  ra_pack mu c m = Ok (packed (ra_fields mu c 0 0 0) m).
Proof.
  intros O F V L. pose proof (ra_ok_raw c O) as K. pose proof F as (D1 & D2 & D3).
  pose proof O as (K1 & K2 & K3 & K4 & K5 & K6 & K7). 
  unfold ra_pack. rewrite V. cbn [bind guard]. unfold ra_len in L.
  rewrite (ra_pack_head c m) by (auto; lia).
  assert (W0 : whole (ra_head c 0)) by (apply ra_head_whole; lia).
  change 2%nat with (nbytes (ra_head c 0)) at 1.
  destruct (put_at (ra_dl c) (wr_allocation mu) (fo_size mu + 1) (al_fields mu) m (ra_head c 0)) as (G & W1 & N1); [|exact W0|change (nbytes (ra_head c 0)) with 2%nat; lia|].
  { intros x Ex. rewrite Ex in K1. split; [now apply al_writer|]. split; [apply al_nbytes|now apply al_whole]. }
  change (nbytes (ra_head c 0)) with 2%nat in N1.
  rewrite G. cbn [bind]. clear G. 
  edestruct (fun H => put_at (ra_ul c) (wr_allocation mu) (fo_size mu + 1) (al_fields mu) m _ H W1) as (G & W2 & N2); [|lia|].
  { intros x Ex. rewrite Ex in K2. split; [now apply al_writer|]. split; [apply al_nbytes|now apply al_whole]. }
  rewrite G. cbn [bind]. clear G. rewrite N1 in N2.
  edestruct (fun H => put_at (ra_short_rd_id c) (wr_num 2) 2 (fun s => [(16, s)]) m _ H W2) as (G & W3 & N3); [|lia|].
  { intros x Ex. rewrite Ex in K3. cbn [if_present] in K3. split; [now apply writer_num2|]. split; [reflexivity|]. split; [|reflexivity]. fit_tac. }
  rewrite G. cbn [bind]. clear G. rewrite N2 in N3.
  edestruct (fun H => put_at (ra_repeat c) wr_repeat 2 rp_fields m _ H W3) as (G & W4 & N4); [|lia|].
  { intros x Ex. rewrite Ex in K4. split; [now apply rp_writer|]. split; [reflexivity|]. now apply rp_whole. }
  rewrite G. cbn [bind]. clear G. rewrite N3 in N4.
  edestruct (fun H => put_at (ra_sfn_offset c) wr_byte 1 (fun s => [(8, s)]) m _ H W4) as (G & W5 & N5); [|lia|].
  { intros x Ex. rewrite Ex in K5. cbn [if_present] in K5. split; [now apply writer_wr_byte|]. split; [reflexivity|]. split; [|reflexivity]. fit_tac. }
  rewrite G. cbn [bind]. clear G. rewrite N4 in N5.
  edestruct (fun H => put_at (ra_channel c) wr_channel 2 (ch_fields 0) m _ H W5) as (G & W6 & N6); [|lia|].
  { intros x Ex. rewrite Ex in K6. cbn [if_present] in K6. apply channel_lt in K6. split; [now apply writer_channel|]. split; [reflexivity|]. now apply ch_whole. }
  rewrite G. cbn [bind]. clear G. rewrite N5 in N6.
  edestruct (fun H => put_at (ra_failure c) wr_byte 1 (fun f => [(4, 0); (4, f)]) m _ H W6) as (G & W7 & N7); [|lia|].
  { intros x Ex. rewrite Ex in K7. cbn [if_present] in K7. split; [apply writer_byte4; lia|]. split; [reflexivity|]. split; [|reflexivity]. fit_tac. }
  rewrite G. cbn [bind fst snd]. clear G. rewrite N6 in N7. rewrite N7.
  match goal with |- context [packed ?x m] => replace x with (ra_fields mu c 0 0 0) by (rewrite ra_fields_eq; rewrite <- !app_assoc; reflexivity) end.
  unfold packed at 1. rewrite ra_fields_eq, fb_app, <- app_assoc.
  - rewrite ra_peek_raw by (auto; lia). cbn [bind]. rewrite <- ra_fields_eq. unfold ra_len. rewrite Nat.eqb_refl. reflexivity.
  - exact W0.
  - destruct (ra_parts_whole c 0 0 0 K) as (? & ? & ? & ? & ? & ? & ? & ?). auto 10 using whole_app.
Qed.
End Alloc.
