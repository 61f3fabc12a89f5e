(** Lemmas on the neighbouring element. *)
From Verif Require Import Base Bytes WireSpec BitSolve ByteFacts Fields MacHeader Channels ChannelsSpec IeBase IeLists BeaconsSpec IeFacts IeCursor ResourceIes ResourceIesFacts RandomAccessFacts
  AssociationSpec InfoIes CapabilityIes InfoIesSpec LoadFacts.
Open Scope N_scope.

Definition cl_fields (r3 : N) (v : N * N) : list (N * N) := [(3, fst v); (4, snd v); (1, r3)].
Definition nc_fields (r2 n : N) : list (N * N) := [(3, r2); (13, n)].
Definition tm_fields (t : N) : list (N * N) := [(32, t)].
Definition ng_raw (c : neighbouring) : Prop :=
  ng_id c < 65536 /\ ng_nbp c < 16 /\ ng_cbp c < 16 /\ if_present (fun n => n < 8192) (ng_channel c) /\ if_present (fun t => t < 2 ^ 32) (ng_time c) /\
  if_present (fun p => p < 256) (ng_rssi_2 c) /\ if_present (fun p => p < 256) (ng_snr c) /\ if_present (fun v => fst v < 8 /\ snd v < 16) (ng_class c).
Definition cl_dec (v : N * N) : N * N := (from_coded 4 (fst v), from_coded 6 (snd v)).
Definition ng_dec (c : neighbouring) : neighbouring :=
  mkNg (ng_id c) (ng_constraints c) (from_coded 7 (16 * ng_nbp c)) (from_coded 11 (ng_cbp c)) (ng_channel c) (ng_time c) (ng_rssi_2 c) (ng_snr c) (option_map cl_dec (ng_class c)).
Definition ng_head (c : neighbouring) (r1 : N) : list (N * N) :=
  [(16, ng_id c); (2, r1); (1, present (ng_class c)); (1, present (ng_snr c)); (1, present (ng_rssi_2 c)); (1, bit (ng_constraints c));
   (1, present (ng_channel c)); (1, present (ng_time c)); (4, ng_nbp c); (4, ng_cbp c)].
Ltac ng_names c :=
  pose proof (present_lt (ng_class c)); pose proof (present_lt (ng_snr c)); pose proof (present_lt (ng_rssi_2 c)); pose proof (bit_lt (ng_constraints c));
  pose proof (present_lt (ng_channel c)); pose proof (present_lt (ng_time c));
  set (x1 := present (ng_class c)) in *; set (x2 := present (ng_snr c)) in *; set (x3 := present (ng_rssi_2 c)) in *; set (x4 := bit (ng_constraints c)) in *;
  set (x5 := present (ng_channel c)) in *; set (x6 := present (ng_time c)) in *; set (x7 := ng_id c) in *; set (x8 := ng_nbp c) in *; set (x9 := ng_cbp c) in *;
  clearbody x1 x2 x3 x4 x5 x6 x7 x8 x9.
Lemma cl_writer v : fst v < 8 -> snd v < 16 -> writer (wr_class v) (cl_fields 0 v) /\ nbytes (cl_fields 0 v) = 1%nat /\ whole (cl_fields 0 v).
Proof.
  intros H1 H2. split; [|split; [reflexivity|split; [unfold cl_fields; fit_tac|reflexivity]]]. intros pre rest L. change (nbytes _) with 1%nat in *. destruct v as [a b]. unfold wr_class, cl_fields. cbn [fst snd] in *.
  rewrite st_app0, bind_behind, (fb_eq 1) by reflexivity. fbx. cells rest 1%nat. mcbn. rewrite orst_app0. mcbn. rewrite behind_ok. cells_eq.
Qed.
Lemma cl_reader r3 v : r3 < 2 -> fst v < 8 -> snd v < 16 -> reader rd_class (cl_fields r3 v) (cl_dec v) /\ nbytes (cl_fields r3 v) = 1%nat /\ whole (cl_fields r3 v).
Proof.
  intros R H1 H2. split; [|split; [reflexivity|split; [unfold cl_fields; fit_tac|reflexivity]]]. intros pre tail. destruct v as [a b]. unfold rd_class, cl_fields, cl_dec. cbn [fst snd] in *.
  rewrite ld_app0, (fb_eq 1) by reflexivity. fbx. mcbn. do 2 f_equal; f_equal; unfold u8; bits.
Qed.
Definition nw_fields (n : N) : list (N * N) := [(8, N.shiftr n 5); (8, N.land n 255)].
Lemma nw_writer n : n < 8192 -> writer (wr_ng_channel n) (nw_fields n) /\ nbytes (nw_fields n) = 2%nat /\ whole (nw_fields n).
Proof.
  intros H. assert (H1 : N.shiftr n 5 < 256) by (rewrite N.shiftr_div_pow2; change (2 ^ 5) with 32; lia). assert (H2 : N.land n 255 < 256) by (change 255 with (N.ones 8); rewrite N.land_ones; change (2 ^ 8) with 256; lia).
  split; [|split; [reflexivity|split; [unfold nw_fields; fit_tac|reflexivity]]]. intros pre rest L. change (nbytes _) with 2%nat in *. unfold wr_ng_channel, nw_fields.
  set (a := N.shiftr n 5) in *. set (b := N.land n 255) in *. clearbody a b.
  rewrite st_app0, bind_behind, (fb_eq 2) by reflexivity. fbx. cells rest 2%nat. mcbn. rewrite st_app. mcbn. rewrite behind_ok. cells_eq.
Qed.
Lemma nc_reader r2 n : r2 < 8 -> n < 8192 -> reader rd_ng_channel (nc_fields r2 n) n /\ nbytes (nc_fields r2 n) = 2%nat /\ whole (nc_fields r2 n).
Proof.
  intros R H. split; [|split; [reflexivity|split; [unfold nc_fields; fit_tac|reflexivity]]]. intros pre tail. unfold rd_ng_channel, nc_fields.
  rewrite ld_app0, ld_app, (fb_eq 2) by reflexivity. fbx. mcbn. f_equal. unfold u8; bits.
Qed.
Lemma land_shifted b w i : N.land b (N.shiftl w i) = N.shiftl (N.land (N.shiftr b i) w) i.
Proof.
  apply N.bits_inj_iff. intros j. rewrite N.land_spec. destruct (N.lt_ge_cases j i).
  - now rewrite !N.shiftl_spec_low, andb_false_r by assumption.
  - rewrite !N.shiftl_spec_high', N.land_spec, N.shiftr_spec' by assumption. replace (j - i + i) with j by lia. reflexivity.
Qed.
Lemma land_240 b n : N.land (N.shiftr b 4) 15 = n -> N.land b 240 = 16 * n.
Proof. intros <-. change 240 with (N.shiftl 15 4). rewrite land_shifted, N.shiftl_mul_pow2. change (2 ^ 4) with 16. apply N.mul_comm. Qed.
Lemma tm_whole t : t < 2 ^ 32 -> whole (tm_fields t).
Proof. intros H. split; [unfold tm_fields; fit_tac|reflexivity]. Qed.
Lemma ng_head_whole c r1 : ng_id c < 65536 -> ng_nbp c < 16 -> ng_cbp c < 16 -> r1 < 4 -> whole (ng_head c r1).
Proof.
  intros H1 H2 H3 R. split; [|reflexivity]. unfold ng_head. pose proof (present_lt (ng_class c)). pose proof (present_lt (ng_snr c)). pose proof (present_lt (ng_rssi_2 c)). pose proof (bit_lt (ng_constraints c)).
  pose proof (present_lt (ng_channel c)). pose proof (present_lt (ng_time c)). fit_tac.
Qed.
Lemma ng_head_read c r1 : ng_id c < 65536 -> ng_nbp c < 16 -> ng_cbp c < 16 -> r1 < 4 -> exists b0 b1 b2 b3, field_bytes (ng_head c r1) = [b0; b1; b2; b3] /\
  (forall t, rd_num 2 (b0 :: b1 :: t) 0 = Ok (ng_id c)) /\ N.land (N.shiftr b2 5) 1 = present (ng_class c) /\ N.land (N.shiftr b2 4) 1 = present (ng_snr c) /\
  N.land (N.shiftr b2 3) 1 = present (ng_rssi_2 c) /\ N.land (N.shiftr b2 2) 1 = bit (ng_constraints c) /\ N.land (N.shiftr b2 1) 1 = present (ng_channel c) /\
  N.land (N.shiftr b2 0) 1 = present (ng_time c) /\ N.land b3 240 = 16 * ng_nbp c /\ N.land b3 15 = ng_cbp c.
Proof.
  intros H1 H2 H3 R. rewrite (fb_eq 4) by reflexivity. unfold ng_head. ng_names c. fbx. do 4 eexists. split; [reflexivity|]. split.
  { intros t. unfold rd_num. mcbn. f_equal. unfold u8; bits. }
  repeat match goal with |- _ /\ _ => split end; try apply land_240; unfold u8; bits.
Qed.
Lemma ng_fields_eq c r1 r2 r3 : ng_fields c r1 r2 r3 = ng_head c r1 ++ field_opt (ng_channel c) (nc_fields r2) ++ field_opt (ng_time c) tm_fields ++
  field_opt (ng_rssi_2 c) byte_field ++ field_opt (ng_snr c) byte_field ++ field_opt (ng_class c) (cl_fields r3).
Proof. reflexivity. Qed.
Lemma ng_parts c r1 r2 r3 : ng_raw c -> r1 < 4 -> r2 < 8 -> r3 < 2 -> whole (ng_head c r1) /\ whole (field_opt (ng_channel c) (nc_fields r2)) /\ whole (field_opt (ng_time c) tm_fields) /\
  whole (field_opt (ng_rssi_2 c) byte_field) /\ whole (field_opt (ng_snr c) byte_field) /\ whole (field_opt (ng_class c) (cl_fields r3)).
Proof.
  intros (H1 & H2 & H3 & H4 & H5 & H6 & H7 & H8) R1 R2 R3. split; [now apply ng_head_whole|]. split.
  { apply whole_opt. intros x E. rewrite E in H4. now apply nc_reader. } split.
  { apply whole_opt. intros x E. rewrite E in H5. now apply tm_whole. } split; [now apply byte_whole|]. split; [now apply byte_whole|].
  apply whole_opt. intros x E. rewrite E in H8. destruct H8. now apply cl_reader.
Qed.
Lemma ng_whole c r1 r2 r3 : ng_raw c -> r1 < 4 -> r2 < 8 -> r3 < 2 -> whole (ng_fields c r1 r2 r3) /\ nbytes (ng_fields c r1 r2 r3) = ng_size c.
Proof.
  intros O R1 R2 R3. destruct (ng_parts c r1 r2 r3 O R1 R2 R3) as (W0 & W1 & W2 & W3 & W4 & W5). rewrite ng_fields_eq. split; [auto 10 using whole_app|]. rewrite !nbytes_app by assumption.
  rewrite !(nbytes_opt _ byte_field 1) by reflexivity. rewrite (nbytes_opt _ (nc_fields r2) 2), (nbytes_opt _ tm_fields 4), (nbytes_opt _ (cl_fields r3) 1) by reflexivity.
  change (nbytes (ng_head c r1)) with 4%nat. unfold ng_size. lia.
Qed.
(** What a receiver peeks: four bytes for the channel *)
Definition ng_peeked (c : neighbouring) : nat :=
  (4 + opt_size (ng_class c) 1 + opt_size (ng_snr c) 1 + opt_size (ng_rssi_2 c) 1 + opt_size (ng_channel c) 4 + opt_size (ng_time c) 4)%nat.
Lemma ng_peek_head c r1 t : ng_id c < 65536 -> ng_nbp c < 16 -> ng_cbp c < 16 -> r1 < 4 -> ng_peek (field_bytes (ng_head c r1) ++ t) = Ok (Some (ng_peeked c)).
Proof.
  intros H1 H2 H3 R. destruct (ng_head_read c r1 H1 H2 H3 R) as (b0 & b1 & b2 & b3 & -> & _ & E1 & E2 & E3 & E4 & E5 & E6 & _). unfold ng_peek. cbn [app]. mcbn.
  rewrite E1, E2, E3, (proj2 (mask_present _ b2 2 1 eq_refl E5)), (proj2 (mask_present _ b2 1 0 eq_refl E6)). unfold ng_peeked. rewrite !to_nat_present. do 2 f_equal.
  destruct (ng_channel c), (ng_time c); reflexivity.
Qed.
Lemma ng_unpack_raw c r1 r2 r3 t : ng_raw c -> r1 < 4 -> r2 < 8 -> r3 < 2 ->
  ng_unpack (field_bytes (ng_fields c r1 r2 r3) ++ t) = (do v <- ng_valid (ng_dec c) ; Ok (ng_dec c, v)).
Proof.
  intros O R1 R2 R3. destruct (ng_parts c r1 r2 r3 O R1 R2 R3) as (W0 & W1 & W2 & W3 & W4 & W5). pose proof O as (H1 & H2 & H3 & H4 & H5 & H6 & H7 & H8).
  rewrite ng_fields_eq, !fb_app by auto 10 using whole_app. rewrite <- !app_assoc.
  destruct (ng_head_read c r1 H1 H2 H3 R1) as (b0 & b1 & b2 & b3 & -> & E0 & E1 & E2 & E3 & E4 & E5 & E6 & E7 & E8). match goal with |- context [[b0; b1; b2; b3] ++ ?v] => set (v0 := v) end.
  assert (P : skipn 4 ([b0; b1; b2; b3] ++ v0) = v0) by reflexivity. unfold v0 in P at 2. assert (D0 : rd_num 2 ([b0; b1; b2; b3] ++ v0) 0 = Ok (ng_id c)) by apply E0.
  assert (D2 : ld ([b0; b1; b2; b3] ++ v0) 2 = Ok b2) by reflexivity. assert (D3 : ld ([b0; b1; b2; b3] ++ v0) 3 = Ok b3) by reflexivity. set (m := [b0; b1; b2; b3] ++ v0) in *. clearbody m.
  unfold ng_unpack. rewrite D0. cbn [bind]. rewrite D2. cbn [bind]. rewrite D3. cbn [bind].
  rewrite (proj1 (mask_present _ b2 2 1 eq_refl E5)), (proj1 (mask_present _ b2 1 0 eq_refl E6)), (flag_present _ _ _ E1), (flag_present _ _ _ E2), (flag_present _ _ _ E3), (flag_bit _ _ _ E4), E7, E8.
  destruct (get_at (ng_channel c) rd_ng_channel 2 (nc_fields r2) (fun x => x) _ m _ _ P eq_refl ltac:(lia)) as (G & P1).
  { intros x Ex. rewrite Ex in H4. destruct (nc_reader r2 x R2 H4) as (? & ? & _). auto. }
  rewrite G, opt_map_id. cbn [bind]. clear G P.
  destruct (get_at (ng_time c) (rd_num 4) 4 tm_fields (fun x => x) _ m _ _ P1 eq_refl ltac:(lia)) as (G & P2).
  { intros x Ex. rewrite Ex in H5. split; [now apply reader_num4|reflexivity]. }
  rewrite G, opt_map_id. cbn [bind]. clear G P1.
  destruct (get_at (ng_rssi_2 c) ld 1 byte_field (fun x => x) _ m _ _ P2 eq_refl ltac:(lia)) as (G & P3).
  { intros x Ex. rewrite Ex in H6. now apply byte_reader. }
  rewrite G, opt_map_id. cbn [bind]. clear G P2.
  destruct (get_at (ng_snr c) ld 1 byte_field (fun x => x) _ m _ _ P3 eq_refl ltac:(lia)) as (G & P4).
  { intros x Ex. rewrite Ex in H7. now apply byte_reader. }
  rewrite G, opt_map_id. cbn [bind]. clear G P3.
  destruct (get_at (ng_class c) rd_class 1 (cl_fields r3) cl_dec _ m _ _ P4 eq_refl ltac:(lia)) as (G & P5).
  { intros x Ex. rewrite Ex in H8. destruct H8 as (H8 & H9). destruct (cl_reader r3 x R3 H8 H9) as (? & ? & _). auto. }
  rewrite G. cbn [bind]. clear G P4.
  fold (ng_dec c). replace (ng_size (ng_dec c) =? _)%nat with true; [reflexivity|]. symmetry. apply Nat.eqb_eq. unfold ng_size, ng_dec. cbn [ng_class ng_snr ng_rssi_2 ng_channel ng_time]. rewrite opt_size_map. lia.
Qed.
Lemma ng_dec_valid c : ng_raw c -> ng_valid (ng_dec c) = match ng_class c with
  | None => Throw
  | Some v => Ok ((fst v <=? 3) && (snd v <=? 5) && opt_all channel_in_range (ng_channel c) && (ng_nbp c =? 0) && (ng_cbp c <=? 10)) end.
Proof.
  intros (H1 & H2 & H3 & H4 & H5 & H6 & H7 & H8). unfold ng_valid, ng_dec. cbn [ng_id ng_class ng_snr ng_rssi_2 ng_channel ng_nbp ng_cbp].
  destruct (N.ltb_spec 65535 (ng_id c)); [lia|]. destruct (ng_class c) as [v|]; [|reflexivity]. cbn [option_map value bind cl_dec fst snd].
  assert (B : forall a b : bool, (a = true <-> b = true) -> a = b) by (intros [] []; intuition congruence).
  assert (A1 : opt_all (fun p => p <=? 255) (ng_snr c) = true) by (apply (opt_all_if _ (fun p => p < 256)); [lia|exact H7]).
  assert (A2 : opt_all (fun p => p <=? 255) (ng_rssi_2 c) = true) by (apply (opt_all_if _ (fun p => p < 256)); [lia|exact H6]).
  rewrite A1, A2, !andb_true_r. f_equal. apply B. rewrite !andb_true_iff.
  rewrite (enum_coded 4), (enum_coded 6), (enum_coded 7), (enum_coded 11) by lia. rewrite !N.leb_le, N.eqb_eq. assert (16 * ng_nbp c < 7 <-> ng_nbp c = 0) by lia.
  assert (fst v < 4 <-> fst v <= 3) by lia. assert (snd v < 6 <-> snd v <= 5) by lia. assert (ng_cbp c < 11 <-> ng_cbp c <= 10) by lia. tauto.
Qed.
Lemma ng_head_write c m {B} (f : list N -> res B) : ng_id c < 65536 -> ng_nbp c < 16 -> ng_cbp c < 16 -> (4 <= length m)%nat ->
  (do m <- wr_num 2 (ng_id c) m 0 ;
   do m <- st m 2 (N.shiftl (N.b2n (is_some (ng_class c))) 5) ;
   do m <- orst m 2 (N.shiftl (N.b2n (is_some (ng_snr c))) 4) ;
   do m <- orst m 2 (N.shiftl (N.b2n (is_some (ng_rssi_2 c))) 3) ;
   do m <- orst m 2 (N.shiftl (N.b2n (ng_constraints c)) 2) ;
   do m <- orst m 2 (N.shiftl (N.b2n (is_some (ng_channel c))) 1) ;
   do m <- orst m 2 (N.b2n (is_some (ng_time c))) ;
   do m <- st m 3 (N.shiftl (ng_nbp c) 4) ;
   do m <- orst m 3 (ng_cbp c) ; f m) = f (packed (ng_head c 0) m).
Proof.
  intros H1 H2 H3 L. unfold packed. rewrite (fb_eq 4) by reflexivity. change (nbytes (ng_head c 0)) with 4%nat. unfold ng_head, wr_num.
  rewrite (present_is_some (ng_class c)), (present_is_some (ng_snr c)), (present_is_some (ng_rssi_2 c)), (bit_b2n (ng_constraints c)), (present_is_some (ng_channel c)), (present_is_some (ng_time c)).
  ng_names c. fbx. cells m 4%nat. mcbn. f_equal. repeat first [reflexivity | apply f_equal2; [unfold u8; bits|]].
Qed.
Lemma ng_valid_iff c v : ng_id c < 65536 -> ng_class c = Some v -> enumerator 4 (fst v) -> enumerator 6 (snd v) -> enumerator 7 (ng_nbp c) -> enumerator 11 (ng_cbp c) ->
  if_present (fun t => t < 2 ^ 32) (ng_time c) -> exists b, ng_valid c = Ok b /\ (b = true <-> ng_ok c).
Proof.
  intros H1 H2 E1 E2 E3 E4 H3. unfold ng_valid. destruct (N.ltb_spec 65535 (ng_id c)); [lia|]. rewrite H2. cbn [value bind]. eexists. split; [reflexivity|]. unfold ng_ok. rewrite H2. cbn [if_present].
  rewrite !andb_true_iff. rewrite !(opt_all_if (fun p => p <=? 255) (fun p => p < 256)) by lia. rewrite (opt_all_if channel_in_range channel) by apply channel_range.
  unfold enum_valid, enumerator, UNDEF32 in *. split; intros H0; repeat match goal with H : _ /\ _ |- _ => destruct H end; repeat match goal with |- _ /\ _ => split end; try assumption; lia.
Qed.
(** What packing does with a valid element: it aborts after writing, or throws. *)
Lemma ng_pack_raw c m : ng_ok c -> ng_valid c = Ok true -> (ng_size c <= length m)%nat ->
  ng_pack c m = match ng_channel c with None => Throw | Some _ => Abort end.
Proof.
  intros (H1 & H2 & H3 & H4 & H5 & H6 & H7 & H8) V L. unfold ng_pack. rewrite V. cbn [bind guard]. assert (F2 : ng_nbp c < 16) by lia. assert (F3 : ng_cbp c < 16) by lia.
  assert (L4 : (4 <= length m)%nat) by (unfold ng_size in L; lia). rewrite (ng_head_write c m _ H1 F2 F3 L4). destruct (ng_channel c) as [n|] eqn:Ec; [|reflexivity]. cbn [value bind].
  pose proof (ng_head_whole c 0 H1 F2 F3 ltac:(lia)) as W0. unfold ng_size in L. rewrite Ec in L. cbn [opt_size] in L. pose proof (channel_lt n H4) as Hn.
  destruct (ng_class c) as [v|] eqn:Ev; [|unfold ng_valid in V; rewrite Ev in V; destruct (65535 <? ng_id c); discriminate]. cbn [opt_size value bind] in *. destruct H8 as (H8 & H9).
  destruct (put_at (Some n) wr_ng_channel 2 nw_fields m (ng_head c 0)) as (G & W1 & N1); [|exact W0|change (nbytes (ng_head c 0)) with 4%nat; cbn [opt_size]; lia|].
  { intros x Ex. injection Ex as <-. now apply nw_writer. }
  cbn [put fst snd field_opt opt_size] in G, W1, N1. change (nbytes (ng_head c 0)) with 4%nat in G, N1. destruct (wr_ng_channel n (packed (ng_head c 0) m) 4) as [m1| | |]; try discriminate. cbn [bind] in *.
  assert (G1 : m1 = packed (ng_head c 0 ++ nw_fields n) m) by (injection G as G; exact G). rewrite G1. clear G G1.
  change (packed (ng_head c 0 ++ nw_fields n) m, 6%nat) with (packed (ng_head c 0 ++ nw_fields n) m, nbytes (ng_head c 0 ++ nw_fields n)).
  edestruct (fun H => put_at (ng_time c) (wr_num 4) 4 tm_fields m _ H W1) as (G & W2 & N2); [|lia|].
  { intros x Ex. rewrite Ex in H5. split; [now apply writer_num4|]. split; [reflexivity|now apply tm_whole]. }
  rewrite G. cbn [bind]. clear G. rewrite N1 in N2.
  edestruct (fun H => put_at (ng_rssi_2 c) wr_byte 1 byte_field m _ H W2) as (G & W3 & N3); [|lia|].
  { intros x Ex. rewrite Ex in H6. now apply byte_writer. }
  rewrite G. cbn [bind]. clear G. rewrite N2 in N3.
  edestruct (fun H => put_at (ng_snr c) wr_byte 1 byte_field m _ H W3) as (G & W4 & N4); [|lia|].
  { intros x Ex. rewrite Ex in H7. now apply byte_writer. }
  rewrite G. cbn [bind]. clear G. rewrite N3 in N4.
  edestruct (fun H => put_at (Some v) wr_class 1 (cl_fields 0) m _ H W4) as (G & W5 & N5); [|cbn [opt_size]; lia|].
  { intros x Ex. injection Ex as <-. apply cl_writer; lia. }
  rewrite G. cbn [bind fst snd]. clear G. rewrite N4 in N5. rewrite N5. cbn [opt_size].
  unfold packed at 1. rewrite <- !app_assoc. rewrite fb_app, <- app_assoc.
  - rewrite ng_peek_head by (auto; lia). cbn [bind]. unfold ng_peeked. rewrite Ec, Ev. cbn [opt_size]. match goal with |- guard (?a =? ?b)%nat _ = _ => destruct (Nat.eqb_spec a b); [lia|reflexivity] end.
  - exact W0.
  - assert (K : forall a b, whole a -> whole (a ++ b) -> whole b).
    { intros a b (Fa & Wa) (Fb & Wb). split; [apply Forall_app in Fb; apply Fb|]. rewrite width_app in Wb. rewrite N.add_mod, Wa, N.add_0_l, N.mod_mod in Wb by lia. exact Wb. }
    apply (K _ _ W0). rewrite <- !app_assoc in W5. exact W5.
Qed.
Lemma ng_parse m n : bytes m -> ng_peek m = Ok (Some n) -> (n <= length m)%nat ->
  exists c r1 r2 r3 t, ng_raw c /\ r1 < 4 /\ r2 < 8 /\ r3 < 2 /\ m = field_bytes (ng_fields c r1 r2 r3) ++ t /\ n = ng_peeked c.
Proof.
  intros B P L. assert (L0 : (4 <= length m)%nat).
  { unfold ng_peek in P. destruct (ld m 2); try discriminate. cbn [bind] in P. injection P as P. lia. }
  destruct (parse_head [16; 2; 1; 1; 1; 1; 1; 1; 4; 4] 4 m B eq_refl ltac:(lia)) as (h & m1 & W & Wh & B1 & E).
  destruct h as [|(?, n0) [|(?, r1) [|(?, n1) [|(?, n2) [|(?, n3) [|(?, n4) [|(?, n5) [|(?, n6) [|(?, n7) [|(?, n8) [|? ?]]]]]]]]]]]; try discriminate. cbn [map fst] in W.
  injection W as -> -> -> -> -> -> -> -> -> ->.
  pose proof (whole_fits _ Wh) as Fh. fit_hyp. change (2 ^ 16) with 65536 in Fh. change (2 ^ 2) with 4 in Fh. change (2 ^ 1) with 2 in Fh. change (2 ^ 4) with 16 in Fh.
  destruct Fh as (F0 & Fr & F1 & F2 & F3 & F4 & F5 & F6 & F7 & F8 & _).
  assert (L1 : length m = (4 + length m1)%nat) by (rewrite E, app_length, fb_length; reflexivity).
  set (s := mkNg n0 (n4 =? 1) n7 n8 (dummy n5 0) (dummy n6 0) (dummy n3 0) (dummy n2 0) (dummy n1 (0, 0))).
  assert (Hs : ng_head s r1 = [(16, n0); (2, r1); (1, n1); (1, n2); (1, n3); (1, n4); (1, n5); (1, n6); (4, n7); (4, n8)]).
  { unfold ng_head, s. cbn [ng_id ng_constraints ng_nbp ng_cbp ng_channel ng_time ng_rssi_2 ng_snr ng_class]. rewrite !dummy_present by assumption.
    replace (bit (n4 =? 1)) with n4 by (destruct (N.eqb_spec n4 1); cbn [bit]; lia). reflexivity. }
  assert (I0 : ng_id s < 65536) by exact F0. assert (I7 : ng_nbp s < 16) by exact F7. assert (I8 : ng_cbp s < 16) by exact F8.
  rewrite E, <- Hs, (ng_peek_head s r1 m1 I0 I7 I8 Fr) in P. injection P as <-. rewrite L1 in L. rewrite E, <- Hs. unfold ng_peeked in *. clear - B1 L Fr I0 I7 I8. clearbody s.
  destruct (parse_if (is_some (ng_channel s)) [3; 13] 2 m1 B1 eq_refl) as (l1 & m2 & V1 & U1 & B2 & E1 & L2).
  { intros T. destruct (ng_channel s); [cbn [opt_size] in L; lia|discriminate]. }
  assert (X1 : exists o r2, is_some o = is_some (ng_channel s) /\ l1 = field_opt o (nc_fields r2) /\ if_present (fun n => n < 8192) o /\ r2 < 8).
  { destruct (is_some (ng_channel s)).
    - destruct l1 as [|(?, a) [|(?, b) [|? ?]]]; try discriminate. cbn [map fst] in V1. injection V1 as -> ->. exists (Some b), a. apply whole_fits in U1. fit_hyp. cbn. change (2 ^ 3) with 8 in *. change (2 ^ 13) with 8192 in *. tauto.
    - destruct l1; [|discriminate]. exists None, 0. cbn. repeat split; lia. }
  destruct X1 as (o1 & r2 & S1 & -> & I1 & R2).
  assert (L2' : length m2 = (length m1 - opt_size o1 2)%nat) by (rewrite L2; destruct o1, (ng_channel s); cbn [is_some opt_size] in *; try discriminate; reflexivity). clear L2.
  assert (Q1 : opt_size (ng_channel s) 4 = opt_size o1 4) by (destruct o1, (ng_channel s); cbn [is_some opt_size] in *; try discriminate; reflexivity).
  assert (Q1' : (opt_size o1 2 <= opt_size o1 4)%nat) by (destruct o1; cbn [opt_size]; lia).
  destruct (parse_num (is_some (ng_time s)) 32 4 m2 B2 eq_refl ltac:(apply is_some_need; lia)) as (o2 & m3 & S2 & I2 & B3 & -> & L3). rewrite (is_some_size o2 _ 4 S2) in L3.
  destruct (parse_num (is_some (ng_rssi_2 s)) 8 1 m3 B3 eq_refl ltac:(apply is_some_need; lia)) as (o3 & m4 & S3 & I3 & B4 & -> & L4). rewrite (is_some_size o3 _ 1 S3) in L4.
  destruct (parse_num (is_some (ng_snr s)) 8 1 m4 B4 eq_refl ltac:(apply is_some_need; lia)) as (o4 & m5 & S4 & I4 & B5 & -> & L5). rewrite (is_some_size o4 _ 1 S4) in L5.
  destruct (parse_if (is_some (ng_class s)) [3; 4; 1] 1 m5 B5 eq_refl) as (l5 & t & V5 & U5 & _ & -> & _).
  { intros T. destruct (ng_class s); [cbn [opt_size] in L; lia|discriminate]. }
  assert (X5 : exists o r3, is_some o = is_some (ng_class s) /\ l5 = field_opt o (cl_fields r3) /\ if_present (fun v => fst v < 8 /\ snd v < 16) o /\ r3 < 2).
  { destruct (is_some (ng_class s)).
    - destruct l5 as [|(?, a) [|(?, b) [|(?, d) [|? ?]]]]; try discriminate. cbn [map fst] in V5. injection V5 as -> -> ->. exists (Some (a, b)), d. apply whole_fits in U5. fit_hyp. cbn.
      change (2 ^ 3) with 8 in *. change (2 ^ 4) with 16 in *. change (2 ^ 1) with 2 in *. tauto.
    - destruct l5; [|discriminate]. exists None, 0. cbn. repeat split; lia. }
  destruct X5 as (o5 & r3 & S5 & -> & I5 & R3). change (2 ^ 8) with 256 in *.
  set (c := mkNg (ng_id s) (ng_constraints s) (ng_nbp s) (ng_cbp s) o1 o2 o3 o4 o5). assert (O : ng_raw c) by (unfold ng_raw, c; cbn; auto 10).
  exists c, r1, r2, r3, t. do 4 (split; [assumption|]). destruct (ng_parts c r1 r2 r3 O Fr R2 R3) as (W0 & W1 & W2 & W3 & W4 & W5). split.
  - rewrite E1, ng_fields_eq, !fb_app by auto 10 using whole_app. rewrite <- !app_assoc. unfold c at 2 3 4 5 6. cbn [ng_channel ng_time ng_rssi_2 ng_snr ng_class]. apply f_equal2; [|reflexivity]. f_equal. unfold ng_head, c.
    cbn [ng_id ng_constraints ng_nbp ng_cbp ng_channel ng_time ng_rssi_2 ng_snr ng_class].
    rewrite (is_some_present _ _ S1), (is_some_present _ _ S2), (is_some_present _ _ S3), (is_some_present _ _ S4), (is_some_present _ _ S5). reflexivity.
  - cbn [c ng_channel ng_time ng_rssi_2 ng_snr ng_class]. rewrite (is_some_size _ _ 4 S1), (is_some_size _ _ 4 S2), (is_some_size _ _ 1 S3), (is_some_size _ _ 1 S4), (is_some_size _ _ 1 S5). reflexivity.
Qed.
