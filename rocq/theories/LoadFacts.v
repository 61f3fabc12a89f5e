(** Lemmas on the load info and the measurement report. *)
From Verif Require Import Base Bytes WireSpec BitSolve ByteFacts Fields MacHeader IeBase IeLists BeaconsSpec IeFacts IeCursor ResourceIesFacts RandomAccessFacts
  InfoIes CapabilityIes InfoIesSpec.
Open Scope N_scope.

Definition byte_field (p : N) : list (N * N) := [(8, p)].
Lemma byte_writer p : p < 256 -> writer (wr_byte p) (byte_field p) /\ nbytes (byte_field p) = 1%nat /\ whole (byte_field p).
Proof. intros H. split; [now apply writer_wr_byte|]. split; [reflexivity|]. split; [unfold byte_field; fit_tac|reflexivity]. Qed.
Lemma byte_reader p : p < 256 -> reader ld (byte_field p) p /\ nbytes (byte_field p) = 1%nat.
Proof. intros H. split; [now apply reader_ld|reflexivity]. Qed.
Lemma byte_whole o : if_present (fun p => p < 256) o -> whole (field_opt o byte_field).
Proof. intros H. apply whole_opt. intros x E. rewrite E in H. now apply byte_writer. Qed.
Lemma mask_present {A} (o : option A) b w i : w = 2 ^ i -> N.land (N.shiftr b i) 1 = present o -> negb (N.land b w =? 0) = is_some o /\ N.land b w = w * present o.
Proof.
  intros Hw E. rewrite (mask_flag b w i Hw), E, <- Hw. split; [|reflexivity]. assert (w <> 0) by (rewrite Hw; apply N.pow_nonzero; lia). destruct o; cbn [present is_some]; [|now rewrite N.mul_0_r].
  rewrite N.mul_1_r. destruct (N.eqb_spec w 0); [contradiction|reflexivity].
Qed.

(** ** Load info *)
Definition pair_field (p : N * N) : list (N * N) := [(8, fst p); (8, snd p)].
Lemma pair_writer p : fst p < 256 -> snd p < 256 -> writer (wr_pair p) (pair_field p) /\ nbytes (pair_field p) = 2%nat /\ whole (pair_field p).
Proof.
  intros H1 H2. destruct p as [a b]. cbn [fst snd] in *. split; [|split; [reflexivity|split; [unfold pair_field; fit_tac|reflexivity]]].
  intros pre rest L. change (nbytes _) with 2%nat in *. unfold wr_pair, pair_field. cbn [fst snd]. rewrite st_app0, bind_behind, (fb_eq 2) by reflexivity. fbx. cells rest 2%nat. mcbn.
  rewrite st_app. mcbn. rewrite behind_ok. cells_eq.
Qed.
Lemma pair_reader p : fst p < 256 -> snd p < 256 -> reader rd_pair (pair_field p) p /\ nbytes (pair_field p) = 2%nat.
Proof.
  intros H1 H2. destruct p as [a b]. cbn [fst snd] in *. split; [|reflexivity]. intros pre tail. unfold rd_pair, pair_field. cbn [fst snd].
  rewrite ld_app0, ld_app, (fb_eq 2) by reflexivity. fbx. mcbn. do 2 f_equal; unfold u8; bits.
Qed.
Definition li_head (c : load_info) (r : N) : list (N * N) :=
  [(4, r); (1, li_max_assoc c); (1, present (li_pt c)); (1, present (li_rach c)); (1, present (li_channel c)); (8, li_traffic c);
   (if li_max_assoc c =? 0 then 8 else 16, li_max_nof c); (8, li_ft c)].
Definition li_k (c : load_info) : nat := if li_max_assoc c =? 0 then 1%nat else 2%nat.
Lemma li_head_nbytes c r : nbytes (li_head c r) = (li_k c + 3)%nat.
Proof. unfold li_head, li_k. destruct (li_max_assoc c =? 0); reflexivity. Qed.
Ltac li_names c :=
  pose proof (present_lt (li_pt c)); pose proof (present_lt (li_rach c)); pose proof (present_lt (li_channel c));
  set (x1 := present (li_pt c)) in *; set (x2 := present (li_rach c)) in *; set (x3 := present (li_channel c)) in *;
  set (x4 := li_traffic c) in *; set (x5 := li_max_nof c) in *; set (x6 := li_ft c) in *; clearbody x1 x2 x3 x4 x5 x6.
Lemma li_head_whole c r : li_ok c -> r < 16 -> whole (li_head c r).
Proof.
  intros (H1 & H2 & H3 & H4 & _) R. unfold li_head. pose proof (present_lt (li_pt c)). pose proof (present_lt (li_rach c)). pose proof (present_lt (li_channel c)).
  destruct (li_max_assoc c =? 0); (split; [fit_tac|reflexivity]).
Qed.
Lemma li_head_read c r : li_ok c -> r < 16 -> exists b0 u, field_bytes (li_head c r) = b0 :: u /\
  N.land (N.shiftr b0 3) 1 = li_max_assoc c /\ N.land (N.shiftr b0 2) 1 = present (li_pt c) /\ N.land (N.shiftr b0 1) 1 = present (li_rach c) /\
  N.land (N.shiftr b0 0) 1 = present (li_channel c) /\
  forall t, ld (b0 :: u ++ t) 1 = Ok (li_traffic c) /\ rd_num (li_k c) (b0 :: u ++ t) 2 = Ok (li_max_nof c) /\ ld (b0 :: u ++ t) (li_k c + 2) = Ok (li_ft c).
Proof.
  intros (H1 & H2 & H3 & H4 & _) R. unfold li_head, li_k. assert (li_max_assoc c = 0 \/ li_max_assoc c = 1) as [E|E] by lia; rewrite E in *; cbn [N.eqb].
  - change (if 0 =? 0 then 256 else 65536) with 256 in H3. change (if 0 =? 0 then 8 else 16) with 8. rewrite (fb_eq 4) by reflexivity. li_names c. fbx. unfold rd_num.
    do 2 eexists. split; [reflexivity|]. repeat match goal with |- _ /\ _ => split end; try (unfold u8; bits).
    intros t. cbn [app]. mcbn. repeat split; f_equal; unfold u8; bits.
  - change (if 1 =? 0 then 256 else 65536) with 65536 in H3. change (if 1 =? 0 then 8 else 16) with 16. rewrite (fb_eq 5) by reflexivity. li_names c. fbx. unfold rd_num.
    do 2 eexists. split; [reflexivity|]. repeat match goal with |- _ /\ _ => split end; try (unfold u8; bits).
    intros t. cbn [app]. mcbn. repeat split; f_equal; unfold u8; bits.
Qed.
Lemma li_fields_eq c r : li_fields c r = li_head c r ++ field_opt (li_pt c) byte_field ++ field_opt (li_rach c) byte_field ++ field_opt (li_channel c) pair_field.
Proof. reflexivity. Qed.
Lemma li_parts c r : li_ok c -> r < 16 -> whole (li_head c r) /\ whole (field_opt (li_pt c) byte_field) /\ whole (field_opt (li_rach c) byte_field) /\ whole (field_opt (li_channel c) pair_field).
Proof.
  intros O R. split; [now apply li_head_whole|]. destruct O as (_ & _ & _ & _ & H5 & H6 & H7). split; [now apply byte_whole|]. split; [now apply byte_whole|].
  apply whole_opt. intros x E. rewrite E in H7. destruct H7. now apply pair_writer.
Qed.
Definition li_len (c : load_info) : nat := (li_k c + 3 + opt_size (li_pt c) 1 + opt_size (li_rach c) 1 + opt_size (li_channel c) 2)%nat.
Lemma li_whole c r : li_ok c -> r < 16 -> whole (li_fields c r) /\ nbytes (li_fields c r) = li_len c.
Proof.
  intros O R. destruct (li_parts c r O R) as (W0 & W1 & W2 & W3). rewrite li_fields_eq. split; [auto using whole_app|]. rewrite !nbytes_app by assumption.
  rewrite !(nbytes_opt _ byte_field 1) by reflexivity. rewrite (nbytes_opt _ pair_field 2) by reflexivity. rewrite li_head_nbytes. unfold li_len. lia.
Qed.
Lemma li_valid_ok c : li_max_assoc c < 2 -> (li_valid c = true <-> li_ok c).
Proof.
  intros H. unfold li_valid, li_ok. rewrite enum_valid_lt by lia. cbn [andb]. rewrite !andb_true_iff.
  rewrite !(opt_all_if (fun p => p <=? 255) (fun p => p < 256)) by lia. rewrite (opt_all_if (fun p => (fst p <=? 255) && (snd p <=? 255)) (fun p => fst p < 256 /\ snd p < 256)) by lia.
  destruct (li_max_assoc c =? 0); intuition lia.
Qed.
Lemma li_size_ok c : li_ok c -> li_size c = Ok (li_len c).
Proof. intros O. unfold li_size. rewrite (proj2 (li_valid_ok c ltac:(destruct O; lia)) O). cbn [guard]. unfold li_len, li_k. destruct (li_max_assoc c =? 0); reflexivity. Qed.
(** What a receiver peeks: four bytes for the load of PTs and two for the load of the random access channel. *)
Definition li_peeked (c : load_info) : nat := (li_k c + 3 + opt_size (li_pt c) 4 + opt_size (li_rach c) 2 + opt_size (li_channel c) 2)%nat.
Lemma li_peek_head c r t : li_ok c -> r < 16 -> li_peek (field_bytes (li_head c r) ++ t) = Ok (Some (li_peeked c)).
Proof.
  intros O R. destruct (li_head_read c r O R) as (b0 & u & -> & E1 & E2 & E3 & E4 & _). unfold li_peek. cbn [app]. mcbn.
  rewrite (mask_flag b0 8 3 eq_refl), E1, (proj2 (mask_present _ b0 4 2 eq_refl E2)), (proj2 (mask_present _ b0 2 1 eq_refl E3)).
  rewrite N.shiftr_0_r in E4. rewrite E4. unfold li_peeked, li_k. assert (H1 : li_max_assoc c < 2) by (destruct O; assumption).
  assert (li_max_assoc c = 0 \/ li_max_assoc c = 1) as [E|E] by lia; rewrite E; destruct (li_pt c), (li_rach c), (li_channel c); reflexivity.
Qed.
Lemma li_unpack_raw c r t : li_ok c -> r < 16 -> li_unpack (field_bytes (li_fields c r) ++ t) = Ok (c, true).
Proof.
  intros O R. destruct (li_parts c r O R) as (W0 & W1 & W2 & W3). pose proof O as (H1 & _ & _ & _ & H5 & H6 & H7).
  rewrite li_fields_eq, !fb_app by auto 10 using whole_app. rewrite <- !app_assoc.
  destruct (li_head_read c r O R) as (b0 & u & E0 & E1 & E2 & E3 & E4 & Rd). match goal with |- context [field_bytes (li_head c r) ++ ?v] => set (v0 := v) end.
  destruct (Rd v0) as (R1 & R2 & R3). clear Rd.
  assert (P : skipn (li_k c + 3) (field_bytes (li_head c r) ++ v0) = v0).
  { rewrite <- (li_head_nbytes c r), <- fb_length, skipn_app, skipn_all, Nat.sub_diag. reflexivity. }
  rewrite E0 in *. cbn [app] in *. assert (D : ld (b0 :: u ++ v0) 0 = Ok b0) by reflexivity. unfold v0 in P at 2. set (m := b0 :: u ++ v0) in *. clearbody m. clear E0.
  unfold li_unpack. rewrite D. cbn [bind]. rewrite E1, coded_id by exact H1. rewrite R1. cbn [bind]. fold (li_k c). rewrite R2. cbn [bind]. rewrite R3. cbn [bind].
  rewrite (proj1 (mask_present _ b0 4 2 eq_refl E2)), (proj1 (mask_present _ b0 2 1 eq_refl E3)), (proj1 (mask_present _ b0 1 0 eq_refl E4)).
  destruct (get_at (li_pt c) ld 1 byte_field (fun x => x) _ m _ _ P eq_refl ltac:(lia)) as (G & P1).
  { intros x Ex. rewrite Ex in H5. now apply byte_reader. }
  rewrite G, opt_map_id. cbn [bind]. clear G P.
  destruct (get_at (li_rach c) ld 1 byte_field (fun x => x) _ m _ _ P1 eq_refl ltac:(lia)) as (G & P2).
  { intros x Ex. rewrite Ex in H6. now apply byte_reader. }
  rewrite G, opt_map_id. cbn [bind]. clear G P1.
  destruct (get_at (li_channel c) rd_pair 2 pair_field (fun x => x) _ m _ _ P2 eq_refl ltac:(lia)) as (G & P3).
  { intros x Ex. rewrite Ex in H7. destruct H7. now apply pair_reader. }
  rewrite G, opt_map_id. cbn [bind]. clear G P2.
  replace (mkLi (li_max_assoc c) (li_traffic c) (li_max_nof c) (li_ft c) (li_pt c) (li_rach c) (li_channel c)) with c by (destruct c; reflexivity).
  rewrite (li_size_ok c O). cbn [bind]. fold (li_len c). rewrite Nat.eqb_refl. cbn [guard]. rewrite (proj2 (li_valid_ok c H1) O). reflexivity.
Qed.
Lemma li_head_write c m {B} (f : list N -> res B) : li_ok c -> (li_k c + 3 <= length m)%nat ->
  (do m <- st m 0 (N.shiftl (li_max_assoc c) 3) ;
   do m <- orst m 0 (N.shiftl (N.b2n (is_some (li_pt c))) 2) ;
   do m <- orst m 0 (N.shiftl (N.b2n (is_some (li_rach c))) 1) ;
   do m <- orst m 0 (N.b2n (is_some (li_channel c))) ;
   do m <- st m 1 (li_traffic c) ;
   do m <- wr_num (li_k c) (li_max_nof c) m 2 ;
   do m <- st m (li_k c + 2) (li_ft c) ; f m) = f (packed (li_head c 0) m).
Proof.
  intros (H1 & H2 & H3 & H4 & _) L. unfold packed. rewrite li_head_nbytes. unfold li_head, li_k, wr_num in *.
  rewrite (present_is_some (li_pt c)), (present_is_some (li_rach c)), (present_is_some (li_channel c)).
  assert (li_max_assoc c = 0 \/ li_max_assoc c = 1) as [E|E] by lia; rewrite E in *; cbn [N.eqb Nat.add] in *.
  - change (if 0 =? 0 then 256 else 65536) with 256 in H3. change (if 0 =? 0 then 8 else 16) with 8. rewrite (fb_eq 4) by reflexivity. li_names c. fbx.
    cells m 4%nat. mcbn. f_equal. repeat first [reflexivity | apply f_equal2; [unfold u8; bits|]].
  - change (if 1 =? 0 then 256 else 65536) with 65536 in H3. change (if 1 =? 0 then 8 else 16) with 16. rewrite (fb_eq 5) by reflexivity. li_names c. fbx.
    cells m 5%nat. mcbn. f_equal. repeat first [reflexivity | apply f_equal2; [unfold u8; bits|]].
Qed.
Lemma li_pack_raw c m : li_ok c -> (li_len c <= length m)%nat -> li_pack c m = if (li_peeked c =? li_len c)%nat then Ok (packed (li_fields c 0) m) else Abort.
Proof.
  intros O L. pose proof O as (H1 & _ & _ & _ & H5 & H6 & H7). unfold li_pack. rewrite (proj2 (li_valid_ok c H1) O). cbn [guard]. fold (li_k c). unfold li_len in L.
  rewrite (li_head_write c m) by (auto; lia). assert (W0 : whole (li_head c 0)) by (apply li_head_whole; [exact O|lia]). rewrite <- (li_head_nbytes c 0).
  destruct (put_at (li_pt c) wr_byte 1 byte_field m (li_head c 0)) as (G & W1 & N1); [|exact W0|rewrite li_head_nbytes; lia|].
  { intros x Ex. rewrite Ex in H5. now apply byte_writer. }
  rewrite G. cbn [bind]. clear G. rewrite li_head_nbytes in N1.
  edestruct (fun H => put_at (li_rach c) wr_byte 1 byte_field m _ H W1) as (G & W2 & N2); [|lia|].
  { intros x Ex. rewrite Ex in H6. now apply byte_writer. }
  rewrite G. cbn [bind]. clear G. rewrite N1 in N2.
  edestruct (fun H => put_at (li_channel c) wr_pair 2 pair_field m _ H W2) as (G & W3 & N3); [|lia|].
  { intros x Ex. rewrite Ex in H7. destruct H7. now apply pair_writer. }
  rewrite G. cbn [bind fst snd]. clear G. rewrite N2 in N3. rewrite N3. fold (li_len c).
  match goal with |- context [packed ?x m] => replace x with (li_fields c 0) by (rewrite li_fields_eq, <- !app_assoc; reflexivity) end.
  unfold packed at 1. destruct (li_parts c 0 O ltac:(lia)) as (V0 & V1 & V2 & V3). rewrite li_fields_eq at 1. rewrite fb_app, <- app_assoc by auto using whole_app.
  rewrite li_peek_head by (auto; lia). cbn [bind]. destruct (li_peeked c =? li_len c)%nat; reflexivity.
Qed.
Lemma li_parse m n : bytes m -> li_peek m = Ok (Some n) -> (n <= length m)%nat ->
  exists c r t, li_ok c /\ r < 16 /\ m = field_bytes (li_fields c r) ++ t /\ n = li_peeked c.
Proof.
  intros B P L. assert (L0 : (4 <= length m)%nat).
  { unfold li_peek in P. destruct (ld m 0); try discriminate. cbn [bind] in P. injection P as P. destruct (N.land _ 8 =? 0); lia. }
  destruct (parse_head [4; 1; 1; 1; 1; 8] 2 m B eq_refl ltac:(lia)) as (h & m1 & W & Wh & B1 & E).
  destruct h as [|(?, r) [|(?, n0) [|(?, n1) [|(?, n2) [|(?, n3) [|(?, n4) [|? ?]]]]]]]; try discriminate. cbn [map fst] in W. injection W as -> -> -> -> -> ->.
  pose proof (whole_fits _ Wh) as Fh. fit_hyp. change (2 ^ 4) with 16 in Fh. change (2 ^ 1) with 2 in Fh. change (2 ^ 8) with 256 in Fh. destruct Fh as (F0 & F1 & F2 & F3 & F4 & F5 & _).
  assert (L1 : length m = (2 + length m1)%nat) by (rewrite E, app_length, fb_length; reflexivity).
  assert (Pn : n = ((if (n0 =? 0)%N then 4 else 5) + N.to_nat n1 * 4 + N.to_nat n2 * 2 + N.to_nat n3 * 2)%nat).
  { rewrite E in P. rewrite (fb_eq 2) in P by reflexivity. unfold cat_fields in P. cbn [fold_left fst snd le_bytes rev app] in P. unfold li_peek in P. cbn [ld rd nth_error bind] in P.
    match type of P with context [N.land ?b 8] => set (b0 := b) in P end. assert (Q1 : N.land b0 8 = 8 * n0) by (rewrite (mask_flag b0 8 3 eq_refl); f_equal; unfold b0, u8; bits).
    assert (Q2 : N.land b0 4 = 4 * n1) by (rewrite (mask_flag b0 4 2 eq_refl); f_equal; unfold b0, u8; bits).
    assert (Q3 : N.land b0 2 = 2 * n2) by (rewrite (mask_flag b0 2 1 eq_refl); f_equal; unfold b0, u8; bits).
    assert (Q4 : N.land b0 1 = n3) by (unfold b0, u8; bits). rewrite Q1, Q2, Q3, Q4 in P. injection P as <-. destruct (N.eqb_spec n0 0); destruct (N.eqb_spec (8 * n0) 0); lia. }
  clear P. set (k := if n0 =? 0 then 1%nat else 2%nat).
  destruct (parse_head [if n0 =? 0 then 8 else 16; 8] (k + 1) m1 B1) as (h & m2 & W & Wh2 & B2 & E2).
  { unfold k. destruct (n0 =? 0); reflexivity. } { unfold k. destruct (n0 =? 0); lia. }
  destruct h as [|(?, n5) [|(?, n6) [|? ?]]]; try discriminate. cbn [map fst] in W. injection W as -> ->.
  pose proof (whole_fits _ Wh2) as Fh. fit_hyp. change (2 ^ 8) with 256 in Fh. destruct Fh as (F6 & F7 & _).
  assert (L2 : length m1 = (k + 1 + length m2)%nat).
  { rewrite E2, app_length, fb_length. unfold k. destruct (n0 =? 0); reflexivity. }
  assert (F6' : n5 < (if n0 =? 0 then 256 else 65536)) by (destruct (n0 =? 0); exact F6).
  destruct (parse_num (n1 =? 1) 8 1 m2 B2 eq_refl) as (o1 & m3 & S1 & I1 & B3 & -> & L3). { unfold k in *. destruct (N.eqb_spec n1 1); [|discriminate]. destruct (n0 =? 0); lia. }
  assert (X1 : opt_size o1 1 = N.to_nat n1) by (destruct o1; destruct (N.eqb_spec n1 1); cbn [is_some opt_size] in *; try discriminate; lia).
  destruct (parse_num (n2 =? 1) 8 1 m3 B3 eq_refl) as (o2 & m4 & S2 & I2 & B4 & -> & L4). { unfold k in *. destruct (N.eqb_spec n2 1); [|discriminate]. destruct (n0 =? 0); lia. }
  assert (X2 : opt_size o2 1 = N.to_nat n2) by (destruct o2; destruct (N.eqb_spec n2 1); cbn [is_some opt_size] in *; try discriminate; lia).
  destruct (parse_if (n3 =? 1) [8; 8] 2 m4 B4 eq_refl) as (l & t & V1 & V2 & _ & -> & _). { unfold k in *. destruct (N.eqb_spec n3 1); [|discriminate]. destruct (n0 =? 0); lia. }
  assert (Fc : exists o3, is_some o3 = (n3 =? 1) /\ l = field_opt o3 pair_field /\ if_present (fun p => fst p < 256 /\ snd p < 256) o3).
  { destruct (n3 =? 1).
    - destruct l as [|(?, a) [|(?, b) [|? ?]]]; try discriminate. cbn [map fst] in V1. injection V1 as -> ->. exists (Some (a, b)). apply whole_fits in V2. fit_hyp. cbn. change (2 ^ 8) with 256 in *. tauto.
    - destruct l; [|discriminate]. exists None. cbn. auto. }
  destruct Fc as (o3 & S3 & -> & I3). change (2 ^ 8) with 256 in I1, I2.
  assert (Pr : forall A (o : option A) x, x < 2 -> is_some o = (x =? 1) -> present o = x).
  { intros A o x Hx. destruct o; cbn [is_some present]; destruct (N.eqb_spec x 1); intros; try discriminate; lia. }
  set (c := mkLi n0 n4 n5 n6 o1 o2 o3). assert (O : li_ok c) by (unfold li_ok, c; cbn; auto 10).
  exists c, r, t. split; [exact O|]. split; [exact F0|]. destruct (li_parts c r O F0) as (W0 & W1 & W2 & W3). split.
  - rewrite E, E2, li_fields_eq, !fb_app by auto 10 using whole_app. rewrite <- !app_assoc.
    change (field_bytes (li_head c r)) with (field_bytes ([(4, r); (1, n0); (1, present o1); (1, present o2); (1, present o3); (8, n4)] ++ [(if n0 =? 0 then 8 else 16, n5); (8, n6)])).
    rewrite (Pr _ o1 n1 F2 S1), (Pr _ o2 n2 F3 S2), (Pr _ o3 n3 F4 S3), fb_app by assumption. rewrite <- !app_assoc. reflexivity.
  - rewrite Pn. unfold li_peeked, li_k, c. cbn [li_max_assoc li_pt li_rach li_channel]. rewrite <- !opt_size_present, (Pr _ o1 n1 F2 S1), (Pr _ o2 n2 F3 S2), (Pr _ o3 n3 F4 S3). destruct (n0 =? 0); lia.
Qed.

(** ** Measurement report *)
Definition mr_head (c : measurement_report) (r : N) : list (N * N) :=
  [(3, r); (1, present (mr_snr c)); (1, present (mr_rssi_2 c)); (1, present (mr_rssi_1 c)); (1, present (mr_tx_count c)); (1, mr_rach c)].
Ltac mr_names c :=
  pose proof (present_lt (mr_snr c)); pose proof (present_lt (mr_rssi_2 c)); pose proof (present_lt (mr_rssi_1 c)); pose proof (present_lt (mr_tx_count c));
  set (x1 := present (mr_snr c)) in *; set (x2 := present (mr_rssi_2 c)) in *; set (x3 := present (mr_rssi_1 c)) in *; set (x4 := present (mr_tx_count c)) in *;
  set (x5 := mr_rach c) in *; clearbody x1 x2 x3 x4 x5.
Lemma mr_head_whole c r : mr_rach c < 2 -> r < 8 -> whole (mr_head c r).
Proof.
  intros H R. split; [|reflexivity]. unfold mr_head. pose proof (present_lt (mr_snr c)). pose proof (present_lt (mr_rssi_2 c)). pose proof (present_lt (mr_rssi_1 c)). pose proof (present_lt (mr_tx_count c)). fit_tac.
Qed.
Lemma mr_head_read c r : mr_rach c < 2 -> r < 8 -> exists b0, field_bytes (mr_head c r) = [b0] /\
  N.land (N.shiftr b0 4) 1 = present (mr_snr c) /\ N.land (N.shiftr b0 3) 1 = present (mr_rssi_2 c) /\ N.land (N.shiftr b0 2) 1 = present (mr_rssi_1 c) /\
  N.land (N.shiftr b0 1) 1 = present (mr_tx_count c) /\ N.land b0 1 = mr_rach c.
Proof.
  intros H R. rewrite (fb_eq 1) by reflexivity. unfold mr_head. mr_names c. fbx. eexists. split; [reflexivity|]. repeat match goal with |- _ /\ _ => split end; unfold u8; bits.
Qed.
Lemma mr_fields_eq c r : mr_fields c r = mr_head c r ++ field_opt (mr_snr c) byte_field ++ field_opt (mr_rssi_2 c) byte_field ++ field_opt (mr_rssi_1 c) byte_field ++ field_opt (mr_tx_count c) byte_field.
Proof. reflexivity. Qed.
Lemma mr_parts c r : mr_ok c -> r < 8 -> whole (mr_head c r) /\ whole (field_opt (mr_snr c) byte_field) /\ whole (field_opt (mr_rssi_2 c) byte_field) /\
  whole (field_opt (mr_rssi_1 c) byte_field) /\ whole (field_opt (mr_tx_count c) byte_field).
Proof. intros (H1 & H2 & H3 & H4 & H5) R. split; [now apply mr_head_whole|]. auto using byte_whole. Qed.
Lemma mr_whole c r : mr_ok c -> r < 8 -> whole (mr_fields c r) /\ nbytes (mr_fields c r) = mr_size c.
Proof.
  intros O R. destruct (mr_parts c r O R) as (W0 & W1 & W2 & W3 & W4). rewrite mr_fields_eq. split; [auto 10 using whole_app|]. rewrite !nbytes_app by assumption.
  rewrite !(nbytes_opt _ byte_field 1) by reflexivity. change (nbytes (mr_head c r)) with 1%nat. unfold mr_size. lia.
Qed.
Lemma mr_valid_ok c : mr_rach c < 2 -> (mr_valid c = true <-> mr_ok c).
Proof.
  intros H. unfold mr_valid, mr_ok. rewrite enum_valid_lt, andb_true_r by lia. rewrite !andb_true_iff. rewrite !(opt_all_if (fun p => p <=? 255) (fun p => p < 256)) by lia. tauto.
Qed.
(** What a receiver peeks: two bytes for the transmission count. *)
Definition mr_peeked (c : measurement_report) : nat :=
  (1 + opt_size (mr_snr c) 1 + opt_size (mr_rssi_2 c) 1 + opt_size (mr_rssi_1 c) 1 + opt_size (mr_tx_count c) 2)%nat.
Lemma mr_peek_head c r t : mr_rach c < 2 -> r < 8 -> mr_peek (field_bytes (mr_head c r) ++ t) = Ok (Some (mr_peeked c)).
Proof.
  intros H R. destruct (mr_head_read c r H R) as (b0 & -> & E1 & E2 & E3 & E4 & E5). unfold mr_peek. cbn [app]. mcbn.
  rewrite E1, E2, E3, (proj2 (mask_present _ b0 2 1 eq_refl E4)). unfold mr_peeked. rewrite !to_nat_present. do 3 f_equal. destruct (mr_tx_count c); reflexivity.
Qed.
Lemma mr_unpack_raw c r t : mr_ok c -> r < 8 -> mr_unpack (field_bytes (mr_fields c r) ++ t) = Ok (c, true).
Proof.
  intros O R. destruct (mr_parts c r O R) as (W0 & W1 & W2 & W3 & W4). pose proof O as (H1 & H2 & H3 & H4 & H5).
  rewrite mr_fields_eq, !fb_app by auto 10 using whole_app. rewrite <- !app_assoc.
  destruct (mr_head_read c r H5 R) as (b0 & -> & E1 & E2 & E3 & E4 & E5). match goal with |- context [[b0] ++ ?v] => set (v0 := v) end.
  assert (P : skipn 1 ([b0] ++ v0) = v0) by reflexivity. unfold v0 in P at 2. assert (D : ld ([b0] ++ v0) 0 = Ok b0) by reflexivity. set (m := [b0] ++ v0) in *. clearbody m.
  unfold mr_unpack. rewrite D. cbn [bind]. rewrite (flag_present _ _ _ E1), (flag_present _ _ _ E2), (flag_present _ _ _ E3), (proj1 (mask_present _ b0 2 1 eq_refl E4)), E5, coded_id by exact H5.
  destruct (get_at (mr_snr c) ld 1 byte_field (fun x => x) _ m _ _ P eq_refl ltac:(lia)) as (G & P1).
  { intros x Ex. rewrite Ex in H1. now apply byte_reader. }
  rewrite G, opt_map_id. cbn [bind]. clear G P.
  destruct (get_at (mr_rssi_2 c) ld 1 byte_field (fun x => x) _ m _ _ P1 eq_refl ltac:(lia)) as (G & P2).
  { intros x Ex. rewrite Ex in H2. now apply byte_reader. }
  rewrite G, opt_map_id. cbn [bind]. clear G P1.
  destruct (get_at (mr_rssi_1 c) ld 1 byte_field (fun x => x) _ m _ _ P2 eq_refl ltac:(lia)) as (G & P3).
  { intros x Ex. rewrite Ex in H3. now apply byte_reader. }
  rewrite G, opt_map_id. cbn [bind]. clear G P2.
  destruct (get_at (mr_tx_count c) ld 1 byte_field (fun x => x) _ m _ _ P3 eq_refl ltac:(lia)) as (G & P4).
  { intros x Ex. rewrite Ex in H4. now apply byte_reader. }
  rewrite G, opt_map_id. cbn [bind]. clear G P3.
  replace (mkMr (mr_snr c) (mr_rssi_2 c) (mr_rssi_1 c) (mr_tx_count c) (mr_rach c)) with c by (destruct c; reflexivity).
  unfold mr_size. rewrite Nat.eqb_refl. cbn [guard]. rewrite (proj2 (mr_valid_ok c H5) O). reflexivity.
Qed.
Lemma mr_pack_raw c m : mr_ok c -> (mr_size c <= length m)%nat -> mr_pack c m = if (mr_peeked c =? mr_size c)%nat then Ok (packed (mr_fields c 0) m) else Abort.
Proof.
  intros O L. pose proof O as (H1 & H2 & H3 & H4 & H5). unfold mr_pack. rewrite (proj2 (mr_valid_ok c H5) O). cbn [guard]. unfold mr_size in L. set (h := mr_head c 0).
  assert (Hw : forall B (f : list N -> res B),
    (do m <- st m 0 (N.shiftl (N.b2n (is_some (mr_snr c))) 4) ;
     do m <- orst m 0 (N.shiftl (N.b2n (is_some (mr_rssi_2 c))) 3) ;
     do m <- orst m 0 (N.shiftl (N.b2n (is_some (mr_rssi_1 c))) 2) ;
     do m <- orst m 0 (N.shiftl (N.b2n (is_some (mr_tx_count c))) 1) ;
     do m <- orst m 0 (mr_rach c) ; f m) = f (packed h m)).
  { intros B f. unfold packed. rewrite (fb_eq 1) by reflexivity. change (nbytes h) with 1%nat. unfold h, mr_head.
    rewrite (present_is_some (mr_snr c)), (present_is_some (mr_rssi_2 c)), (present_is_some (mr_rssi_1 c)), (present_is_some (mr_tx_count c)).
    assert (Lm : (1 <= length m)%nat) by lia. clear - Lm H5. mr_names c. fbx. cells m 1%nat. mcbn. f_equal. repeat first [reflexivity | apply f_equal2; [unfold u8; bits|]]. }
  rewrite Hw. assert (W0 : whole h) by (apply mr_head_whole; [exact H5|lia]). change (packed h m, 1%nat) with (packed h m, nbytes h).
  destruct (put_at (mr_snr c) wr_byte 1 byte_field m h) as (G & W1 & N1); [|exact W0|change (nbytes h) with 1%nat; lia|].
  { intros x Ex. rewrite Ex in H1. now apply byte_writer. }
  rewrite G. cbn [bind]. clear G. change (nbytes h) with 1%nat in N1.
  edestruct (fun H => put_at (mr_rssi_2 c) wr_byte 1 byte_field m _ H W1) as (G & W2 & N2); [|lia|].
  { intros x Ex. rewrite Ex in H2. now apply byte_writer. }
  rewrite G. cbn [bind]. clear G. rewrite N1 in N2.
  edestruct (fun H => put_at (mr_rssi_1 c) wr_byte 1 byte_field m _ H W2) as (G & W3 & N3); [|lia|].
  { intros x Ex. rewrite Ex in H3. now apply byte_writer. }
  rewrite G. cbn [bind]. clear G. rewrite N2 in N3.
  edestruct (fun H => put_at (mr_tx_count c) wr_byte 1 byte_field m _ H W3) as (G & W4 & N4); [|lia|].
  { intros x Ex. rewrite Ex in H4. now apply byte_writer. }
  rewrite G. cbn [bind fst snd]. clear G. rewrite N3 in N4. rewrite N4. fold (mr_size c).
  match goal with |- context [packed ?x m] => replace x with (mr_fields c 0) by (rewrite mr_fields_eq, <- !app_assoc; reflexivity) end.
  unfold packed at 1. destruct (mr_parts c 0 O ltac:(lia)) as (V0 & V1 & V2 & V3 & V4). rewrite mr_fields_eq at 1. rewrite fb_app, <- app_assoc by auto 10 using whole_app.
  rewrite mr_peek_head by (auto; lia). cbn [bind]. destruct (mr_peeked c =? mr_size c)%nat; reflexivity.
Qed.
Lemma mr_parse m n : bytes m -> mr_peek m = Ok (Some n) -> (n <= length m)%nat ->
  exists c r t, mr_ok c /\ r < 8 /\ m = field_bytes (mr_fields c r) ++ t /\ n = mr_peeked c.
Proof.
  intros B P L. assert (L0 : (1 <= length m)%nat).
  { unfold mr_peek in P. destruct (ld m 0); try discriminate. cbn [bind] in P. injection P as P. lia. }
  destruct (parse_head [3; 1; 1; 1; 1; 1] 1 m B eq_refl ltac:(lia)) as (h & m1 & W & Wh & B1 & E).
  destruct h as [|(?, r) [|(?, n0) [|(?, n1) [|(?, n2) [|(?, n3) [|(?, n4) [|? ?]]]]]]]; try discriminate. cbn [map fst] in W. injection W as -> -> -> -> -> ->.
  pose proof (whole_fits _ Wh) as Fh. fit_hyp. change (2 ^ 3) with 8 in Fh. change (2 ^ 1) with 2 in Fh. destruct Fh as (F0 & F1 & F2 & F3 & F4 & F5 & _).
  assert (L1 : length m = (1 + length m1)%nat) by (rewrite E, app_length, fb_length; reflexivity).
  set (s := mkMr (dummy n0 0) (dummy n1 0) (dummy n2 0) (dummy n3 0) n4).
  assert (Hs : mr_head s r = [(3, r); (1, n0); (1, n1); (1, n2); (1, n3); (1, n4)]).
  { unfold mr_head, s. cbn [mr_snr mr_rssi_2 mr_rssi_1 mr_tx_count mr_rach]. rewrite !dummy_present by assumption. reflexivity. }
  rewrite E, <- Hs, (mr_peek_head s r m1 F5 F0) in P. injection P as <-. rewrite L1 in L. rewrite E, <- Hs. unfold mr_peeked in *. assert (F5' : mr_rach s < 2) by exact F5. clear - B1 L F0 F5'. clearbody s.
  destruct (parse_num (is_some (mr_snr s)) 8 1 m1 B1 eq_refl ltac:(apply is_some_need; lia)) as (o1 & m2 & S1 & I1 & B2 & -> & L2). rewrite (is_some_size o1 _ 1 S1) in L2.
  destruct (parse_num (is_some (mr_rssi_2 s)) 8 1 m2 B2 eq_refl ltac:(apply is_some_need; lia)) as (o2 & m3 & S2 & I2 & B3 & -> & L3). rewrite (is_some_size o2 _ 1 S2) in L3.
  destruct (parse_num (is_some (mr_rssi_1 s)) 8 1 m3 B3 eq_refl ltac:(apply is_some_need; lia)) as (o3 & m4 & S3 & I3 & B4 & -> & L4). rewrite (is_some_size o3 _ 1 S3) in L4.
  destruct (parse_num (is_some (mr_tx_count s)) 8 1 m4 B4 eq_refl) as (o4 & m5 & S4 & I4 & B5 & -> & L5).
  { intros T. destruct (mr_tx_count s); [cbn [opt_size] in L|discriminate]. lia. }
  change (2 ^ 8) with 256 in *. set (c := mkMr o1 o2 o3 o4 (mr_rach s)). assert (O : mr_ok c) by (unfold mr_ok, c; cbn; auto 10).
  exists c, r, m5. split; [exact O|]. split; [exact F0|]. destruct (mr_parts c r O F0) as (W0 & W1 & W2 & W3 & W4). split.
  - rewrite mr_fields_eq, !fb_app by auto 10 using whole_app. rewrite <- !app_assoc. cbn [c mr_snr mr_rssi_2 mr_rssi_1 mr_tx_count]. f_equal. f_equal. unfold mr_head, c. cbn [mr_snr mr_rssi_2 mr_rssi_1 mr_tx_count mr_rach].
    rewrite (is_some_present _ _ S1), (is_some_present _ _ S2), (is_some_present _ _ S3), (is_some_present _ _ S4). reflexivity.
  - cbn [c mr_snr mr_rssi_2 mr_rssi_1 mr_tx_count]. rewrite (is_some_size _ _ 1 S1), (is_some_size _ _ 1 S2), (is_some_size _ _ 1 S3), (is_some_size _ _ 2 S4). reflexivity.
Qed.
