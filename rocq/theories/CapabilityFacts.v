(** Lemmas on the radio device capability. *)
From Verif Require Import Base Bytes WireSpec BitSolve ByteFacts Fields MacHeader IeBase IeLists BeaconsSpec IeFacts IeCursor IeListFacts ResourceIesFacts RandomAccessFacts
  AssociationFacts ReconfFacts InfoIes CapabilityIes InfoIesSpec.
Open Scope N_scope.

(** Values that fit their fields *)
Definition pc_raw (p : phy_capability) : Prop :=
  pc_power_class p < 8 /\ pc_nss p < 4 /\ pc_diversity p < 4 /\ pc_gain_index p < 16 /\ pc_max_mcs p < 16 /\ pc_soft_buffer p < 16 /\ pc_harq p < 4 /\ pc_delay p < 16.
Definition rr_raw (r : N * N * N) : Prop := fst (fst r) < 2 /\ snd (fst r) < 4 /\ snd r < 16.
Definition ad_raw (a : additional) : Prop := ad_mu a < 8 /\ ad_beta a < 16 /\ pc_raw (ad_phy a).
(** What reading makes of them *)
Definition pc_dec (p : phy_capability) : phy_capability :=
  mkPc (from_coded 3 (pc_power_class p)) (from_coded 4 (pc_nss p)) (from_coded 4 (pc_diversity p)) (pc_gain_index p) (from_coded 10 (pc_max_mcs p)) (from_coded 9 (pc_soft_buffer p))
       (from_coded 4 (pc_harq p)) (from_coded 7 (pc_delay p)).
Definition ad_dec (a : additional) : additional := mkAd (from_coded 4 (ad_mu a)) (from_coded 6 (ad_beta a)) (pc_dec (ad_phy a)).
Lemma pc_ok_raw p : pc_ok p -> pc_raw p.
Proof. unfold pc_ok, pc_raw. lia. Qed.
Lemma ad_ok_raw a : ad_ok a -> ad_raw a.
Proof. intros (H1 & H2 & H3). unfold ad_raw. split; [lia|]. split; [lia|now apply pc_ok_raw]. Qed.
Lemma pc_whole p r : pc_raw p -> rr_raw r -> whole (pc_fields p r).
Proof. intros (H1 & H2 & H3 & H4 & H5 & H6 & H7 & H8) (R1 & R2 & R3). split; [unfold pc_fields; fit_tac|reflexivity]. Qed.
Lemma pc_reader p r : pc_raw p -> rr_raw r -> reader rd_phy (pc_fields p r) (pc_dec p).
Proof.
  intros (H1 & H2 & H3 & H4 & H5 & H6 & H7 & H8) (R1 & R2 & R3) pre tail. destruct p as [p1 p2 p3 p4 p5 p6 p7 p8], r as [[r1 r2] r3]. unfold rd_phy, pc_fields, pc_dec.
  cbn [pc_power_class pc_nss pc_diversity pc_gain_index pc_max_mcs pc_soft_buffer pc_harq pc_delay fst snd] in *.
  rewrite ld_app0, !ld_app, (fb_eq 4) by reflexivity. fbx. mcbn. f_equal. f_equal; first [f_equal|idtac]; unfold u8; bits.
Qed.
Lemma pc_writer p : pc_raw p -> writer (wr_phy p) (pc_fields p (0, 0, 0)).
Proof.
  intros (H1 & H2 & H3 & H4 & H5 & H6 & H7 & H8) pre rest L. change (nbytes _) with 4%nat in *. destruct p as [p1 p2 p3 p4 p5 p6 p7 p8]. unfold wr_phy, pc_fields.
  cbn [pc_power_class pc_nss pc_diversity pc_gain_index pc_max_mcs pc_soft_buffer pc_harq pc_delay fst snd] in *.
  rewrite st_app0, bind_behind, (fb_eq 4) by reflexivity. fbx. cells rest 4%nat. mcbn. repeat (rewrite ?orst_app0, ?st_app, ?orst_app, ?bind_behind; mcbn).
  rewrite behind_ok. cells_eq.
Qed.
Definition ad_first (a : additional) (r0 : N) : list (N * N) := [(3, ad_mu a); (4, ad_beta a); (1, r0)].
Lemma ad_first_whole a r0 : ad_raw a -> r0 < 2 -> whole (ad_first a r0).
Proof. intros (H1 & H2 & _) R. split; [unfold ad_first; fit_tac|reflexivity]. Qed.
Lemma ad_whole a r0 r : ad_raw a -> r0 < 2 -> rr_raw r -> whole (ad_fields a r0 r) /\ nbytes (ad_fields a r0 r) = 5%nat.
Proof. intros H R0 R. split; [apply whole_app; [now apply ad_first_whole|apply pc_whole; [apply H|exact R]]|reflexivity]. Qed.
Lemma ad_reader a r0 r : ad_raw a -> r0 < 2 -> rr_raw r -> reader rd_additional (ad_fields a r0 r) (ad_dec a).
Proof.
  intros H R0 R pre tail. pose proof (ad_first_whole a r0 H R0) as W. unfold ad_fields. fold (ad_first a r0). assert (Wp : whole (pc_fields (ad_phy a) r)) by (apply pc_whole; [apply H|exact R]).
  rewrite fb_app, <- app_assoc by assumption.
  unfold rd_additional. replace (rd_phy (pre ++ field_bytes (ad_first a r0) ++ field_bytes (pc_fields (ad_phy a) r) ++ tail) (length pre + 1)) with (Ok (pc_dec (ad_phy a))).
  - rewrite ld_app0, (fb_eq 1) by reflexivity. destruct H as (H1 & H2 & _). unfold ad_first, ad_dec. set (x := ad_mu a) in *. set (y := ad_beta a) in *. clearbody x y. fbx. mcbn. f_equal.
    f_equal; f_equal; unfold u8; bits.
  - symmetry. rewrite app_assoc. replace (length pre + 1)%nat with (length (pre ++ field_bytes (ad_first a r0))) by (rewrite app_length, fb_length; reflexivity).
    apply pc_reader; [apply H|exact R].
Qed.
Lemma ad_writer a : ad_raw a -> writer (wr_additional a) (ad_fields a 0 (0, 0, 0)).
Proof.
  intros H pre rest L. assert (V : writer (fun m off => do m <- st m off (N.shiftl (ad_mu a) 5) ; orst m off (N.shiftl (ad_beta a) 1)) (ad_first a 0)).
  { clear - H. destruct H as (H1 & H2 & _). intros pre rest L. change (nbytes _) with 1%nat in *. unfold ad_first. set (x := ad_mu a) in *. set (y := ad_beta a) in *. clearbody x y.
    rewrite st_app0, bind_behind, (fb_eq 1) by reflexivity. fbx. cells rest 1%nat. mcbn. rewrite orst_app0. mcbn. rewrite behind_ok. cells_eq. }
  assert (R : rr_raw (0, 0, 0)) by (unfold rr_raw; cbn; lia). pose proof (ad_first_whole a 0 H ltac:(lia)) as W.
  pose proof (writer_seq _ _ _ _ 1 V (pc_writer (ad_phy a) ltac:(apply H)) W ltac:(apply pc_whole; [apply H|exact R]) eq_refl pre rest L) as G. cbv beta in G.
  unfold wr_additional. change (ad_fields a 0 (0, 0, 0)) with (ad_first a 0 ++ pc_fields (ad_phy a) (0, 0, 0)). rewrite <- G. destruct (st _ _ _); reflexivity.
Qed.
Lemma gain_valid i : is_some (get_rx_gain_dB i) = true <-> i <= 8.
Proof.
  unfold get_rx_gain_dB. destruct (N.ltb_spec i 9); [|cbn; split; [discriminate|lia]]. split; [lia|]. intros _.
  destruct (nth_error rx_gain_table (N.to_nat i)) eqn:E; [reflexivity|]. apply nth_error_None in E. change (length rx_gain_table) with 9%nat in E. lia.
Qed.
Ltac coded := repeat match goal with |- context [enum_valid ?u (from_coded ?u ?v) = true] => rewrite (enum_coded u v) by lia end.
Lemma pc_dec_valid p : pc_valid (pc_dec p) = true <-> pc_ok p.
Proof.
  unfold pc_valid, pc_dec, pc_ok. cbn [pc_power_class pc_nss pc_diversity pc_gain_index pc_max_mcs pc_soft_buffer pc_harq pc_delay]. rewrite !andb_true_iff. coded. rewrite gain_valid. lia.
Qed.
Lemma pc_dec_id p : pc_ok p -> pc_dec p = p.
Proof. intros H. unfold pc_dec, pc_ok in *. rewrite !coded_id by lia. destruct p; reflexivity. Qed.
Lemma pc_valid_ok p : pc_ok p -> pc_valid p = true.
Proof. intros H. rewrite <- (pc_dec_id p H). now apply pc_dec_valid. Qed.
Lemma ad_dec_id a : ad_ok a -> ad_dec a = a.
Proof. intros (H1 & H2 & H3). unfold ad_dec. rewrite pc_dec_id, !coded_id by (auto; lia). destruct a; reflexivity. Qed.

Notation cap_item := (additional * (N * (N * N * N)))%type.
Definition it_raw (x : cap_item) : Prop := ad_raw (fst x) /\ fst (snd x) < 2 /\ rr_raw (snd (snd x)).
Definition it_fields (x : cap_item) : list (N * N) := ad_fields (fst x) (fst (snd x)) (snd (snd x)).
Definition cap_head (c : rd_capability) (r1 r2 : N) : list (N * N) :=
  [(3, N.of_nat (length (cap_additional c))); (5, cap_release c); (4, r1); (2, cap_modes c); (1, bit (cap_mesh c)); (1, bit (cap_scheduled c));
   (3, cap_security c); (3, cap_dlc c); (2, r2)].
Definition cap_raw (c : rd_capability) (r1 r2 : N) (r3 : N * N * N) (rs : list (N * (N * N * N))) : Prop :=
  (length (cap_additional c) <= 7)%nat /\ cap_release c < 32 /\ cap_modes c < 4 /\ cap_security c < 8 /\ cap_dlc c < 8 /\ pc_raw (cap_phy c) /\
  r1 < 16 /\ r2 < 4 /\ rr_raw r3 /\ length rs = length (cap_additional c) /\ Forall it_raw (combine (cap_additional c) rs).
Definition cap_dec (c : rd_capability) : rd_capability :=
  mkCap (map ad_dec (cap_additional c)) (from_coded_lower 0 5 (cap_release c)) (from_coded 3 (cap_modes c)) (cap_mesh c) (cap_scheduled c) (from_coded 2 (cap_security c))
        (from_coded 5 (cap_dlc c)) (pc_dec (cap_phy c)).
Section Cap.
Variables (c : rd_capability) (r1 r2 : N) (r3 : N * N * N) (rs : list (N * (N * N * N))).
Hypothesis K : cap_raw c r1 r2 r3 rs.
Definition cap_items : list cap_item := combine (cap_additional c) rs.
Lemma items_length : length cap_items = length (cap_additional c).
Proof. destruct K as (_ & _ & _ & _ & _ & _ & _ & _ & _ & E & _). unfold cap_items. rewrite combine_length, E. lia. Qed.
Lemma map_fst_combine {A B} (l : list A) : forall (k : list B), length k = length l -> map fst (combine l k) = l.
Proof. induction l as [|x l IH]; intros [|y k] E; cbn in *; try reflexivity; try lia. f_equal. apply IH. lia. Qed.
Lemma cap_fields_eq : cap_fields c r1 r2 r3 rs = cap_head c r1 r2 ++ pc_fields (cap_phy c) r3 ++ flat_map it_fields cap_items.
Proof. reflexivity. Qed.
Lemma cap_parts : whole (cap_head c r1 r2) /\ whole (pc_fields (cap_phy c) r3) /\ whole (flat_map it_fields cap_items).
Proof.
  destruct K as (K1 & K2 & K3 & K4 & K5 & K6 & K7 & K8 & K9 & _ & K10). split; [|split].
  - split; [|reflexivity]. unfold cap_head. pose proof (bit_lt (cap_mesh c)). pose proof (bit_lt (cap_scheduled c)). fit_tac.
  - now apply pc_whole.
  - apply whole_flat. intros x Hx. rewrite Forall_forall in K10. destruct (K10 x Hx) as (I1 & I2 & I3). now apply ad_whole.
Qed.
Lemma cap_whole : whole (cap_fields c r1 r2 r3 rs) /\ nbytes (cap_fields c r1 r2 r3 rs) = (7 + length (cap_additional c) * 5)%nat.
Proof.
  destruct cap_parts as (W0 & W1 & W2). rewrite cap_fields_eq. split; [auto using whole_app|]. rewrite !nbytes_app by assumption. rewrite (nbytes_flat _ it_fields 5).
  - rewrite items_length. reflexivity.
  - intros x Hx. destruct K as (_ & _ & _ & _ & _ & _ & _ & _ & _ & _ & K10). rewrite Forall_forall in K10. destruct (K10 x Hx) as (I1 & I2 & I3). now apply ad_whole.
  - reflexivity.
Qed.
Lemma cap_head_read : exists b0 b1 b2, field_bytes (cap_head c r1 r2) = [b0; b1; b2] /\ N.shiftr b0 5 = N.of_nat (length (cap_additional c)) /\ N.land b0 31 = cap_release c /\
  N.land (N.shiftr b1 2) 3 = cap_modes c /\ N.land (N.shiftr b1 1) 1 = bit (cap_mesh c) /\ N.land (N.shiftr b1 0) 1 = bit (cap_scheduled c) /\
  N.shiftr b2 5 = cap_security c /\ N.land (N.shiftr b2 2) 7 = cap_dlc c.
Proof.
  destruct K as (K1 & K2 & K3 & K4 & K5 & _ & K7 & K8 & _). rewrite (fb_eq 3) by reflexivity. unfold cap_head. pose proof (bit_lt (cap_mesh c)). pose proof (bit_lt (cap_scheduled c)).
  assert (Hn : N.of_nat (length (cap_additional c)) < 8) by lia. clear K. set (n := N.of_nat _) in *.
  set (x1 := cap_release c) in *. set (x2 := cap_modes c) in *. set (x3 := cap_security c) in *. set (x4 := cap_dlc c) in *. set (y1 := bit (cap_mesh c)) in *. set (y2 := bit (cap_scheduled c)) in *.
  clearbody n x1 x2 x3 x4 y1 y2. fbx. do 3 eexists. split; [reflexivity|].
  repeat match goal with |- _ /\ _ => split end; unfold u8; bits.
Qed.
Lemma mask_bit (x : bool) b w i : w = 2 ^ i -> N.land (N.shiftr b i) 1 = bit x -> negb (N.land b w =? 0) = x.
Proof.
  intros Hw E. rewrite (mask_flag b w i Hw), E, <- Hw. assert (w <> 0) by (rewrite Hw; apply N.pow_nonzero; lia). destruct x; cbn [bit]; [|now rewrite N.mul_0_r].
  rewrite N.mul_1_r. destruct (N.eqb_spec w 0); [contradiction|reflexivity].
Qed.
Lemma cap_peek_raw t : cap_peek (field_bytes (cap_fields c r1 r2 r3 rs) ++ t) = Ok (Some (7 + length (cap_additional c) * 5)%nat).
Proof.
  destruct cap_parts as (W0 & W1 & W2). rewrite cap_fields_eq, !fb_app by auto using whole_app. rewrite <- !app_assoc. destruct cap_head_read as (b0 & b1 & b2 & -> & E & _).
  unfold cap_peek. cbn [app]. mcbn. rewrite E, Nat2N.id. reflexivity.
Qed.
Lemma cap_dec_valid : cap_valid (cap_dec c) = true <-> cap_ok c.
Proof.
  destruct K as (K1 & _). unfold cap_valid, cap_dec, cap_ok. cbn [cap_additional cap_release cap_modes cap_security cap_dlc cap_phy]. rewrite !andb_true_iff. coded.
  rewrite (enum_coded_lower 0 5) by lia. rewrite pc_dec_valid, map_length.
  assert (Fa : forallb (fun a => enum_valid 4 (ad_mu a) && enum_valid 6 (ad_beta a) && pc_valid (ad_phy a)) (map ad_dec (cap_additional c)) = true <-> Forall ad_ok (cap_additional c)).
  { clear. induction (cap_additional c) as [|a l IH]; cbn [map forallb]; [split; auto|]. rewrite andb_true_iff, IH, Forall_cons_iff. change (ad_ok a) with (ad_mu a <= 3 /\ ad_beta a <= 5 /\ pc_ok (ad_phy a)).
    unfold ad_dec at 1 2 3. cbn [ad_mu ad_beta ad_phy].
    rewrite !andb_true_iff. coded. rewrite pc_dec_valid. assert (ad_mu a < 4 <-> ad_mu a <= 3) by lia. assert (ad_beta a < 6 <-> ad_beta a <= 5) by lia. tauto. }
  rewrite Fa. rewrite Nat.leb_le. assert (0 < cap_release c < 5 <-> 1 <= cap_release c <= 4) by lia. assert (cap_modes c < 3 <-> cap_modes c <= 2) by lia.
  assert (cap_security c < 2 <-> cap_security c <= 1) by lia. assert (cap_dlc c < 5 <-> cap_dlc c <= 4) by lia. tauto.
Qed.
Lemma cap_unpack_raw t : cap_unpack (field_bytes (cap_fields c r1 r2 r3 rs) ++ t) = if cap_valid (cap_dec c) then Ok (cap_dec c, true) else Abort.
Proof.
  destruct cap_parts as (W0 & W1 & W2). rewrite cap_fields_eq, !fb_app by auto using whole_app. rewrite <- !app_assoc.
  destruct cap_head_read as (b0 & b1 & b2 & -> & E1 & E2 & E3 & E4 & E5 & E6 & E7). match goal with |- context [[b0; b1; b2] ++ ?v] => set (v0 := v) end.
  assert (P : skipn 3 ([b0; b1; b2] ++ v0) = v0) by reflexivity. unfold v0 in P at 2. assert (D0 : ld ([b0; b1; b2] ++ v0) 0 = Ok b0) by reflexivity.
  assert (D1 : ld ([b0; b1; b2] ++ v0) 1 = Ok b1) by reflexivity. assert (D2 : ld ([b0; b1; b2] ++ v0) 2 = Ok b2) by reflexivity. set (m := [b0; b1; b2] ++ v0) in *. clearbody m.
  unfold cap_unpack. rewrite D0. cbn [bind]. rewrite D1. cbn [bind]. rewrite D2. cbn [bind].
  pose proof K as (_ & _ & _ & _ & _ & K6 & _ & _ & K9 & K10 & K11).
  rewrite (reader_at rd_phy (pc_fields (cap_phy c) r3) (pc_dec (cap_phy c)) m 3 _ ltac:(now apply pc_reader) (Nat.lt_0_succ 3) P). cbn [bind].
  assert (P7 : skipn 7 m = field_bytes (flat_map it_fields cap_items) ++ t).
  { change 7%nat with (3 + nbytes (pc_fields (cap_phy c) r3))%nat. eapply skipn_next; [reflexivity|exact P]. }
  destruct (get_all_at cap_items rd_additional 5 it_fields (fun x => ad_dec (fst x)) (N.to_nat (N.shiftr b0 5)) m 7 t P7) as (G & _).
  { rewrite E1, Nat2N.id. symmetry. apply items_length. } { lia. }
  { intros x Hx. rewrite Forall_forall in K11. destruct (K11 x Hx) as (I1 & I2 & I3). split; [now apply ad_reader|]. split; [reflexivity|now apply ad_whole]. }
  rewrite G. cbn [bind]. rewrite <- (map_map fst ad_dec). replace (map fst cap_items) with (cap_additional c) by (symmetry; now apply map_fst_combine). rewrite E2, E3, E6, E7, (mask_bit _ _ 2 1 eq_refl E4), (mask_bit _ _ 1 0 eq_refl E5).
  fold (cap_dec c). unfold cap_size. destruct (cap_valid (cap_dec c)); [|reflexivity]. cbn [guard bind]. unfold cap_dec at 1. cbn [cap_additional]. rewrite map_length, items_length.
  rewrite Nat.eqb_refl. reflexivity.
Qed.
End Cap.
Lemma unreserved_raw c : cap_ok c -> cap_raw c 0 0 (0, 0, 0) (unreserved c).
Proof.
  intros (O1 & O2 & O3 & O4 & O5 & O6 & O7). unfold cap_raw, unreserved. rewrite map_length. assert (rr_raw (0, 0, 0)) by (unfold rr_raw; cbn; lia).
  do 5 (split; [lia|]). split; [now apply pc_ok_raw|]. do 2 (split; [lia|]). split; [assumption|]. split; [reflexivity|].
  clear - O2 H. induction O2 as [|a l Ha _ IH]; cbn [map combine]; constructor; [|exact IH]. unfold it_raw. cbn [fst snd]. split; [now apply ad_ok_raw|]. split; [lia|assumption].
Qed.
Lemma cap_dec_id c : cap_ok c -> cap_dec c = c.
Proof.
  intros (O1 & O2 & O3 & O4 & O5 & O6 & O7). unfold cap_dec. rewrite coded_lower_id, !coded_id, pc_dec_id by (auto; lia).
  replace (map ad_dec (cap_additional c)) with (cap_additional c); [destruct c; reflexivity|].
  clear - O2. induction O2 as [|a l Ha _ IH]; [reflexivity|]. cbn [map]. now rewrite ad_dec_id, <- IH.
Qed.
Lemma cap_pack_raw c m : cap_ok c -> (7 + length (cap_additional c) * 5 <= length m)%nat -> cap_pack c m = Ok (packed (cap_fields c 0 0 (0, 0, 0) (unreserved c)) m).
Proof.
  intros O L. pose proof (unreserved_raw c O) as R. destruct (cap_parts c 0 0 _ _ R) as (W0 & W1 & W2). destruct (cap_whole c 0 0 _ _ R) as (W & E).
  unfold cap_pack. assert (V : cap_valid c = true) by (rewrite <- (cap_dec_id c O); now apply (cap_dec_valid c 0 0 _ _ R)). rewrite V. cbn [guard]. set (h := cap_head c 0 0) in *.
  assert (Hw : forall B (f : list N -> res B),
    (do m <- st m 0 (N.shiftl (N.of_nat (length (cap_additional c))) 5) ; do m <- orst m 0 (cap_release c) ;
     do m <- st m 1 (N.shiftl (cap_modes c) 2) ; do m <- orst m 1 (N.shiftl (N.b2n (cap_mesh c)) 1) ; do m <- orst m 1 (N.b2n (cap_scheduled c)) ;
     do m <- st m 2 (N.shiftl (cap_security c) 5) ; do m <- orst m 2 (N.shiftl (cap_dlc c) 2) ; f m) = f (packed h m)).
  { intros B f. unfold packed. rewrite (fb_eq 3) by reflexivity. change (nbytes h) with 3%nat. unfold h, cap_head. rewrite (bit_b2n (cap_mesh c)), (bit_b2n (cap_scheduled c)).
    pose proof (bit_lt (cap_mesh c)). pose proof (bit_lt (cap_scheduled c)). destruct O as (O1 & O2 & O3 & O4 & O5 & O6 & _). assert (Hn : N.of_nat (length (cap_additional c)) < 8) by lia.
    assert (Lm : (3 <= length m)%nat) by lia. clear - Lm Hn O3 O4 O5 O6 H H0. set (n := N.of_nat _) in *.
    set (x1 := cap_release c) in *. set (x2 := cap_modes c) in *. set (x3 := cap_security c) in *. set (x4 := cap_dlc c) in *. set (y1 := bit (cap_mesh c)) in *. set (y2 := bit (cap_scheduled c)) in *.
    assert (x1 < 32) by lia. assert (x2 < 4) by lia. assert (x3 < 8) by lia. assert (x4 < 8) by lia. clear O3 O4 O5 O6.
    clearbody n x1 x2 x3 x4 y1 y2. fbx. cells m 3%nat. mcbn. f_equal. repeat first [reflexivity | apply f_equal2; [unfold u8; bits|]]. }
  rewrite Hw. destruct (put_at (Some (cap_phy c)) wr_phy 4 (fun p => pc_fields p (0, 0, 0)) m h) as (G & W3 & N3); [|exact W0|change (nbytes h) with 3%nat; cbn [opt_size]; lia|].
  { intros x Ex. injection Ex as <-. split; [|split; [reflexivity|exact W1]]. apply pc_writer. now apply R. }
  cbn [put fst snd field_opt opt_size] in G, W3, N3. change (nbytes h) with 3%nat in G, N3. destruct (wr_phy (cap_phy c) (packed h m) 3) as [m1| | |]; try discriminate. cbn [bind] in *. assert (G1 : m1 = packed (h ++ pc_fields (cap_phy c) (0, 0, 0)) m) by (injection G as G; exact G). rewrite G1. clear G G1.
  change (packed (h ++ pc_fields (cap_phy c) (0, 0, 0)) m, 7%nat) with (packed (h ++ pc_fields (cap_phy c) (0, 0, 0)) m, nbytes (h ++ pc_fields (cap_phy c) (0, 0, 0))).
  destruct (put_all_at (cap_additional c) wr_additional 5 (fun a => ad_fields a 0 (0, 0, 0)) m (h ++ pc_fields (cap_phy c) (0, 0, 0))) as (G & _ & N4); [|exact W3|lia|].
  { intros x Hx. destruct O as (_ & O2 & _). rewrite Forall_forall in O2. pose proof (ad_ok_raw x (O2 x Hx)). split; [now apply ad_writer|]. split; [reflexivity|]. apply ad_whole; [assumption|lia|].
    unfold rr_raw. cbn. lia. }
  rewrite G. cbn [bind fst snd]. rewrite N4, N3.
  match goal with |- context [packed ?x m] => replace x with (cap_fields c 0 0 (0, 0, 0) (unreserved c)) end.
  - unfold packed at 1. rewrite (cap_peek_raw c 0 0 _ _ R). cbn [bind]. rewrite Nat.eqb_refl. reflexivity.
  - rewrite cap_fields_eq, <- app_assoc. fold h. do 2 f_equal. unfold cap_items, unreserved. clear. induction (cap_additional c) as [|a l IH]; [reflexivity|]. cbn [map combine flat_map]. now rewrite IH.
Qed.
Lemma cap_parse m n : bytes m -> cap_peek m = Ok (Some n) -> (n <= length m)%nat ->
  exists c r1 r2 r3 rs t, cap_raw c r1 r2 r3 rs /\ m = field_bytes (cap_fields c r1 r2 r3 rs) ++ t /\ n = (7 + length (cap_additional c) * 5)%nat.
Proof.
  intros B P L. assert (L0 : (7 <= length m)%nat).
  { unfold cap_peek in P. destruct (ld m 0); try discriminate. cbn [bind] in P. injection P as P. lia. }
  destruct (parse_head [3; 5; 4; 2; 1; 1; 3; 3; 2] 3 m B eq_refl ltac:(lia)) as (h & m1 & W & Wh & B1 & E).
  destruct h as [|(?, k) [|(?, x1) [|(?, r1) [|(?, x2) [|(?, x3) [|(?, x4) [|(?, x5) [|(?, x6) [|(?, r2) [|? ?]]]]]]]]]]; try discriminate. cbn [map fst] in W. injection W as -> -> -> -> -> -> -> -> ->.
  pose proof (whole_fits _ Wh) as Fh. fit_hyp. change (2 ^ 3) with 8 in Fh. change (2 ^ 5) with 32 in Fh. change (2 ^ 4) with 16 in Fh. change (2 ^ 2) with 4 in Fh. change (2 ^ 1) with 2 in Fh.
  destruct Fh as (F0 & F1 & F2 & F3 & F4 & F5 & F6 & F7 & F8 & _).
  assert (L1 : length m = (3 + length m1)%nat) by (rewrite E, app_length, fb_length; reflexivity).
  assert (Pn : n = (7 + N.to_nat k * 5)%nat).
  { rewrite E in P. rewrite (fb_eq 3) in P by reflexivity. unfold cat_fields in P. cbn [fold_left fst snd le_bytes rev app] in P. unfold cap_peek in P. cbn [ld rd nth_error bind] in P.
    match type of P with context [N.shiftr ?b 5] => assert (Q : N.shiftr b 5 = k) by (unfold u8; bits) end. rewrite Q in P. now injection P as <-. }
  clear P. destruct (parse_head [1; 3; 2; 2; 4; 4; 4; 2; 2; 4; 4] 4 m1 B1 eq_refl ltac:(lia)) as (h & m2 & W & Wh2 & B2 & E2).
  assert (L2 : length m1 = (nbytes h + length m2)%nat) by (rewrite E2, app_length, fb_length; reflexivity).
  destruct h as [|(?, s1) [|(?, p1) [|(?, p2) [|(?, p3) [|(?, p4) [|(?, p5) [|(?, p6) [|(?, p7) [|(?, s2) [|(?, p8) [|(?, s3) [|? ?]]]]]]]]]]]]; try discriminate. cbn [map fst] in W.
  injection W as -> -> -> -> -> -> -> -> -> -> ->. change (nbytes _) with 4%nat in L2.
  pose proof (whole_fits _ Wh2) as Fh. fit_hyp. change (2 ^ 3) with 8 in Fh. change (2 ^ 4) with 16 in Fh. change (2 ^ 2) with 4 in Fh. change (2 ^ 1) with 2 in Fh.
  destruct Fh as (A1 & A2 & A3 & A4 & A5 & A6 & A7 & A8 & A9 & A10 & A11 & _).
  destruct (parse_all [3; 4; 1; 1; 3; 2; 2; 4; 4; 4; 2; 2; 4; 4] 5 (N.to_nat k) m2 B2 eq_refl ltac:(lia)) as (ls & t & L3 & Ls & _ & -> & _).
  assert (Fl : exists il, length il = length ls /\ concat ls = flat_map it_fields il /\ Forall it_raw il).
  { clear - Ls. induction Ls as [|l ls (H1 & H2) _ (fl & I1 & I2 & I3)]; [exists []; auto|].
    destruct l as [|(?, mu) [|(?, beta) [|(?, s0) [|(?, s1) [|(?, p1) [|(?, p2) [|(?, p3) [|(?, p4) [|(?, p5) [|(?, p6) [|(?, p7) [|(?, s2) [|(?, p8) [|(?, s3) [|? ?]]]]]]]]]]]]]]]; try discriminate.
    cbn [map fst] in H1. injection H1 as -> -> -> -> -> -> -> -> -> -> -> -> -> ->. exists ((mkAd mu beta (mkPc p1 p2 p3 p4 p5 p6 p7 p8), (s0, (s1, s2, s3))) :: fl). cbn [length concat flat_map].
    split; [lia|]. split; [now rewrite I2|]. constructor; [|exact I3]. apply whole_fits in H2. fit_hyp. change (2 ^ 3) with 8 in H2. change (2 ^ 4) with 16 in H2. change (2 ^ 2) with 4 in H2. change (2 ^ 1) with 2 in H2.
    unfold it_raw, ad_raw, pc_raw, rr_raw. cbn. tauto. }
  destruct Fl as (il & Fl1 & Fl2 & Fl3). set (c := mkCap (map fst il) x1 x2 (x3 =? 1) (x4 =? 1) x5 x6 (mkPc p1 p2 p3 p4 p5 p6 p7 p8)).
  assert (Cm : combine (map fst il) (map snd il) = il).
  { clear. induction il as [|[x y] il IH]; [reflexivity|]. cbn [map combine fst snd]. now rewrite IH. }
  assert (K : cap_raw c r1 r2 (s1, s2, s3) (map snd il)).
  { unfold cap_raw, c, pc_raw, rr_raw. cbn [cap_additional cap_release cap_modes cap_security cap_dlc cap_phy pc_power_class pc_nss pc_diversity pc_gain_index pc_max_mcs pc_soft_buffer pc_harq pc_delay fst snd].
    rewrite !map_length, Cm. repeat split; try assumption; lia. }
  exists c, r1, r2, (s1, s2, s3), (map snd il), t. split; [exact K|]. destruct (cap_parts _ _ _ _ _ K) as (W0 & W1 & W2). split.
  - rewrite E, E2, cap_fields_eq, !fb_app by auto using whole_app. rewrite <- !app_assoc. apply f_equal2; [|apply f_equal2; [reflexivity|]].
    + unfold cap_head, c. cbn [cap_additional cap_release cap_modes cap_mesh cap_scheduled cap_security cap_dlc]. rewrite map_length, Fl1, L3, N2Nat.id.
      replace (bit (x3 =? 1)) with x3 by (destruct (N.eqb_spec x3 1); cbn [bit]; lia). replace (bit (x4 =? 1)) with x4 by (destruct (N.eqb_spec x4 1); cbn [bit]; lia). reflexivity.
    + rewrite Fl2. unfold cap_items, c. cbn [cap_additional]. now rewrite Cm.
  - rewrite Pn. unfold c. cbn [cap_additional]. rewrite map_length. lia.
Qed.
