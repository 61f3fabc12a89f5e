(** Lemmas on the association request. *)
From Coq Require Import Sorted.
From Verif Require Import Base Bytes WireSpec BitSolve ByteFacts Fields MacHeader Channels ChannelsSpec IeBase Beacons BeaconsSpec IeFacts IeCursor IeLists IeListFacts
  ResourceIes ResourceIesFacts RandomAccessFacts AssociationIes AssociationSpec.
Open Scope N_scope.

(** *** Parts *)
Definition dec_hq (h : harq_config) : harq_config := mkHq (hq_processes h) (from_coded 31 (hq_delay h)).
Definition hq_raw (h : harq_config) : Prop := hq_processes h < 8 /\ hq_delay h < 32.
Lemma hq_ok_raw h : hq_ok h -> hq_raw h. Proof. unfold hq_ok, hq_raw. lia. Qed.
Lemma hq_whole h : hq_raw h -> whole (hq_fields h).
Proof. intros (H1 & H2). split; [|reflexivity]. unfold hq_fields. fit_tac. Qed.
Lemma hq_reader h : hq_raw h -> reader rd_harq (hq_fields h) (dec_hq h).
Proof.
  intros (H1 & H2) pre tail. unfold rd_harq, hq_fields, dec_hq. destruct h as [p d]. cbn [hq_processes hq_delay] in *.
  rewrite ld_app0, (fb_eq 1) by reflexivity. fbx. mcbn. do 2 f_equal; [bits|]. f_equal. bits.
Qed.
Lemma hq_writer h : hq_raw h -> writer (wr_harq h) (hq_fields h).
Proof.
  intros (H1 & H2) pre rest L. change (nbytes (hq_fields h)) with 1%nat in *. unfold wr_harq, hq_fields. destruct h as [p d]. cbn [hq_processes hq_delay] in *.
  rewrite st_app0, bind_behind, (fb_eq 1) by reflexivity. fbx. cells rest 1%nat. mcbn. rewrite orst_app0. mcbn. rewrite behind_ok. cells_eq.
Qed.
Lemma hq_valid_dec h : hq_raw h -> hq_valid (dec_hq h) = true <-> hq_ok h.
Proof.
  intros (H1 & H2). unfold hq_valid, hq_ok, dec_hq. cbn [hq_processes hq_delay]. rewrite andb_true_iff, enum_coded by lia. lia.
Qed.
Lemma dec_hq_ok h : hq_ok h -> dec_hq h = h.
Proof. intros (H1 & H2). unfold dec_hq. rewrite coded_id by lia. destruct h; reflexivity. Qed.
Lemma hq_valid_ok h : hq_ok h -> hq_valid h = true.
Proof. intros H. rewrite <- (dec_hq_ok h H). apply hq_valid_dec; [now apply hq_ok_raw|exact H]. Qed.

Definition ft_fields (r2 : N) (f : ft_config) : list (N * N) :=
  [(4, ft_nbp f); (4, ft_cbp f); (3, r2); (13, ft_next_channel f); (32, ft_time_to_next f)].
Definition ft_raw (f : ft_config) : Prop := ft_nbp f < 16 /\ ft_cbp f < 16 /\ ft_next_channel f < 8192 /\ ft_time_to_next f < 2 ^ 32.
Definition dec_ft (f : ft_config) : ft_config :=
  mkFt (from_coded 7 (N.shiftl (ft_nbp f) 4)) (from_coded 11 (ft_cbp f)) (ft_next_channel f) (ft_time_to_next f).
Lemma ft_ok_raw f : ft_ok f -> ft_raw f.
Proof. intros (H1 & H2 & H3 & H4). apply channel_lt in H3. unfold ft_raw. lia. Qed.
Lemma ft_whole r2 f : r2 < 8 -> ft_raw f -> whole (ft_fields r2 f).
Proof. intros R (H1 & H2 & H3 & H4). split; [|reflexivity]. unfold ft_fields. change (2 ^ 32) with 4294967296 in H4. fit_tac. Qed.
Lemma ft_reader r2 f : r2 < 8 -> ft_raw f -> reader rd_ft (ft_fields r2 f) (dec_ft f).
Proof.
  intros R (H1 & H2 & H3 & H4) pre tail. unfold rd_ft, ft_fields, dec_ft, rd_channel, rd_num. destruct f as [a b c d]. cbn [ft_nbp ft_cbp ft_next_channel ft_time_to_next] in *.
  change (2 ^ 32) with 4294967296 in H4. rewrite <- (Nat.add_assoc (length pre) 1 1), ld_app0, !ld_app, b2l_app, (fb_eq 7) by reflexivity. cbn [Nat.add]. fbx. mcbn.
  do 2 f_equal; [f_equal; bits|f_equal; bits|bits|bits].
Qed.
Lemma ft_writer f : ft_raw f -> writer (wr_ft f) (ft_fields 0 f).
Proof.
  intros (H1 & H2 & H3 & H4) pre rest L. change (nbytes (ft_fields 0 f)) with 7%nat in *. unfold wr_ft, ft_fields, wr_channel, wr_num. destruct f as [a b c d].
  cbn [ft_nbp ft_cbp ft_next_channel ft_time_to_next] in *. change (2 ^ 32) with 4294967296 in H4.
  rewrite st_app0, bind_behind, (fb_eq 7) by reflexivity. fbx. cells rest 7%nat. mcbn. rewrite orst_app0, bind_behind. mcbn.
  rewrite st_app, bind_behind. mcbn. rewrite <- (Nat.add_assoc (length pre) 1 1), st_app, bind_behind. cbn [Nat.add]. mcbn. rewrite l2b_app. mcbn. rewrite behind_ok. cells_eq.
Qed.
Lemma ft_valid_dec f : ft_raw f -> ft_valid (dec_ft f) = true <-> ft_ok f /\ ft_nbp f = 0.
Proof.
  intros (H1 & H2 & H3 & H4). unfold ft_valid, ft_ok, dec_ft. cbn [ft_nbp ft_cbp ft_next_channel ft_time_to_next].
  rewrite !andb_true_iff, !enum_coded, channel_range, N.shiftl_mul_pow2 by lia. change (2 ^ 4) with 16. intuition lia.
Qed.
Lemma dec_ft_ok f : ft_ok f -> ft_nbp f = 0 -> dec_ft f = f.
Proof. intros (H1 & H2 & H3 & H4) E. unfold dec_ft. rewrite E, !coded_id by (rewrite ?N.shiftl_0_l; lia). destruct f. cbn in *. subst. reflexivity. Qed.
Lemma ft_valid_ok f : ft_ok f -> ft_valid f = true.
Proof.
  intros (H1 & H2 & H3 & H4). unfold ft_valid. rewrite !enum_valid_lt by lia. cbn [andb]. now apply channel_range.
Qed.

Lemma forallb_in {A} (p : A -> bool) (P : A -> Prop) l : (forall x, In x l -> p x = true <-> P x) -> forallb p l = true <-> Forall P l.
Proof.
  intros H. rewrite forallb_forall, Forall_forall. split; intros K x Hx; apply H; auto.
Qed.

(** *** Association request *)
Definition aq_head (c : association_request) (k r1 : N) : list (N * N) :=
  [(3, aq_cause c); (3, k); (1, bit (aq_constraints c)); (1, present (aq_ft c)); (1, present (aq_current c)); (7, r1);
   (3, hq_processes (aq_tx c)); (5, hq_delay (aq_tx c)); (3, hq_processes (aq_rx c)); (5, hq_delay (aq_rx c))].
Definition aq_head_ok (c : association_request) (k r1 : N) : Prop :=
  aq_cause c < 8 /\ k < 8 /\ r1 < 128 /\ hq_raw (aq_tx c) /\ hq_raw (aq_rx c).
Definition fl_fields (x : N * N) : list (N * N) := [(2, fst x); (6, snd x)].
Definition fl_raw (x : N * N) : Prop := fst x < 4 /\ snd x < 64.
Lemma aq_head_whole c k r1 : aq_head_ok c k r1 -> whole (aq_head c k r1).
Proof.
  intros (H1 & H2 & H3 & (H4 & H5) & (H6 & H7)). split; [|reflexivity]. unfold aq_head.
  pose proof (bit_lt (aq_constraints c)). pose proof (present_lt (aq_ft c)). pose proof (present_lt (aq_current c)). fit_tac.
Qed.
Ltac aq_names c :=
  pose proof (bit_lt (aq_constraints c)); pose proof (present_lt (aq_ft c)); pose proof (present_lt (aq_current c));
  set (x1 := bit (aq_constraints c)) in *; set (x2 := present (aq_ft c)) in *; set (x3 := present (aq_current c)) in *;
  set (y0 := aq_cause c) in *; set (y1 := hq_processes (aq_tx c)) in *; set (y2 := hq_delay (aq_tx c)) in *;
  set (y3 := hq_processes (aq_rx c)) in *; set (y4 := hq_delay (aq_rx c)) in *; clearbody x1 x2 x3 y0 y1 y2 y3 y4.
Lemma aq_head_read c k r1 : aq_head_ok c k r1 -> exists b0 b1 b2 b3, field_bytes (aq_head c k r1) = [b0; b1; b2; b3] /\
  N.shiftr b0 5 = aq_cause c /\ N.land (N.shiftr b0 2) 7 = k /\ N.land (N.shiftr b0 1) 1 = bit (aq_constraints c) /\ N.land b0 1 = present (aq_ft c) /\
  N.shiftr b1 7 = present (aq_current c) /\
  N.shiftr b2 5 = hq_processes (aq_tx c) /\ N.land b2 31 = hq_delay (aq_tx c) /\
  N.shiftr b3 5 = hq_processes (aq_rx c) /\ N.land b3 31 = hq_delay (aq_rx c).
Proof.
  intros (H1 & H2 & H3 & (H4 & H5) & (H6 & H7)). rewrite (fb_eq 4) by reflexivity. unfold aq_head. aq_names c. fbx.
  do 4 eexists. split; [reflexivity|]. repeat match goal with |- _ /\ _ => split end; bits.
Qed.
Lemma aq_peek_head c k r1 t : aq_head_ok c k r1 -> aq_peek (field_bytes (aq_head c k r1) ++ t) =
  if k <? 7 then Ok (Some (4 + N.to_nat k + opt_size (aq_ft c) 7 + opt_size (aq_current c) 2)%nat) else Ok None.
Proof.
  intros K. destruct (aq_head_read c k r1 K) as (b0 & b1 & b2 & b3 & -> & _ & E2 & _ & E4 & E5 & _). unfold aq_peek. mcbn.
  rewrite E2, E4, E5, !opt_size_present. destruct (k <? 7); reflexivity.
Qed.
Definition aq_raw (c : association_request) (fl : list (N * N)) (r1 r2 r3 : N) : Prop :=
  aq_head_ok c (N.of_nat (length fl)) r1 /\ Forall fl_raw fl /\ if_present ft_raw (aq_ft c) /\ if_present (fun n => n < 8192) (aq_current c) /\ r2 < 8 /\ r3 < 8.
Definition h_fl fl := flat_map fl_fields fl.
Definition h_ft c r2 := field_opt (aq_ft c) (ft_fields r2).
Definition h_cur c r3 := field_opt (aq_current c) (fun n => [(3, r3); (13, n)]).
Lemma aq_fields_eq c fl r1 r2 r3 : aq_fields c fl r1 r2 r3 = aq_head c (N.of_nat (length fl)) r1 ++ h_fl fl ++ h_ft c r2 ++ h_cur c r3.
Proof. reflexivity. Qed.
Lemma fl_whole x : fl_raw x -> whole (fl_fields x).
Proof. intros (H1 & H2). split; [|reflexivity]. unfold fl_fields. fit_tac. Qed.
Lemma aq_parts c fl r1 r2 r3 : aq_raw c fl r1 r2 r3 -> whole (aq_head c (N.of_nat (length fl)) r1) /\ whole (h_fl fl) /\ whole (h_ft c r2) /\ whole (h_cur c r3).
Proof.
  intros (K0 & K1 & K2 & K3 & K4 & K5). split; [now apply aq_head_whole|]. split.
  - apply whole_flat. intros x Hx. apply fl_whole. rewrite Forall_forall in K1. auto.
  - split; apply whole_opt; intros x E; rewrite E in *; cbn [if_present] in *; [now apply ft_whole|]. split; [|reflexivity]. fit_tac.
Qed.
Lemma aq_whole c fl r1 r2 r3 : aq_raw c fl r1 r2 r3 -> whole (aq_fields c fl r1 r2 r3).
Proof. intros K. destruct (aq_parts _ _ _ _ _ K) as (W0 & W1 & W2 & W3). rewrite aq_fields_eq. auto using whole_app. Qed.
Definition aq_len (c : association_request) (k : nat) : nat := (4 + k + opt_size (aq_ft c) 7 + opt_size (aq_current c) 2)%nat.
Lemma aq_nbytes c fl r1 r2 r3 : aq_raw c fl r1 r2 r3 -> nbytes (aq_fields c fl r1 r2 r3) = aq_len c (length fl).
Proof.
  intros K. destruct (aq_parts _ _ _ _ _ K) as (W0 & W1 & W2 & W3). rewrite aq_fields_eq, !nbytes_app by assumption.
  unfold h_fl, h_ft, h_cur. rewrite (nbytes_opt _ (ft_fields r2) 7), (nbytes_opt _ (fun n => [(3, r3); (13, n)]) 2) by reflexivity.
  rewrite (nbytes_flat fl fl_fields 1); [unfold aq_len; change (nbytes (aq_head c (N.of_nat (length fl)) r1)) with 4%nat; lia| |reflexivity].
  intros x Hx. apply fl_whole. destruct K as (_ & K1 & _). rewrite Forall_forall in K1. auto.
Qed.
Definition dec_fl (x : N * N) : N := from_coded_lower 0 7 (snd x).
Lemma fl_reader x : fl_raw x -> reader rd_flow (fl_fields x) (dec_fl x).
Proof.
  intros (H1 & H2) pre tail. unfold rd_flow, fl_fields, dec_fl. destruct x as [r i]. cbn [fst snd] in *. rewrite ld_app0, (fb_eq 1) by reflexivity. fbx. mcbn. do 2 f_equal. bits.
Qed.
Lemma fl_writer i : i < 64 -> writer (wr_byte i) (fl_fields (0, i)).
Proof.
  intros H pre rest L. change (nbytes (fl_fields (0, i))) with 1%nat in *. unfold wr_byte, fl_fields. cbn [fst snd]. rewrite st_app0, (fb_eq 1) by reflexivity. fbx.
  cells rest 1%nat. mcbn. rewrite behind_ok. cells_eq.
Qed.
Definition aq_dec (c : association_request) (fl : list (N * N)) : association_request :=
  mkAq (from_coded 7 (aq_cause c)) (set_of (fun x => x) (map dec_fl fl)) (aq_constraints c) (option_map dec_ft (aq_ft c)) (aq_current c) (dec_hq (aq_tx c)) (dec_hq (aq_rx c)).
Lemma flag_zero b i w : w = 2 ^ i -> negb (N.land b w =? 0) = flag b i.
Proof. intros E. unfold flag. rewrite (mask_flag b w i E). f_equal. pose proof (N.pow_nonzero 2 i ltac:(lia)). destruct (N.eqb_spec (N.land (N.shiftr b i) 1) 0) as [->|Ne]; [now rewrite N.mul_0_r|]. apply N.eqb_neq. now apply N.neq_mul_0. Qed.
Lemma aq_unpack_raw c fl r1 r2 r3 t : aq_raw c fl r1 r2 r3 ->
  aq_unpack (field_bytes (aq_fields c fl r1 r2 r3) ++ t) =
  (do n <- aq_size (aq_dec c fl) ; guard (n =? aq_len c (length fl))%nat (Ok (aq_dec c fl, aq_valid (aq_dec c fl)))).
Proof.
  intros K. pose proof K as (K0 & K1 & K2 & K3 & K4 & K5). destruct (aq_parts _ _ _ _ _ K) as (W0 & W1 & W2 & W3).
  rewrite aq_fields_eq, !fb_app by auto 10 using whole_app. rewrite <- !app_assoc.
  destruct (aq_head_read c _ r1 K0) as (b0 & b1 & b2 & b3 & E0 & E1 & E2 & E3 & E4 & E5 & E6 & E7 & E8 & E9). rewrite E0.
  match goal with |- context [[b0; b1; b2; b3] ++ ?u] => set (u0 := u) end.
  assert (P : skipn 4 ([b0; b1; b2; b3] ++ u0) = u0) by reflexivity.
  assert (D0 : ld ([b0; b1; b2; b3] ++ u0) 0 = Ok b0) by reflexivity. assert (D1 : ld ([b0; b1; b2; b3] ++ u0) 1 = Ok b1) by reflexivity.
  assert (D2 : ld ([b0; b1; b2; b3] ++ u0) 2 = Ok b2) by reflexivity. assert (D3 : ld ([b0; b1; b2; b3] ++ u0) 3 = Ok b3) by reflexivity.
  unfold u0 in P at 2. set (m := [b0; b1; b2; b3] ++ u0) in *. clearbody m. clear E0.
  unfold aq_unpack. rewrite D0, D1. cbn [bind]. unfold rd_harq at 1 2. rewrite D2, D3. cbn [bind].
  rewrite E1, E2, E6, E7, E8, E9.
  rewrite Nat2N.id.
  destruct (get_all_at fl rd_flow 1 fl_fields dec_fl _ m _ _ P eq_refl ltac:(lia)) as (G & P1); clear P.
  { intros x Hx. rewrite Forall_forall in K1. split; [now apply fl_reader, K1|]. split; [reflexivity|now apply fl_whole, K1]. }
  rewrite G. cbn [bind]. clear G. rewrite (flag0 _ _ E4).
  destruct (get_at (aq_ft c) rd_ft 7 (ft_fields r2) dec_ft _ m _ _ P1 eq_refl ltac:(lia)) as (G & P2); clear P1.
  { intros x Ex. rewrite Ex in K2. split; [now apply ft_reader|reflexivity]. }
  rewrite G. cbn [bind]. clear G.
  assert (E5' : negb (N.shiftr b1 7 =? 0) = is_some (aq_current c)) by (rewrite E5; destruct (aq_current c); reflexivity). rewrite E5'.
  destruct (get_at (aq_current c) rd_channel 2 (fun n => [(3, r3); (13, n)]) (fun x => x) _ m _ _ P2 eq_refl ltac:(lia)) as (G & P3); clear P2.
  { intros x Ex. rewrite Ex in K3. split; [now apply reader_channel|reflexivity]. }
  rewrite G, opt_map_id. cbn [bind]. clear G.
  rewrite (flag_zero b0 1 2 eq_refl), (flag_bit _ _ _ E3).
  replace (4 + length fl * 1 + opt_size (aq_ft c) 7 + opt_size (aq_current c) 2)%nat with (aq_len c (length fl)) by (unfold aq_len; lia).
  reflexivity.
Qed.
Lemma dec_fl_valid fl : forallb (enum_valid_lower 0 7) (set_of (fun x => x) (map dec_fl fl)) = true <-> Forall flow_ok (map snd fl).
Proof.
  rewrite (forallb_in _ (fun v => enum_valid_lower 0 7 v = true)) by tauto. rewrite !Forall_forall. split.
  - intros H i Hi. apply in_map_iff in Hi. destruct Hi as (x & <- & Hx).
    assert (D : enum_valid_lower 0 7 (dec_fl x) = true).
    { apply H. pose proof (set_key (fun x => x) (map dec_fl fl) (dec_fl x)) as S1. rewrite !map_id in S1. apply S1. now apply in_map. }
    unfold dec_fl in D. apply enum_coded_lower in D; [|lia]. unfold flow_ok. lia.
  - intros H v Hv. apply set_in in Hv. apply in_map_iff in Hv. destruct Hv as (x & <- & Hx). unfold dec_fl. apply enum_coded_lower; [lia|].
    assert (flow_ok (snd x)) as F by (apply H; now apply in_map). unfold flow_ok in F. lia.
Qed.
Lemma dec_fl_ok fl : Forall flow_ok (map snd fl) -> map dec_fl fl = map snd fl.
Proof. intros H. apply map_ext_in. intros x Hx. unfold dec_fl. rewrite Forall_forall in H. assert (flow_ok (snd x)) as F by (apply H; now apply in_map). unfold flow_ok in F. apply coded_lower_id. lia. Qed.
Lemma set_empty l : is_empty (set_of (fun x : N => x) l) = is_empty l.
Proof.
  destruct l as [|x l]; [reflexivity|]. cbn [is_empty]. destruct (set_of (fun x => x) (x :: l)) as [|y s] eqn:E; [|reflexivity].
  pose proof (set_key (fun x => x) (x :: l) x) as S1. rewrite !map_id, E in S1. destruct S1 as (_ & S1). exfalso. apply S1. now left.
Qed.
Lemma asc_ascending l : asc (fun x : N => x) l <-> ascending l.
Proof. unfold asc, ascending. split; intros H; (eapply StronglySorted_ind with (2 := fun a l H1 H2 H3 => SSorted_cons a H2 H3) in H; [exact H|constructor]). Qed.
(** The message with the flows of the octets [fl]. *)
Definition aq_with (c : association_request) (fl : list (N * N)) : association_request :=
  mkAq (aq_cause c) (set_of (fun x => x) (map snd fl)) (aq_constraints c) (aq_ft c) (aq_current c) (aq_tx c) (aq_rx c).
Lemma aq_valid_dec c fl r1 r2 r3 : aq_raw c fl r1 r2 r3 ->
  aq_valid (aq_dec c fl) = true <-> aq_ok (aq_with c fl) /\ if_present (fun f => ft_nbp f = 0) (aq_ft c).
Proof.
  intros ((H1 & H2 & H3 & H4 & H5) & K1 & K2 & K3 & _ & _). unfold aq_valid, aq_ok, aq_dec, aq_with. cbn [aq_cause aq_flows aq_constraints aq_ft aq_current aq_tx aq_rx].
  rewrite !andb_true_iff, negb_true_iff, orb_false_iff, negb_false_iff, dec_fl_valid, set_empty, !hq_valid_dec, enum_coded by (assumption || lia).
  rewrite (opt_all_if channel_in_range channel _ channel_range).
  assert (F : opt_all ft_valid (option_map dec_ft (aq_ft c)) = true <-> if_present ft_ok (aq_ft c) /\ if_present (fun f => ft_nbp f = 0) (aq_ft c)).
  { destruct (aq_ft c) as [f|]; cbn [option_map opt_all if_present] in *; [now apply ft_valid_dec|tauto]. }
  rewrite F.
  assert (Em : is_empty (map dec_fl fl) = false <-> set_of (fun x : N => x) (map snd fl) <> []).
  { pose proof (set_empty (map snd fl)) as S1. destruct fl, (set_of (fun x : N => x) (map snd _)); cbn in *; intuition congruence. }
  rewrite Em.
  assert (Fl : Forall flow_ok (map snd fl) <-> Forall flow_ok (set_of (fun x : N => x) (map snd fl))).
  { rewrite !Forall_forall. pose proof (fun i => set_key (fun x : N => x) (map snd fl) i) as S1. rewrite !map_id in S1. split; intros H i Hi; apply H; now apply S1. }
  rewrite Fl. intuition lia.
Qed.
Lemma aq_receive c fl r1 r2 r3 t : aq_raw c fl r1 r2 r3 ->
  let r := aq_unpack (field_bytes (aq_fields c fl r1 r2 r3) ++ t) in
  let good := aq_ok (aq_with c fl) /\ if_present (fun f => ft_nbp f = 0) (aq_ft c) /\ NoDup (map snd fl) in
  (good -> r = Ok (aq_with c fl, true)) /\ (~ good -> r = Abort).
Proof.
  intros K r good. unfold r, good. rewrite (aq_unpack_raw _ _ _ _ _ _ K). pose proof (aq_valid_dec _ _ _ _ _ K) as V. unfold aq_size.
  destruct (aq_valid (aq_dec c fl)) eqn:E; cbn [guard bind].
  - destruct (proj1 V eq_refl) as (O & Z). pose proof O as (O1 & O2 & O3 & O4 & O5 & O6 & O7).
    cbn [aq_with aq_cause aq_flows aq_constraints aq_ft aq_current aq_tx aq_rx] in *.
    assert (Fl : Forall flow_ok (map snd fl)).
    { rewrite Forall_forall in *. intros i Hi. apply O3. pose proof (set_key (fun x : N => x) (map snd fl) i) as S1. rewrite !map_id in S1. now apply S1. }
    assert (D : aq_dec c fl = aq_with c fl).
    { unfold aq_dec, aq_with. rewrite (dec_fl_ok fl Fl), coded_id, !dec_hq_ok by (assumption || lia). f_equal.
      destruct (aq_ft c) as [f|]; [|reflexivity]. cbn [option_map if_present] in *. now rewrite dec_ft_ok. }
    rewrite D. cbn [aq_with aq_flows aq_ft aq_current]. unfold aq_len. set (s := set_of (fun x : N => x) (map snd fl)).
    pose proof (set_length (fun x : N => x) (map snd fl)) as S1. rewrite map_id, map_length in S1. fold s in S1.
    destruct (Nat.eqb_spec (4 + length s + opt_size (aq_ft c) 7 + opt_size (aq_current c) 2) (4 + length fl + opt_size (aq_ft c) 7 + opt_size (aq_current c) 2)) as [Eq|Ne]; cbn [guard].
    + split; [reflexivity|]. intros G. exfalso. apply G. split; [exact O|]. split; [exact Z|]. apply S1. lia.
    + split; [|reflexivity]. intros (_ & _ & G). apply S1 in G. lia.
  - split; [|reflexivity]. intros (G1 & G2 & _). assert (false = true) by (apply V; auto). discriminate.
Qed.
Lemma aq_head_write c k m {B} (f : list N -> res B) : aq_head_ok c k 0 -> (4 <= length m)%nat ->
  (do m <- st m 0 (N.shiftl (aq_cause c) 5) ;
   do m <- orst m 0 (N.shiftl k 2) ;
   do m <- orst m 0 (N.shiftl (N.b2n (aq_constraints c)) 1) ;
   do m <- orst m 0 (N.b2n (is_some (aq_ft c))) ;
   do m <- st m 1 (N.shiftl (N.b2n (is_some (aq_current c))) 7) ;
   do m <- wr_harq (aq_tx c) m 2 ;
   do m <- wr_harq (aq_rx c) m 3 ; f m) = f (packed (aq_head c k 0) m).
Proof.
  intros (H1 & H2 & H3 & (H4 & H5) & (H6 & H7)) L. unfold packed. rewrite (fb_eq 4) by reflexivity. change (nbytes (aq_head c k 0)) with 4%nat.
  unfold wr_harq, aq_head. rewrite (present_is_some (aq_ft c)), (present_is_some (aq_current c)), (bit_b2n (aq_constraints c)). aq_names c.
  fbx. cells m 4%nat. mcbn. f_equal. repeat first [reflexivity | apply f_equal2; [unfold u8; bits|]].
Qed.
Lemma sent_raw l : Forall flow_ok l -> Forall fl_raw (sent l).
Proof. unfold sent. rewrite Forall_map. apply Forall_impl. intros i H. unfold flow_ok, fl_raw in *. cbn. lia. Qed.
Lemma sent_snd l : map snd (sent l) = l.
Proof. unfold sent. rewrite map_map. cbn. apply map_id. Qed.
Lemma flows_few l : Forall flow_ok l -> ascending l -> (length l <= 6)%nat.
Proof.
  intros F S1. apply asc_ascending in S1. apply asc_nodup in S1. rewrite map_id in S1.
  assert (I : incl l [1; 2; 3; 4; 5; 6]).
  { intros i Hi. rewrite Forall_forall in F. apply F in Hi. unfold flow_ok in Hi. cbn [In]. lia. }
  apply (NoDup_incl_length S1 I).
Qed.
Lemma aq_ok_raw c : aq_ok c -> ascending (aq_flows c) -> aq_raw c (sent (aq_flows c)) 0 0 0.
Proof.
  intros (H1 & H2 & H3 & H4 & H5 & H6 & H7) S1. pose proof (flows_few _ H3 S1). unfold aq_raw, aq_head_ok, sent. rewrite map_length. repeat split; try lia; try now apply hq_ok_raw.
  - now apply sent_raw.
  - destruct (aq_ft c); [now apply ft_ok_raw|exact I].
  - destruct (aq_current c); [now apply channel_lt|exact I].
Qed.
Lemma aq_with_sent c : ascending (aq_flows c) -> aq_with c (sent (aq_flows c)) = c.
Proof. intros S1. unfold aq_with. rewrite sent_snd, set_sorted by now apply asc_ascending. destruct c; reflexivity. Qed.
Lemma aq_valid_ok c : aq_ok c -> aq_valid c = true.
Proof.
  intros (H1 & H2 & H3 & H4 & H5 & H6 & H7). unfold aq_valid. rewrite enum_valid_lt, !hq_valid_ok by (assumption || lia).
  rewrite (proj2 (opt_all_if channel_in_range channel _ channel_range) H5).
  assert (F : opt_all ft_valid (aq_ft c) = true) by (destruct (aq_ft c); [now apply ft_valid_ok|reflexivity]). rewrite F.
  assert (E : forallb (enum_valid_lower 0 7) (aq_flows c) = true).
  { apply forallb_forall. intros i Hi. rewrite Forall_forall in H3. apply H3 in Hi. unfold flow_ok in Hi. apply enum_valid_lower_lt; lia. }
  rewrite E. destruct (aq_flows c); [congruence|reflexivity].
Qed.
Lemma aq_pack_raw c m : aq_ok c -> ascending (aq_flows c) -> (aq_len c (length (aq_flows c)) <= length m)%nat ->
  aq_pack c m = Ok (packed (aq_fields c (sent (aq_flows c)) 0 0 0) m).
Proof.
  intros O S1 L. pose proof (aq_ok_raw c O S1) as K. pose proof O as (H1 & H2 & H3 & H4 & H5 & H6 & H7). pose proof (flows_few _ H3 S1) as Few.
  assert (Ls : length (sent (aq_flows c)) = length (aq_flows c)) by apply map_length.
  pose proof (proj1 K) as Ho. rewrite Ls in Ho. unfold aq_pack. rewrite (aq_valid_ok c O). cbn [guard]. unfold aq_len in L.
  rewrite (aq_head_write c _ m) by (auto; lia). set (h := aq_head c (N.of_nat (length (aq_flows c))) 0).
  assert (W0 : whole h) by now apply aq_head_whole. change 4%nat with (nbytes h) at 1.
  destruct (put_all_at (aq_flows c) wr_byte 1 (fun i => fl_fields (0, i)) m h) as (G & W1 & N1); [|exact W0|change (nbytes h) with 4%nat; lia|].
  { intros i Hi. rewrite Forall_forall in H3. apply H3 in Hi. unfold flow_ok in Hi. split; [apply fl_writer; lia|]. split; [reflexivity|]. apply fl_whole. unfold fl_raw. cbn. lia. }
  rewrite G. cbn [bind]. clear G. change (nbytes h) with 4%nat in N1.
  edestruct (fun H => put_at (aq_ft c) wr_ft 7 (ft_fields 0) m _ H W1) as (G & W2 & N2); [|lia|].
  { intros x Ex. rewrite Ex in H4. cbn [if_present] in H4. apply ft_ok_raw in H4. split; [now apply ft_writer|]. split; [reflexivity|]. now apply ft_whole. }
  rewrite G. cbn [bind]. clear G. rewrite N1 in N2.
  edestruct (fun H => put_at (aq_current c) wr_channel 2 (fun n => [(3, 0); (13, n)]) m _ H W2) as (G & W3 & N3); [|lia|].
  { intros x Ex. rewrite Ex in H5. cbn [if_present] in H5. apply channel_lt in H5. split; [now apply writer_channel|]. split; [reflexivity|]. split; [|reflexivity]. fit_tac. }
  rewrite G. cbn [bind fst snd]. clear G. rewrite N2 in N3. rewrite N3.
  match goal with |- context [packed ?x m] => replace x with (aq_fields c (sent (aq_flows c)) 0 0 0) end.
  2: { rewrite aq_fields_eq, Ls. unfold h_fl, sent. rewrite flat_map_concat_map, map_map, <- flat_map_concat_map, <- !app_assoc. reflexivity. }
  unfold packed at 1. destruct (aq_parts _ _ _ _ _ K) as (V0 & V1 & V2 & V3). rewrite aq_fields_eq, fb_app, <- app_assoc by auto using whole_app.
  rewrite aq_peek_head by apply K. rewrite Ls. replace (N.of_nat (length (aq_flows c)) <? 7) with true by lia. cbn [bind]. rewrite Nat2N.id.
  replace (_ =? _)%nat with true by lia. reflexivity.
Qed.
Lemma aq_parse m n : bytes m -> aq_peek m = Ok (Some n) -> (n <= length m)%nat ->
  exists c fl r1 r2 r3 t, aq_raw c fl r1 r2 r3 /\ m = field_bytes (aq_fields c fl r1 r2 r3) ++ t /\ n = aq_len c (length fl).
Proof.
  intros B P L.
  assert (L0 : (4 <= length m)%nat).
  { unfold aq_peek in P. destruct (ld m 0); try discriminate. cbn [bind] in P. destruct (_ <? 7); [|discriminate]. destruct (ld m 1); try discriminate. cbn [bind] in P. injection P as P. lia. }
  destruct (parse_head [3; 3; 1; 1; 1; 7; 3; 5; 3; 5] 4 m B eq_refl L0) as (h & m1 & W & Wh & B1 & E).
  destruct h as [|(?, n0) [|(?, n1) [|(?, n2) [|(?, n3) [|(?, n4) [|(?, r1) [|(?, n6) [|(?, n7) [|(?, n8) [|(?, n9) [|? ?]]]]]]]]]]]; try discriminate.
  cbn [map fst] in W. injection W as -> -> -> -> -> -> -> -> -> ->.
  pose proof (whole_fits _ Wh) as Fh. fit_hyp. change (2 ^ 1) with 2 in Fh. change (2 ^ 3) with 8 in Fh. change (2 ^ 5) with 32 in Fh. change (2 ^ 7) with 128 in Fh.
  destruct Fh as (F0 & F1 & F2 & F3 & F4 & F5 & F6 & F7 & F8 & F9 & _).
  set (s := mkAq n0 [] (n2 =? 1) (dummy n3 (mkFt 0 0 0 0)) (dummy n4 0) (mkHq n6 n7) (mkHq n8 n9)).
  assert (Hs : aq_head s n1 r1 = [(3, n0); (3, n1); (1, n2); (1, n3); (1, n4); (7, r1); (3, n6); (5, n7); (3, n8); (5, n9)]).
  { unfold aq_head, s. cbn [aq_cause aq_constraints aq_ft aq_current aq_tx aq_rx hq_processes hq_delay].
    assert (Bt : forall x, x < 2 -> bit (x =? 1) = x) by (intros x Hx; unfold bit; destruct (N.eqb_spec x 1); lia).
    rewrite !dummy_present, !Bt by assumption. reflexivity. }
  assert (Ho : aq_head_ok s n1 r1) by (unfold aq_head_ok, hq_raw, s; cbn; auto 10).
  clearbody s. rewrite E, <- Hs, (aq_peek_head s n1 r1 m1 Ho) in P. destruct (N.ltb_spec n1 7) as [Lt|]; [|discriminate]. injection P as P.
  assert (L1 : length m = (4 + length m1)%nat) by (rewrite E, app_length, fb_length; reflexivity).
  rewrite L1 in L. rewrite E, <- Hs. clear - B1 L P Ho Lt.
  destruct (parse_all [2; 6] 1 (N.to_nat n1) m1 B1 eq_refl ltac:(lia)) as (ls & m2 & L1 & Ls & B2 & -> & L2).
  assert (Fl : exists fl, length fl = length ls /\ concat ls = flat_map fl_fields fl /\ Forall fl_raw fl).
  { clear - Ls. induction Ls as [|l ls (H1 & H2) _ (fl & I1 & I2 & I3)]; [exists []; auto|].
    destruct l as [|(?, a) [|(?, b) [|? ?]]]; try discriminate. cbn [map fst] in H1. injection H1 as -> ->. exists ((a, b) :: fl). cbn [length concat flat_map].
    split; [lia|]. split; [now rewrite I2|]. constructor; [|exact I3]. apply whole_fits in H2. fit_hyp. unfold fl_raw. cbn. change (2 ^ 2) with 4 in *. change (2 ^ 6) with 64 in *. tauto. }
  destruct Fl as (fl & Fl1 & -> & Fl3).
  destruct (parse_if (is_some (aq_ft s)) [4; 4; 3; 13; 32] 7 m2 B2 eq_refl ltac:(apply is_some_need; lia)) as (lf & m3 & V1 & V2 & B3 & -> & L3).
  assert (Ft : exists ft r2, is_some ft = is_some (aq_ft s) /\ lf = field_opt ft (ft_fields r2) /\ if_present ft_raw ft /\ r2 < 8).
  { destruct (is_some (aq_ft s)).
    - destruct lf as [|(?, a) [|(?, b) [|(?, r2) [|(?, d) [|(?, e) [|? ?]]]]]]; try discriminate. cbn [map fst] in V1. injection V1 as -> -> -> -> ->.
      exists (Some (mkFt a b d e)), r2. apply whole_fits in V2. fit_hyp. change (2 ^ 4) with 16 in *. change (2 ^ 3) with 8 in *. change (2 ^ 13) with 8192 in *.
      cbn [if_present]. unfold ft_raw. cbn. tauto.
    - destruct lf; [|discriminate]. exists None, 0. cbn. repeat split; auto; lia. }
  destruct Ft as (ft & r2 & Ft1 & -> & Ft3 & Ft4).
  destruct (parse_num2 (is_some (aq_current s)) 3 13 2 m3 B3 eq_refl ltac:(apply is_some_need; destruct (aq_ft s); cbn [is_some opt_size] in *; lia)) as (cur & r3 & m4 & S6 & I6 & J6 & B7 & -> & L7).
  set (c := mkAq (aq_cause s) [] (aq_constraints s) ft cur (aq_tx s) (aq_rx s)).
  assert (Hc : aq_head c n1 r1 = aq_head s n1 r1).
  { unfold aq_head. cbn [c aq_cause aq_constraints aq_ft aq_current aq_tx aq_rx]. rewrite (is_some_present _ _ Ft1), (is_some_present _ _ S6). reflexivity. }
  assert (Hn : N.of_nat (length fl) = n1) by lia.
  assert (K : aq_raw c fl r1 r2 r3).
  { unfold aq_raw, aq_head_ok. rewrite Hn. cbn [c aq_cause aq_tx aq_rx aq_ft aq_current]. unfold aq_head_ok in Ho. tauto. }
  exists c, fl, r1, r2, r3, m4. split; [exact K|]. split.
  - destruct (aq_parts _ _ _ _ _ K) as (W0 & W1 & W2 & W3). rewrite aq_fields_eq, !fb_app by auto 10 using whole_app. rewrite <- !app_assoc, Hn, Hc. reflexivity.
  - unfold aq_len. cbn [c aq_ft aq_current]. rewrite (is_some_size _ _ _ Ft1), (is_some_size _ _ _ S6). lia.
Qed.
