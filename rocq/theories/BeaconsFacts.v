(** Lemmas about the beacon messages. *)
From Verif Require Import Base Bytes WireSpec BitSolve ByteFacts Fields MacHeader Channels IeBase Beacons BeaconsSpec IeFacts.
Open Scope N_scope.

Lemma fit_app a b : fields_fit (a ++ b) <-> fields_fit a /\ fields_fit b.
Proof. apply Forall_app. Qed.
Ltac whole_tac := split; [fit_tac|reflexivity].

Section Cluster.
Variable mu : N.
Definition cb_head (c : cluster_beacon) (r0 : N) : list (N * N) :=
  [(8, cb_sfn c);
   (3, r0); (1, present (cb_power c)); (1, bit (cb_constraints c)); (1, present (cb_offset c));
   (1, present (cb_next_channel c)); (1, present (cb_time_to_next c));
   (4, cb_nbp c); (4, cb_cbp c);
   (4, cb_count c); (2, cb_rel c); (2, cb_min c)].
Definition f_power (r p : N) := [(4, r); (4, p)].
Definition f_offset (o : N) := [((if mu <=? 4 then 8 else 16), o)].
Definition f_channel (r n : N) := [(3, r); (13, n)].
Definition f_time (t : N) := [(32, t)].

Lemma cb_fields_eq c r0 r1 r2 : cb_fields mu c r0 r1 r2 =
  cb_head c r0 ++ field_opt (cb_power c) (f_power r1) ++ field_opt (cb_offset c) f_offset ++
  field_opt (cb_next_channel c) (f_channel r2) ++ field_opt (cb_time_to_next c) f_time.
Proof. reflexivity. Qed.

(** All fields fit. *)
Definition cb_raw (c : cluster_beacon) (r0 r1 r2 : N) : Prop :=
  whole (cb_head c r0) /\ whole (field_opt (cb_power c) (f_power r1)) /\ whole (field_opt (cb_offset c) f_offset) /\
  whole (field_opt (cb_next_channel c) (f_channel r2)) /\ whole (field_opt (cb_time_to_next c) f_time).
Lemma width_mod_opt {A} (o : option A) f : (forall x, width (f x) mod 8 = 0) -> width (field_opt o f) mod 8 = 0.
Proof. destruct o; cbn [field_opt]; auto. Qed.
Lemma cb_whole_iff c r0 r1 r2 : whole (cb_fields mu c r0 r1 r2) <-> cb_raw c r0 r1 r2.
Proof.
  rewrite cb_fields_eq. split.
  - intros (F & _). rewrite !fit_app in F. destruct F as (F1 & F2 & F3 & F4 & F5).
    repeat (split; [split; [assumption|]|]); [reflexivity|..|split; [assumption|]]; apply width_mod_opt; intros x; try reflexivity.
    unfold f_offset. destruct (mu <=? 4); reflexivity.
  - intros (F1 & F2 & F3 & F4 & F5). auto using whole_app.
Qed.
Lemma cb_bytes_eq c r0 r1 r2 : cb_raw c r0 r1 r2 -> field_bytes (cb_fields mu c r0 r1 r2) =
  field_bytes (cb_head c r0) ++ field_bytes (field_opt (cb_power c) (f_power r1)) ++ field_bytes (field_opt (cb_offset c) f_offset) ++
  field_bytes (field_opt (cb_next_channel c) (f_channel r2)) ++ field_bytes (field_opt (cb_time_to_next c) f_time).
Proof. intros (F1 & F2 & F3 & F4 & F5). rewrite cb_fields_eq. rewrite !fb_app by auto using whole_app. reflexivity. Qed.
Lemma nb_offset x : nbytes (f_offset x) = fo_size mu.
Proof. unfold f_offset, fo_size. destruct (mu <=? 4); reflexivity. Qed.
Lemma cb_size_eq c r0 r1 r2 : cb_raw c r0 r1 r2 -> nbytes (cb_fields mu c r0 r1 r2) = cb_size mu c.
Proof.
  intros (F1 & F2 & F3 & F4 & F5). rewrite cb_fields_eq. rewrite !nbytes_app by auto.
  rewrite (nbytes_opt _ _ 1), (nbytes_opt _ _ (fo_size mu)), (nbytes_opt _ _ 2), (nbytes_opt _ _ 4) by (intros; try reflexivity; apply nb_offset).
  change (nbytes (cb_head c r0)) with 4%nat. unfold cb_size. lia.
Qed.

(** What the receiver makes of the codes. *)
Definition cb_dec (c : cluster_beacon) : cluster_beacon :=
  mkCb (cb_sfn c) (option_map (from_coded_lower 2 16) (cb_power c)) (cb_constraints c) (cb_offset c) (cb_next_channel c) (cb_time_to_next c)
    (from_coded 7 (cb_nbp c)) (from_coded 11 (cb_cbp c)) (from_coded 16 (cb_count c)) (from_coded 4 (cb_rel c)) (from_coded 4 (cb_min c)).

Definition head_bounds (c : cluster_beacon) (r0 : N) : Prop :=
  cb_sfn c < 256 /\ r0 < 8 /\ cb_nbp c < 16 /\ cb_cbp c < 16 /\ cb_count c < 16 /\ cb_rel c < 4 /\ cb_min c < 4.
Lemma head_fit c r0 : whole (cb_head c r0) <-> head_bounds c r0.
Proof.
  unfold cb_head, head_bounds, whole, fields_fit. rewrite !Forall_cons_iff. cbn [fst snd].
  pose proof (present_lt (cb_power c)). pose proof (present_lt (cb_offset c)). pose proof (present_lt (cb_next_channel c)).
  pose proof (present_lt (cb_time_to_next c)). pose proof (bit_lt (cb_constraints c)).
  change (2 ^ 8) with 256. change (2 ^ 3) with 8. change (2 ^ 4) with 16. change (2 ^ 2) with 4. change (2 ^ 1) with 2.
  split; [tauto|]. intros. split; [|reflexivity]. repeat split; try tauto. constructor.
Qed.
(** The four leading bytes. *)
Lemma head_bytes c r0 : whole (cb_head c r0) -> exists b0 b1 b2 b3, field_bytes (cb_head c r0) = [b0; b1; b2; b3] /\
  b0 = cb_sfn c /\
  N.land (N.shiftr b1 4) 1 = present (cb_power c) /\ N.land (N.shiftr b1 3) 1 = bit (cb_constraints c) /\
  N.land (N.shiftr b1 2) 1 = present (cb_offset c) /\ N.land (N.shiftr b1 1) 1 = present (cb_next_channel c) /\
  N.land b1 1 = present (cb_time_to_next c) /\
  N.shiftr b2 4 = cb_nbp c /\ N.land b2 15 = cb_cbp c /\
  N.shiftr b3 4 = cb_count c /\ N.land (N.shiftr b3 2) 3 = cb_rel c /\ N.land b3 3 = cb_min c.
Proof.
  intros H. apply head_fit in H. destruct H as (H1 & H2 & H3 & H4 & H5 & H6 & H7).
  rewrite (fb_eq 4) by reflexivity. unfold cb_head. fbx.
  pose proof (present_lt (cb_power c)). pose proof (present_lt (cb_offset c)). pose proof (present_lt (cb_next_channel c)).
  pose proof (present_lt (cb_time_to_next c)). pose proof (bit_lt (cb_constraints c)).
  destruct c as [sfn pw pc fo nc tt nbp cbp ct rl mn]. cbn [cb_sfn cb_power cb_constraints cb_offset cb_next_channel cb_time_to_next cb_nbp cb_cbp cb_count cb_rel cb_min] in *.
  set (x1 := present pw) in *. set (x2 := bit pc) in *. set (x3 := present fo) in *. set (x4 := present nc) in *. set (x5 := present tt) in *.
  clearbody x1 x2 x3 x4 x5.
  do 4 eexists. split; [reflexivity|]. repeat split; bits.
Qed.

Lemma cb_peek_raw c r0 t : whole (cb_head c r0) -> cb_peek mu (field_bytes (cb_head c r0) ++ t) = Ok (cb_size mu c).
Proof.
  intros H. destruct (head_bytes c r0 H) as (b0 & b1 & b2 & b3 & -> & _ & E1 & _ & E3 & E4 & E5 & _).
  unfold cb_peek. mcbn. rewrite E1, E3, E4, E5, !opt_size_present, to_nat_present. reflexivity.
Qed.

Lemma cb_unpack_raw c r0 r1 r2 t : cb_raw c r0 r1 r2 ->
  cb_unpack mu (field_bytes (cb_fields mu c r0 r1 r2) ++ t) = Ok (cb_dec c, cb_valid mu (cb_dec c)).
Proof.
  intros R. rewrite cb_bytes_eq by exact R. destruct R as (F1 & F2 & F3 & F4 & F5).
  destruct (head_bytes c r0 F1) as (b0 & b1 & b2 & b3 & E & D0 & D1 & D2 & D3 & D4 & D5 & D6 & D7 & D8 & D9 & D10).
  assert (I : forall u, ld (field_bytes (cb_head c r0) ++ u) 0 = Ok b0 /\ ld (field_bytes (cb_head c r0) ++ u) 1 = Ok b1 /\
    ld (field_bytes (cb_head c r0) ++ u) 2 = Ok b2 /\ ld (field_bytes (cb_head c r0) ++ u) 3 = Ok b3) by (intros u; rewrite E; repeat split).
  unfold cb_unpack. rewrite <- !app_assoc.
  match goal with |- context [ld (_ ++ ?u) 0] => destruct (I u) as (-> & -> & -> & ->) end. cbn [bind]. clear I.
  set (H := field_bytes (cb_head c r0)). set (P := field_bytes (field_opt (cb_power c) (f_power r1))).
  set (O := field_bytes (field_opt (cb_offset c) f_offset)). set (C := field_bytes (field_opt (cb_next_channel c) (f_channel r2))).
  set (T := field_bytes (field_opt (cb_time_to_next c) f_time)).
  change 4%nat with (length H) at 1. 
  rewrite (get_step (cb_power c) _ 1 (f_power r1) (from_coded_lower 2 16) _ _ H (O ++ C ++ T ++ t)); [|reflexivity|now apply flag_present|].
  2: { intros x Ex. split; [|reflexivity]. intros pre tail. rewrite Ex in F2. destruct F2 as (F2 & _). unfold field_opt, f_power in *. fit_hyp.
       rewrite reader_low4; [reflexivity|change (2 ^ 4) with 16 in *; tauto..]. }
  cbn [bind]. fold P.
  rewrite (get_step (cb_offset c) _ (fo_size mu) f_offset (fun x => x) _ _ (H ++ P) (C ++ T ++ t)); [|now rewrite <- !app_assoc|now apply flag_present|].
  2: { intros x Ex. split; [|apply nb_offset]. rewrite Ex in F3. destruct F3 as (F3 & _). unfold field_opt, f_offset, fo_size in *. fit_hyp.
       destruct (mu <=? 4); [apply reader_byte|apply reader_num2]; tauto. }
  cbn [bind]. fold O.
  rewrite (get_step (cb_next_channel c) _ 2 (f_channel r2) (fun x => x) _ _ ((H ++ P) ++ O) (T ++ t)); [|now rewrite <- !app_assoc|now apply flag_present|].
  2: { intros x Ex. split; [|reflexivity]. rewrite Ex in F4. destruct F4 as (F4 & _). unfold field_opt, f_channel in *. fit_hyp.
       apply reader_channel; change (2 ^ 3) with 8 in *; change (2 ^ 13) with 8192 in *; tauto. }
  cbn [bind]. fold C.
  rewrite (get_step (cb_time_to_next c) _ 4 f_time (fun x => x) _ _ (((H ++ P) ++ O) ++ C) t); [|now rewrite <- !app_assoc| |].
  2: { apply flag_present. rewrite N.shiftr_0_r. exact D5. }
  2: { intros x Ex. split; [|reflexivity]. rewrite Ex in F5. destruct F5 as (F5 & _). unfold field_opt, f_time in *. fit_hyp.
       apply reader_num4; tauto. }
  cbn [bind]. fold T. subst b0. rewrite (flag_bit _ _ _ D2), D6, D7, D8, D9, D10.
  assert (I : forall o : option N, option_map (fun x => x) o = o) by (intros [x|]; reflexivity). rewrite !I.
  match goal with |- guard (cb_size mu ?x =? _)%nat _ = _ => change x with (cb_dec c) end.
  replace (cb_size mu (cb_dec c)) with (length ((((H ++ P) ++ O) ++ C) ++ T)).
  { rewrite Nat.eqb_refl. reflexivity. }
  unfold H, P, O, C, T. rewrite !app_length, !fb_length.
  rewrite (nbytes_opt _ _ 1), (nbytes_opt _ _ (fo_size mu)), (nbytes_opt _ _ 2), (nbytes_opt _ _ 4) by (intros; try reflexivity; apply nb_offset).
  change (nbytes (cb_head c r0)) with 4%nat. unfold cb_size, cb_dec. cbn [cb_power cb_offset cb_next_channel cb_time_to_next].
  assert (J : opt_size (option_map (from_coded_lower 2 16) (cb_power c)) 1 = opt_size (cb_power c) 1) by (destruct (cb_power c); reflexivity).
  rewrite J. lia.
Qed.

(** Any received bytes are some message with some reserved bits. *)
Lemma cb_parse m n : bytes m -> cb_peek mu m = Ok n -> (4 <= length m)%nat -> (n <= length m)%nat ->
  exists c r0 r1 r2 t, cb_raw c r0 r1 r2 /\ m = field_bytes (cb_fields mu c r0 r1 r2) ++ t /\ n = cb_size mu c.
Proof.
  intros B P L4 L.
  destruct (parse_head [8; 3; 1; 1; 1; 1; 1; 4; 4; 4; 2; 2] 4 m B eq_refl L4) as (h & m1 & W & Wh & B1 & E).
  destruct h as [|[? sfn] [|[? r0] [|[? f1] [|[? f2] [|[? f3] [|[? f4] [|[? f5] [|[? nbp] [|[? cbp] [|[? cnt] [|[? rl] [|[? mn] [|? ?]]]]]]]]]]]]]; try discriminate W.
  cbn [map fst] in W. injection W as -> -> -> -> -> -> -> -> -> -> -> ->.
  assert (Q : forall x, x < 2 -> exists b, x = bit b) by (intros x Hx; destruct (N.eq_dec x 0); [exists false|exists true]; cbn; lia).
  pose proof Wh as (Fh & _). unfold fields_fit in Fh. rewrite !Forall_cons_iff in Fh. cbn [fst snd] in Fh. change (2 ^ 1) with 2 in Fh.
  destruct (Q f1) as (p1 & ->); [tauto|]. destruct (Q f2) as (p2 & ->); [tauto|]. destruct (Q f3) as (p3 & ->); [tauto|].
  destruct (Q f4) as (p4 & ->); [tauto|]. destruct (Q f5) as (p5 & ->); [tauto|].
  (* the peeked size from the flags *)
  set (dummy := fun b : bool => if b then Some 0 else None).
  assert (Pd : forall b, present (dummy b) = bit b) by (intros []; reflexivity).
  set (c0 := mkCb sfn (dummy p1) p2 (dummy p3) (dummy p4) (dummy p5) nbp cbp cnt rl mn).
  assert (Hh : cb_head c0 r0 = [(8, sfn); (3, r0); (1, bit p1); (1, bit p2); (1, bit p3); (1, bit p4); (1, bit p5); (4, nbp); (4, cbp); (4, cnt); (2, rl); (2, mn)])
    by (unfold cb_head, c0; cbn [cb_sfn cb_power cb_constraints cb_offset cb_next_channel cb_time_to_next cb_nbp cb_cbp cb_count cb_rel cb_min]; now rewrite !Pd).
  rewrite <- Hh in Wh, E. rewrite E in P. rewrite cb_peek_raw in P by exact Wh. injection P as <-.
  assert (L1 : (cb_size mu c0 <= 4 + length m1)%nat) by (rewrite E, app_length, fb_length in L; exact L).
  unfold cb_size, c0 in L1. cbn [cb_power cb_offset cb_next_channel cb_time_to_next] in L1.
  assert (Sd : forall b k, opt_size (dummy b) k = if b then k else 0%nat) by (intros [] k; reflexivity). rewrite !Sd in L1.
  destruct (parse_opt2 p1 4 4 1 m1 B1 eq_refl) as (o1 & r1 & m2 & S1 & B2 & W1 & E1). { intros ->. lia. }
  assert (Lo : forall (o : option N) f k, (forall x, nbytes (f x) = k) -> length (field_bytes (field_opt o f)) = if is_some o then k else 0%nat)
    by (intros [x|] f k Hk; rewrite fb_length; cbn [field_opt is_some]; [apply Hk|reflexivity]).
  assert (Hf : (if mu <=? 4 then 8 else 16) = 8 * N.of_nat (fo_size mu)) by (unfold fo_size; destruct (mu <=? 4); reflexivity).
  rewrite E1, app_length, (Lo _ _ 1%nat), S1 in L1 by reflexivity.
  destruct (parse_opt1 p3 (if mu <=? 4 then 8 else 16) (fo_size mu) m2 B2 Hf) as (o3 & m3 & S3 & B3 & W3 & E3). { intros ->. lia. }
  rewrite E3, app_length, (Lo _ _ (fo_size mu)), S3 in L1 by (intros; apply nb_offset).
  destruct (parse_opt2 p4 3 13 2 m3 B3 eq_refl) as (o4 & r2 & m4 & S4 & B4 & W4 & E4). { intros ->. lia. }
  rewrite E4, app_length, (Lo _ _ 2%nat), S4 in L1 by reflexivity.
  destruct (parse_opt1 p5 32 4 m4 B4 eq_refl) as (o5 & m5 & S5 & B5 & W5 & E5). { intros ->. lia. }
  exists (mkCb sfn o1 p2 o3 o4 o5 nbp cbp cnt rl mn), r0, r1, r2, m5.
  assert (Ps : forall (o : option N) p, is_some o = p -> present o = bit p) by (intros [x|] [] K; try discriminate; reflexivity).
  assert (Hh' : cb_head (mkCb sfn o1 p2 o3 o4 o5 nbp cbp cnt rl mn) r0 = cb_head c0 r0)
    by (rewrite Hh; unfold cb_head; cbn [cb_sfn cb_power cb_constraints cb_offset cb_next_channel cb_time_to_next cb_nbp cb_cbp cb_count cb_rel cb_min];
        now rewrite (Ps o1 p1), (Ps o3 p3), (Ps o4 p4), (Ps o5 p5)).
  assert (R : cb_raw (mkCb sfn o1 p2 o3 o4 o5 nbp cbp cnt rl mn) r0 r1 r2) by (unfold cb_raw; rewrite Hh'; auto).
  split; [exact R|]. split.
  - rewrite cb_bytes_eq by exact R. rewrite Hh', E, E1, E3, E4, E5. rewrite <- !app_assoc. reflexivity.
  - unfold cb_size, c0. cbn [cb_power cb_offset cb_next_channel cb_time_to_next]. rewrite !Sd.
    assert (So : forall (o : option N) k, opt_size o k = if is_some o then k else 0%nat) by (intros [x|] k; reflexivity).
    rewrite !So, S1, S3, S4, S5. reflexivity.
Qed.

Lemma cb_valid_dec c r0 r1 r2 : cb_raw c r0 r1 r2 -> (cb_valid mu (cb_dec c) = true <-> cb_ok mu c).
Proof.
  intros (F1 & F2 & F3 & F4 & F5). apply head_fit in F1. destruct F1 as (H1 & H2 & H3 & H4 & H5 & H6 & H7).
  unfold cb_valid, cb_ok, cb_dec. cbn [cb_sfn cb_power cb_constraints cb_offset cb_next_channel cb_time_to_next cb_nbp cb_cbp cb_count cb_rel cb_min].
  rewrite !andb_true_iff, !enum_coded by (vm_compute; discriminate).
  assert (K1 : opt_all (enum_valid_lower 2 16) (option_map (from_coded_lower 2 16) (cb_power c)) = true <-> if_present (fun p => 3 <= p <= 15) (cb_power c)).
  { destruct (cb_power c) as [p|]; cbn [option_map opt_all if_present]; [|tauto]. rewrite enum_coded_lower by (vm_compute; discriminate). lia. }
  assert (K2 : opt_all (fun o => negb (((mu <=? 4) && (255 <? o)) || ((4 <? mu) && (65535 <? o)))) (cb_offset c) = true <->
    if_present (fun o => o < (if mu <=? 4 then 256 else 65536)) (cb_offset c)).
  { destruct (cb_offset c) as [o|]; cbn [opt_all if_present]; [|tauto]. destruct (N.leb_spec mu 4), (N.ltb_spec 4 mu); lia. }
  assert (K3 : opt_all channel_in_range (cb_next_channel c) = true <-> if_present channel (cb_next_channel c)).
  { destruct (cb_next_channel c) as [n|]; cbn [opt_all if_present]; [apply channel_range|tauto]. }
  assert (K4 : if_present (fun t => t < 2 ^ 32) (cb_time_to_next c)).
  { destruct (cb_time_to_next c) as [t|]; cbn [if_present]; auto. destruct F5 as (F5 & _). unfold field_opt, f_time in F5. fit_hyp. tauto. }
  rewrite K1, K2, K3. split; intros H; decompose [and] H; repeat split; try assumption; lia.
Qed.
Lemma cb_ok_dec c : cb_ok mu c -> cb_dec c = c.
Proof.
  intros H. unfold cb_ok in H. decompose [and] H. clear H. destruct c as [sfn pw pc fo nc tt nbp cbp ct rl mn]. unfold cb_dec. cbn in *. rewrite !coded_id by lia. f_equal.
  destruct pw; cbn in *; [|reflexivity]. now rewrite coded_lower_id by lia.
Qed.
Lemma cb_ok_raw c : cb_ok mu c -> cb_raw c 0 0 0.
Proof.
  intros (H1 & H2 & H3 & H4 & H5 & H6 & H7 & H8 & H9 & H10). unfold cb_raw. split; [apply head_fit; unfold head_bounds; lia|].
  repeat split; try apply width_mod_opt; try reflexivity.
  - destruct (cb_power c); cbn in *; [|constructor]. fit_tac.
  - destruct (cb_offset c); cbn [field_opt if_present] in *; [|constructor]. unfold f_offset. destruct (mu <=? 4); fit_tac.
  - intros x. unfold f_offset. destruct (mu <=? 4); reflexivity.
  - destruct (cb_next_channel c) as [n|]; cbn [field_opt if_present] in *; [|constructor]. apply channel_lt in H4. fit_tac.
  - destruct (cb_time_to_next c); cbn [field_opt if_present] in *; [|constructor]. fit_tac.
Qed.
Lemma cb_ok_valid c : cb_ok mu c -> cb_valid mu c = true.
Proof. intros H. rewrite <- (cb_ok_dec c H). apply (cb_valid_dec c 0 0 0); auto using cb_ok_raw. Qed.

Lemma cb_pack_ok c m : cb_ok mu c -> (cb_size mu c <= length m)%nat ->
  cb_pack mu c m = Ok (field_bytes (cb_fields mu c 0 0 0) ++ skipn (cb_size mu c) m).
Proof.
  intros K L. pose proof (cb_ok_raw c K) as R. unfold cb_pack. rewrite (cb_ok_valid c K). cbn [guard].
  pose proof K as (K1 & K2 & K3 & K4 & K5 & K6 & K7 & K8 & K9 & K10).
  assert (E0 : cb_pack_required c m = Ok (at_ m (field_bytes (cb_head c 0)))).
  { unfold cb_size in L. rewrite (fb_eq 4) by reflexivity. unfold cb_head. fbx. unfold at_. cbn [length].
    unfold cb_pack_required. rewrite !present_is_some, bit_b2n.
    pose proof (present_lt (cb_power c)). pose proof (present_lt (cb_offset c)). pose proof (present_lt (cb_next_channel c)).
    pose proof (present_lt (cb_time_to_next c)). pose proof (bit_lt (cb_constraints c)).
    destruct c as [sfn pw pc fo nc tt nbp cbp ct rl mn].
    cbn [cb_sfn cb_power cb_constraints cb_offset cb_next_channel cb_time_to_next cb_nbp cb_cbp cb_count cb_rel cb_min] in *.
    set (x1 := present pw) in *. set (x2 := bit pc) in *. set (x3 := present fo) in *. set (x4 := present nc) in *. set (x5 := present tt) in *.
    clearbody x1 x2 x3 x4 x5. clear - L K1 K6 K7 K8 K9 K10 H H0 H1 H2 H3.
    cells m 4%nat. mcbn. apply f_equal. repeat (apply f_equal2; [unfold u8; bits|]). reflexivity. }
  rewrite E0. cbn [bind]. clear E0.
  pose proof R as (F1 & F2 & F3 & F4 & F5).
  set (H := field_bytes (cb_head c 0)). change 4%nat with (length H) at 1.
  unfold cb_size in L. assert (LH : length H = 4%nat) by reflexivity.
  rewrite (put_step (cb_power c) _ 1 (f_power 0)); [|intros x Ex; split; [|reflexivity]; apply writer_byte4; rewrite Ex in K2; cbn in K2; lia|lia].
  cbn [bind].
  assert (N1 := nbytes_opt (cb_power c) (f_power 0) 1 (fun _ _ => eq_refl)).
  rewrite (put_step (cb_offset c) _ (fo_size mu) f_offset); [|intros x Ex; split; [|apply nb_offset]|rewrite app_length, fb_length; lia].
  2: { rewrite Ex in K3. cbn [if_present] in K3. unfold f_offset, fo_size. destruct (mu <=? 4); [now apply writer_byte|now apply writer_num2]. }
  cbn [bind].
  assert (N2 := nbytes_opt (cb_offset c) f_offset (fo_size mu) (fun x _ => nb_offset x)).
  rewrite (put_step (cb_next_channel c) _ 2 (f_channel 0)); [|intros x Ex; split; [|reflexivity]|rewrite !app_length, !fb_length; lia].
  2: { rewrite Ex in K4. apply writer_channel. now apply channel_lt. }
  cbn [bind].
  assert (N3 := nbytes_opt (cb_next_channel c) (f_channel 0) 2 (fun _ _ => eq_refl)).
  rewrite (put_step (cb_time_to_next c) _ 4 f_time); [|intros x Ex; split; [|reflexivity]|rewrite !app_length, !fb_length; lia].
  2: { rewrite Ex in K5. now apply writer_num4. }
  cbn [bind fst snd].
  assert (N4 := nbytes_opt (cb_time_to_next c) f_time 4 (fun _ _ => eq_refl)).
  unfold at_. rewrite <- !app_assoc. unfold H at 1. rewrite cb_peek_raw by exact F1. cbn [bind].
  assert (LL : length (H ++ field_bytes (field_opt (cb_power c) (f_power 0)) ++ field_bytes (field_opt (cb_offset c) f_offset) ++
     field_bytes (field_opt (cb_next_channel c) (f_channel 0)) ++ field_bytes (field_opt (cb_time_to_next c) f_time)) = cb_size mu c).
  { rewrite !app_length, !fb_length. unfold cb_size. lia. }
  rewrite LL, Nat.eqb_refl. cbn [guard]. rewrite cb_bytes_eq by exact R. rewrite <- !app_assoc. reflexivity.
Qed.
End Cluster.

(** *** Network beacon *)
Definition nb_head (c : network_beacon) (r0 r1 : N) : list (N * N) :=
  [(3, r0); (1, present (nb_power c)); (1, bit (nb_constraints c)); (1, present (nb_current c));
   (2, present (nb_channel_0 c) + present (nb_channel_1 c) + present (nb_channel_2 c));
   (4, nb_nbp c); (4, nb_cbp c);
   (3, r1); (13, nb_next_channel c);
   (32, nb_time_to_next c)].
Lemma nb_fields_eq c r0 r1 r2 r3 r4 r5 r6 : nb_fields c r0 r1 r2 r3 r4 r5 r6 =
  nb_head c r0 r1 ++ field_opt (nb_power c) (f_power r2) ++ field_opt (nb_current c) (f_channel r3) ++
  field_opt (nb_channel_0 c) (f_channel r4) ++ field_opt (nb_channel_1 c) (f_channel r5) ++ field_opt (nb_channel_2 c) (f_channel r6).
Proof. reflexivity. Qed.
Definition nb_raw (c : network_beacon) (r0 r1 r2 r3 r4 r5 r6 : N) : Prop :=
  whole (nb_head c r0 r1) /\ whole (field_opt (nb_power c) (f_power r2)) /\ whole (field_opt (nb_current c) (f_channel r3)) /\
  whole (field_opt (nb_channel_0 c) (f_channel r4)) /\ whole (field_opt (nb_channel_1 c) (f_channel r5)) /\ whole (field_opt (nb_channel_2 c) (f_channel r6)).
Lemma nb_whole_iff c r0 r1 r2 r3 r4 r5 r6 : whole (nb_fields c r0 r1 r2 r3 r4 r5 r6) <-> nb_raw c r0 r1 r2 r3 r4 r5 r6.
Proof.
  rewrite nb_fields_eq. split.
  - intros (F & _). rewrite !fit_app in F. destruct F as (F1 & F2 & F3 & F4 & F5 & F6).
    repeat (split; [split; [assumption|]|]); [reflexivity|..|split; [assumption|]]; apply width_mod_opt; intros x; reflexivity.
  - intros (F1 & F2 & F3 & F4 & F5 & F6). auto 10 using whole_app.
Qed.
Lemma nb_bytes_eq c r0 r1 r2 r3 r4 r5 r6 : nb_raw c r0 r1 r2 r3 r4 r5 r6 -> field_bytes (nb_fields c r0 r1 r2 r3 r4 r5 r6) =
  field_bytes (nb_head c r0 r1) ++ field_bytes (field_opt (nb_power c) (f_power r2)) ++ field_bytes (field_opt (nb_current c) (f_channel r3)) ++
  field_bytes (field_opt (nb_channel_0 c) (f_channel r4)) ++ field_bytes (field_opt (nb_channel_1 c) (f_channel r5)) ++
  field_bytes (field_opt (nb_channel_2 c) (f_channel r6)).
Proof. intros (F1 & F2 & F3 & F4 & F5 & F6). rewrite nb_fields_eq. rewrite !fb_app by auto 10 using whole_app. reflexivity. Qed.
Lemma nb_size_eq c r0 r1 r2 r3 r4 r5 r6 : nb_raw c r0 r1 r2 r3 r4 r5 r6 -> nbytes (nb_fields c r0 r1 r2 r3 r4 r5 r6) = nb_size c.
Proof.
  intros (F1 & F2 & F3 & F4 & F5 & F6). rewrite nb_fields_eq. rewrite !nbytes_app by auto.
  rewrite (nbytes_opt _ _ 1), !(nbytes_opt _ _ 2) by reflexivity.
  change (nbytes (nb_head c r0 r1)) with 8%nat. unfold nb_size. lia.
Qed.
Definition nb_dec (c : network_beacon) : network_beacon :=
  mkNb (option_map (from_coded_lower 2 16) (nb_power c)) (nb_constraints c) (nb_current c) (nb_channel_0 c) (nb_channel_1 c) (nb_channel_2 c)
    (from_coded 7 (nb_nbp c)) (from_coded 11 (nb_cbp c)) (nb_next_channel c) (nb_time_to_next c).
Definition nb_count (c : network_beacon) : N := present (nb_channel_0 c) + present (nb_channel_1 c) + present (nb_channel_2 c).
Lemma nb_count_lt c : nb_count c < 4.
Proof. unfold nb_count. pose proof (present_lt (nb_channel_0 c)). pose proof (present_lt (nb_channel_1 c)). pose proof (present_lt (nb_channel_2 c)). lia. Qed.
Definition nb_bounds (c : network_beacon) (r0 r1 : N) : Prop :=
  r0 < 8 /\ nb_nbp c < 16 /\ nb_cbp c < 16 /\ r1 < 8 /\ nb_next_channel c < 8192 /\ nb_time_to_next c < 2 ^ 32.
Lemma nb_head_fit c r0 r1 : whole (nb_head c r0 r1) <-> nb_bounds c r0 r1.
Proof.
  unfold nb_head, nb_bounds, whole, fields_fit. fold (nb_count c). pose proof (nb_count_lt c). rewrite !Forall_cons_iff. cbn [fst snd].
  pose proof (present_lt (nb_power c)). pose proof (present_lt (nb_current c)). pose proof (bit_lt (nb_constraints c)).
  change (2 ^ 13) with 8192. change (2 ^ 3) with 8. change (2 ^ 4) with 16. change (2 ^ 2) with 4. change (2 ^ 1) with 2.
  split; [tauto|]. intros. split; [|reflexivity]. repeat split; try tauto. constructor.
Qed.
Lemma nb_head_bytes c r0 r1 : whole (nb_head c r0 r1) -> exists b0 b1 b2 b3 b4 b5 b6 b7, field_bytes (nb_head c r0 r1) = [b0; b1; b2; b3; b4; b5; b6; b7] /\
  N.land (N.shiftr b0 4) 1 = present (nb_power c) /\ N.land (N.shiftr b0 3) 1 = bit (nb_constraints c) /\
  N.land (N.shiftr b0 2) 1 = present (nb_current c) /\ N.land b0 3 = nb_count c /\
  N.shiftr b1 4 = nb_nbp c /\ N.land b1 15 = nb_cbp c /\
  N.lor b3 (N.shiftl (N.land b2 31) 8) = nb_next_channel c /\
  (forall u, b2l_lower ([b0; b1; b2; b3; b4; b5; b6; b7] ++ u) 4 4 4 = Ok (nb_time_to_next c)).
Proof.
  intros H. apply nb_head_fit in H. destruct H as (H1 & H2 & H3 & H4 & H5 & H6).
  rewrite (fb_eq 8) by reflexivity. unfold nb_head. fold (nb_count c). pose proof (nb_count_lt c). fbx.
  pose proof (present_lt (nb_power c)). pose proof (present_lt (nb_current c)). pose proof (bit_lt (nb_constraints c)).
  set (x1 := present (nb_power c)) in *. set (x2 := bit (nb_constraints c)) in *. set (x3 := present (nb_current c)) in *. set (x4 := nb_count c) in *.
  set (x5 := nb_nbp c) in *. set (x6 := nb_cbp c) in *. set (x7 := nb_next_channel c) in *. set (x8 := nb_time_to_next c) in *.
  clearbody x1 x2 x3 x4 x5 x6 x7 x8. change (2 ^ 32) with 4294967296 in *. clear c.
  do 8 eexists. split; [reflexivity|].
  split; [bits|]. split; [bits|]. split; [bits|]. split; [bits|]. split; [bits|]. split; [bits|]. split; [bits|].
  intros u. mcbn. apply f_equal. bits.
Qed.
Lemma count_size {A B C} (a : option A) (b : option B) (c : option C) :
  (N.to_nat (present a + present b + present c) * 2 = opt_size a 2 + opt_size b 2 + opt_size c 2)%nat.
Proof. destruct a, b, c; reflexivity. Qed.
Lemma nb_peek_raw c r0 r1 t : whole (nb_head c r0 r1) -> nb_peek (field_bytes (nb_head c r0 r1) ++ t) = Ok (nb_size c).
Proof.
  intros H. destruct (nb_head_bytes c r0 r1 H) as (b0 & b1 & b2 & b3 & b4 & b5 & b6 & b7 & -> & E1 & _ & E3 & E4 & _).
  unfold nb_peek. mcbn. rewrite E1, E3, E4, opt_size_present, to_nat_present. unfold nb_count, nb_size. rewrite count_size. f_equal. lia.
Qed.
Lemma reader_f_channel r x : whole (f_channel r x) -> reader rd_channel (f_channel r x) x.
Proof. intros (F & _). unfold f_channel in *. fit_hyp. apply reader_channel; change (2 ^ 3) with 8 in *; change (2 ^ 13) with 8192 in *; tauto. Qed.
Lemma in_order_flags c : nb_in_order c -> (1 <=? nb_count c) = is_some (nb_channel_0 c) /\ (2 <=? nb_count c) = is_some (nb_channel_1 c) /\
  (3 <=? nb_count c) = is_some (nb_channel_2 c).
Proof.
  unfold nb_in_order, nb_count. intros (A & B).
  destruct (nb_channel_0 c); [|rewrite A in * by reflexivity]; (destruct (nb_channel_1 c); [|rewrite B in * by reflexivity]); try (destruct (nb_channel_2 c)); repeat split; try reflexivity;
    discriminate (A eq_refl).
Qed.
Lemma map_id_opt (o : option N) : option_map (fun x => x) o = o.
Proof. destruct o; reflexivity. Qed.
Lemma nb_unpack_raw c r0 r1 r2 r3 r4 r5 r6 t : nb_in_order c -> nb_raw c r0 r1 r2 r3 r4 r5 r6 ->
  nb_unpack (field_bytes (nb_fields c r0 r1 r2 r3 r4 r5 r6) ++ t) = Ok (nb_dec c, nb_valid (nb_dec c)).
Proof.
  intros Or R. rewrite nb_bytes_eq by exact R. destruct R as (F1 & F2 & F3 & F4 & F5 & F6).
  destruct (nb_head_bytes c r0 r1 F1) as (b0 & b1 & b2 & b3 & b4 & b5 & b6 & b7 & E & D1 & D2 & D3 & D4 & D5 & D6 & D7 & D8).
  assert (I : forall u, ld (field_bytes (nb_head c r0 r1) ++ u) 0 = Ok b0 /\ ld (field_bytes (nb_head c r0 r1) ++ u) 1 = Ok b1 /\
    ld (field_bytes (nb_head c r0 r1) ++ u) 2 = Ok b2 /\ ld (field_bytes (nb_head c r0 r1) ++ u) 3 = Ok b3 /\
    b2l_lower (field_bytes (nb_head c r0 r1) ++ u) 4 4 4 = Ok (nb_time_to_next c)) by (intros u; rewrite E; repeat split; apply D8).
  unfold nb_unpack. rewrite <- !app_assoc.
  match goal with |- context [ld (_ ++ ?u) 0] => destruct (I u) as (-> & -> & -> & -> & ->) end. cbn [bind]. clear I.
  rewrite D4, D5, D6, D7. destruct (in_order_flags c Or) as (O0 & O1 & O2).
  set (H := field_bytes (nb_head c r0 r1)). set (P := field_bytes (field_opt (nb_power c) (f_power r2))).
  set (C := field_bytes (field_opt (nb_current c) (f_channel r3))). set (C0 := field_bytes (field_opt (nb_channel_0 c) (f_channel r4))).
  set (C1 := field_bytes (field_opt (nb_channel_1 c) (f_channel r5))). set (C2 := field_bytes (field_opt (nb_channel_2 c) (f_channel r6))).
  change 8%nat with (length H) at 1.
  rewrite (get_step (nb_power c) _ 1 (f_power r2) (from_coded_lower 2 16) _ _ H (C ++ C0 ++ C1 ++ C2 ++ t)); [|reflexivity|now apply flag_present|].
  2: { intros x Ex. split; [|reflexivity]. intros pre tail. rewrite Ex in F2. destruct F2 as (F2 & _). unfold field_opt, f_power in *. fit_hyp.
       rewrite reader_low4; [reflexivity|change (2 ^ 4) with 16 in *; tauto..]. }
  cbn [bind]. fold P.
  rewrite (get_step (nb_current c) _ 2 (f_channel r3) (fun x => x) _ _ (H ++ P) (C0 ++ C1 ++ C2 ++ t)); [|now rewrite <- !app_assoc|now apply flag_present|].
  2: { intros x Ex. split; [|reflexivity]. rewrite Ex in F3. now apply reader_f_channel. }
  cbn [bind]. fold C.
  rewrite (get_step (nb_channel_0 c) _ 2 (f_channel r4) (fun x => x) _ _ ((H ++ P) ++ C) (C1 ++ C2 ++ t)); [|now rewrite <- !app_assoc|exact O0|].
  2: { intros x Ex. split; [|reflexivity]. rewrite Ex in F4. now apply reader_f_channel. }
  cbn [bind]. fold C0.
  rewrite (get_step (nb_channel_1 c) _ 2 (f_channel r5) (fun x => x) _ _ (((H ++ P) ++ C) ++ C0) (C2 ++ t)); [|now rewrite <- !app_assoc|exact O1|].
  2: { intros x Ex. split; [|reflexivity]. rewrite Ex in F5. now apply reader_f_channel. }
  cbn [bind]. fold C1.
  rewrite (get_step (nb_channel_2 c) _ 2 (f_channel r6) (fun x => x) _ _ ((((H ++ P) ++ C) ++ C0) ++ C1) t); [|now rewrite <- !app_assoc|exact O2|].
  2: { intros x Ex. split; [|reflexivity]. rewrite Ex in F6. now apply reader_f_channel. }
  cbn [bind]. fold C2. rewrite (flag_bit _ _ _ D2), !map_id_opt.
  match goal with |- guard (nb_size ?x =? _)%nat _ = _ => change x with (nb_dec c) end.
  replace (nb_size (nb_dec c)) with (length (((((H ++ P) ++ C) ++ C0) ++ C1) ++ C2)).
  { rewrite Nat.eqb_refl. reflexivity. }
  unfold H, P, C, C0, C1, C2. rewrite !app_length, !fb_length.
  rewrite (nbytes_opt _ _ 1), !(nbytes_opt _ _ 2) by reflexivity.
  change (nbytes (nb_head c r0 r1)) with 8%nat. unfold nb_size, nb_dec. cbn [nb_power nb_current nb_channel_0 nb_channel_1 nb_channel_2].
  assert (J : opt_size (option_map (from_coded_lower 2 16) (nb_power c)) 1 = opt_size (nb_power c) 1) by (destruct (nb_power c); reflexivity).
  rewrite J. lia.
Qed.
Lemma nb_parse m n : bytes m -> nb_peek m = Ok n -> (n <= length m)%nat ->
  exists c r0 r1 r2 r3 r4 r5 r6 t, nb_in_order c /\ nb_raw c r0 r1 r2 r3 r4 r5 r6 /\ m = field_bytes (nb_fields c r0 r1 r2 r3 r4 r5 r6) ++ t /\ n = nb_size c.
Proof.
  intros B P L.
  assert (L8 : (8 <= length m)%nat).
  { unfold nb_peek in P. destruct (ld m 0); try discriminate. cbn [bind] in P. injection P as P. lia. }
  destruct (parse_head [3; 1; 1; 1; 2; 4; 4; 3; 13; 32] 8 m B eq_refl L8) as (h & m1 & W & Wh & B1 & E).
  destruct h as [|[? r0] [|[? f1] [|[? f2] [|[? f3] [|[? cnt] [|[? nbp] [|[? cbp] [|[? r1] [|[? nx] [|[? tt] [|? ?]]]]]]]]]]]; try discriminate W.
  cbn [map fst] in W. injection W as -> -> -> -> -> -> -> -> -> ->.
  assert (Q : forall x, x < 2 -> exists b, x = bit b) by (intros x Hx; destruct (N.eq_dec x 0); [exists false|exists true]; cbn; lia).
  pose proof Wh as (Fh & _). unfold fields_fit in Fh. rewrite !Forall_cons_iff in Fh. cbn [fst snd] in Fh. change (2 ^ 1) with 2 in Fh. change (2 ^ 2) with 4 in Fh.
  destruct (Q f1) as (p1 & ->); [tauto|]. destruct (Q f2) as (p2 & ->); [tauto|]. destruct (Q f3) as (p3 & ->); [tauto|].
  assert (HC : exists q0 q1 q2, cnt = bit q0 + bit q1 + bit q2 /\ (q0 = false -> q1 = false) /\ (q1 = false -> q2 = false)).
  { assert (cnt = 0 \/ cnt = 1 \/ cnt = 2 \/ cnt = 3) as [-> | [-> | [-> | ->]]] by lia;
      [exists false, false, false|exists true, false, false|exists true, true, false|exists true, true, true]; repeat split; auto; discriminate. }
  destruct HC as (q0 & q1 & q2 & -> & Q1 & Q2).
  set (dummy := fun b : bool => if b then Some 0 else None).
  assert (Pd : forall b, present (dummy b) = bit b) by (intros []; reflexivity).
  set (c0 := mkNb (dummy p1) p2 (dummy p3) (dummy q0) (dummy q1) (dummy q2) nbp cbp nx tt).
  assert (Hh : nb_head c0 r0 r1 = [(3, r0); (1, bit p1); (1, bit p2); (1, bit p3); (2, bit q0 + bit q1 + bit q2); (4, nbp); (4, cbp); (3, r1); (13, nx); (32, tt)])
    by (unfold nb_head, c0; cbn [nb_power nb_constraints nb_current nb_channel_0 nb_channel_1 nb_channel_2 nb_nbp nb_cbp nb_next_channel nb_time_to_next]; now rewrite !Pd).
  rewrite <- Hh in Wh, E. rewrite E in P. rewrite nb_peek_raw in P by exact Wh. injection P as <-.
  assert (L1 : (nb_size c0 <= 8 + length m1)%nat) by (rewrite E, app_length, fb_length in L; exact L).
  unfold nb_size, c0 in L1. cbn [nb_power nb_current nb_channel_0 nb_channel_1 nb_channel_2] in L1.
  assert (Sd : forall b k, opt_size (dummy b) k = if b then k else 0%nat) by (intros [] k; reflexivity). rewrite !Sd in L1.
  assert (Lo : forall (o : option N) f k, (forall x, nbytes (f x) = k) -> length (field_bytes (field_opt o f)) = if is_some o then k else 0%nat)
    by (intros [x|] f k Hk; rewrite fb_length; cbn [field_opt is_some]; [apply Hk|reflexivity]).
  destruct (parse_opt2 p1 4 4 1 m1 B1 eq_refl) as (o1 & r2 & m2 & S1 & B2 & W1 & E1). { intros ->. lia. }
  rewrite E1, app_length, (Lo _ _ 1%nat), S1 in L1 by reflexivity.
  destruct (parse_opt2 p3 3 13 2 m2 B2 eq_refl) as (o3 & r3 & m3 & S3 & B3 & W3 & E3). { intros ->. lia. }
  rewrite E3, app_length, (Lo _ _ 2%nat), S3 in L1 by reflexivity.
  destruct (parse_opt2 q0 3 13 2 m3 B3 eq_refl) as (o4 & r4 & m4 & S4 & B4 & W4 & E4). { intros ->. lia. }
  rewrite E4, app_length, (Lo _ _ 2%nat), S4 in L1 by reflexivity.
  destruct (parse_opt2 q1 3 13 2 m4 B4 eq_refl) as (o5 & r5 & m5 & S5 & B5 & W5 & E5). { intros ->. lia. }
  rewrite E5, app_length, (Lo _ _ 2%nat), S5 in L1 by reflexivity.
  destruct (parse_opt2 q2 3 13 2 m5 B5 eq_refl) as (o6 & r6 & m6 & S6 & B6 & W6 & E6). { intros ->. lia. }
  exists (mkNb o1 p2 o3 o4 o5 o6 nbp cbp nx tt), r0, r1, r2, r3, r4, r5, r6, m6.
  assert (Ps : forall (o : option N) p, is_some o = p -> present o = bit p) by (intros [x|] [] K; try discriminate; reflexivity).
  assert (Hh' : nb_head (mkNb o1 p2 o3 o4 o5 o6 nbp cbp nx tt) r0 r1 = nb_head c0 r0 r1)
    by (rewrite Hh; unfold nb_head; cbn [nb_power nb_constraints nb_current nb_channel_0 nb_channel_1 nb_channel_2 nb_nbp nb_cbp nb_next_channel nb_time_to_next];
        now rewrite (Ps o1 p1), (Ps o3 p3), (Ps o4 q0), (Ps o5 q1), (Ps o6 q2)).
  assert (R : nb_raw (mkNb o1 p2 o3 o4 o5 o6 nbp cbp nx tt) r0 r1 r2 r3 r4 r5 r6) by (unfold nb_raw; rewrite Hh'; auto 10).
  split. { unfold nb_in_order. cbn [nb_channel_0 nb_channel_1 nb_channel_2].
    assert (Nn : forall o : option N, is_some o = false <-> o = None) by (intros [x|]; split; try discriminate; reflexivity).
    rewrite <- !Nn, S4, S5, S6. auto. }
  split; [exact R|]. split.
  - rewrite nb_bytes_eq by exact R. rewrite Hh', E, E1, E3, E4, E5, E6. rewrite <- !app_assoc. reflexivity.
  - unfold nb_size, c0. cbn [nb_power nb_current nb_channel_0 nb_channel_1 nb_channel_2]. rewrite !Sd.
    assert (So : forall (o : option N) k, opt_size o k = if is_some o then k else 0%nat) by (intros [x|] k; reflexivity).
    rewrite !So, S1, S3, S4, S5, S6. reflexivity.
Qed.
Lemma opt_channel o : opt_all channel_in_range o = true <-> if_present channel o.
Proof. destruct o as [n|]; cbn [opt_all if_present]; [apply channel_range|tauto]. Qed.
Lemma nb_valid_dec c r0 r1 r2 r3 r4 r5 r6 : nb_raw c r0 r1 r2 r3 r4 r5 r6 -> (nb_valid (nb_dec c) = true <-> nb_ok c).
Proof.
  intros (F1 & _). apply nb_head_fit in F1. destruct F1 as (H1 & H2 & H3 & H4 & H5 & H6).
  unfold nb_valid, nb_ok, nb_dec. cbn [nb_power nb_constraints nb_current nb_channel_0 nb_channel_1 nb_channel_2 nb_nbp nb_cbp nb_next_channel nb_time_to_next].
  rewrite !andb_true_iff, !enum_coded by (vm_compute; discriminate). rewrite channel_range, !opt_channel.
  assert (K1 : opt_all (enum_valid_lower 2 16) (option_map (from_coded_lower 2 16) (nb_power c)) = true <-> if_present (fun p => 3 <= p <= 15) (nb_power c)).
  { destruct (nb_power c) as [p|]; cbn [option_map opt_all if_present]; [|tauto]. rewrite enum_coded_lower by (vm_compute; discriminate). lia. }
  rewrite K1. split; intros H; decompose [and] H; repeat split; try assumption; lia.
Qed.
Lemma nb_ok_dec c : nb_ok c -> nb_dec c = c.
Proof.
  intros H. unfold nb_ok in H. decompose [and] H. clear H. destruct c as [pw pc cu c0 c1 c2 nbp cbp nx tt]. unfold nb_dec. cbn in *. rewrite !coded_id by lia. f_equal.
  destruct pw; cbn in *; [|reflexivity]. now rewrite coded_lower_id by lia.
Qed.
Lemma whole_opt_channel o : if_present channel o -> whole (field_opt o (f_channel 0)).
Proof. intros H. apply whole_opt. intros x ->. cbn in H. apply channel_lt in H. unfold f_channel. whole_tac. Qed.
Lemma nb_ok_raw c : nb_ok c -> nb_raw c 0 0 0 0 0 0 0.
Proof.
  intros (H1 & H2 & H3 & H4 & H5 & H6 & H7 & H8 & H9). pose proof (channel_lt _ H8). unfold nb_raw. split; [apply nb_head_fit; unfold nb_bounds; lia|].
  split; [|auto using whole_opt_channel]. apply whole_opt. intros x Ex. rewrite Ex in H1. cbn in H1. unfold f_power. whole_tac.
Qed.
Lemma nb_ok_valid c : nb_ok c -> nb_valid c = true.
Proof. intros H. rewrite <- (nb_ok_dec c H). apply (nb_valid_dec c 0 0 0 0 0 0 0); auto using nb_ok_raw. Qed.
Lemma nb_pack_ok c m : nb_ok c -> (nb_size c <= length m)%nat ->
  nb_pack c m = Ok (field_bytes (nb_fields c 0 0 0 0 0 0 0) ++ skipn (nb_size c) m).
Proof.
  intros K L. pose proof (nb_ok_raw c K) as R. unfold nb_pack. rewrite (nb_ok_valid c K). cbn [guard].
  pose proof K as (K1 & K2 & K3 & K4 & K5 & K6 & K7 & K8 & K9). pose proof (channel_lt _ K8) as K8'.
  assert (E0 : nb_pack_required c m = Ok (at_ m (field_bytes (nb_head c 0 0)))).
  { unfold nb_size in L. rewrite (fb_eq 8) by reflexivity. unfold nb_head, nb_pack_required. rewrite !present_is_some, bit_b2n. fold (nb_count c).
    pose proof (nb_count_lt c). fbx. unfold at_. cbn [length].
    pose proof (present_lt (nb_power c)). pose proof (present_lt (nb_current c)). pose proof (bit_lt (nb_constraints c)).
    set (x1 := present (nb_power c)) in *. set (x2 := bit (nb_constraints c)) in *. set (x3 := present (nb_current c)) in *. set (x4 := nb_count c) in *.
    set (x5 := nb_nbp c) in *. set (x6 := nb_cbp c) in *. set (x7 := nb_next_channel c) in *. set (x8 := nb_time_to_next c) in *.
    clearbody x1 x2 x3 x4 x5 x6 x7 x8. change (2 ^ 32) with 4294967296 in *. clear - L K6 K7 K8' K9 H H0 H1 H2.
    cells m 8%nat. mcbn. apply f_equal. repeat (apply f_equal2; [unfold u8; bits|]). reflexivity. }
  rewrite E0. cbn [bind]. clear E0.
  pose proof R as (F1 & F2 & F3 & F4 & F5 & F6).
  set (H := field_bytes (nb_head c 0 0)). change 8%nat with (length H) at 1.
  unfold nb_size in L. assert (LH : length H = 8%nat) by reflexivity.
  assert (N1 := nbytes_opt (nb_power c) (f_power 0) 1 (fun _ _ => eq_refl)).
  assert (N2 := nbytes_opt (nb_current c) (f_channel 0) 2 (fun _ _ => eq_refl)).
  assert (N3 := nbytes_opt (nb_channel_0 c) (f_channel 0) 2 (fun _ _ => eq_refl)).
  assert (N4 := nbytes_opt (nb_channel_1 c) (f_channel 0) 2 (fun _ _ => eq_refl)).
  assert (N5 := nbytes_opt (nb_channel_2 c) (f_channel 0) 2 (fun _ _ => eq_refl)).
  assert (WC : forall (o : option N) x, if_present channel o -> o = Some x -> writer (wr_channel x) (f_channel 0 x) /\ nbytes (f_channel 0 x) = 2%nat).
  { intros o x P ->. split; [|reflexivity]. apply writer_channel. now apply channel_lt. }
  rewrite (put_step (nb_power c) _ 1 (f_power 0)); [|intros x Ex; split; [|reflexivity]; apply writer_byte4; rewrite Ex in K1; cbn in K1; lia|lia].
  cbn [bind].
  rewrite (put_step (nb_current c) _ 2 (f_channel 0)); [|intros x; now apply WC|rewrite !app_length, !fb_length; lia]. cbn [bind].
  rewrite (put_step (nb_channel_0 c) _ 2 (f_channel 0)); [|intros x; now apply WC|rewrite !app_length, !fb_length; lia]. cbn [bind].
  rewrite (put_step (nb_channel_1 c) _ 2 (f_channel 0)); [|intros x; now apply WC|rewrite !app_length, !fb_length; lia]. cbn [bind].
  rewrite (put_step (nb_channel_2 c) _ 2 (f_channel 0)); [|intros x; now apply WC|rewrite !app_length, !fb_length; lia]. cbn [bind fst snd].
  unfold at_. rewrite <- !app_assoc. unfold H at 1. rewrite nb_peek_raw by exact F1. cbn [bind].
  match goal with |- guard (_ =? ?x)%nat _ = _ => assert (LL : x = nb_size c) end.
  { rewrite !app_length, !fb_length. unfold nb_size. lia. }
  rewrite LL, Nat.eqb_refl. cbn [guard]. rewrite nb_bytes_eq by exact R. rewrite <- !app_assoc. reflexivity.
Qed.
Lemma nb_moved_fields c : nb_fields (nb_moved_up c) 0 0 0 0 0 0 0 = nb_fields c 0 0 0 0 0 0 0.
Proof. destruct c as [pw pc cu [c0|] [c1|] [c2|] nbp cbp nx tt]; reflexivity. Qed.
Lemma nb_moved_ok c : nb_ok c -> nb_ok (nb_moved_up c).
Proof. destruct c as [pw pc cu [c0|] [c1|] [c2|] nbp cbp nx tt]; unfold nb_ok, nb_moved_up; cbn; tauto. Qed.
Lemma nb_moved_in_order c : nb_in_order (nb_moved_up c).
Proof. destruct c as [pw pc cu [c0|] [c1|] [c2|] nbp cbp nx tt]; unfold nb_in_order, nb_moved_up; cbn; split; intros; congruence. Qed.
Lemma nb_moved_id c : nb_in_order c -> nb_moved_up c = c.
Proof.
  destruct c as [pw pc cu [c0|] [c1|] [c2|] nbp cbp nx tt]; unfold nb_in_order, nb_moved_up; cbn; intros (A & B); try reflexivity;
    try discriminate (A eq_refl); discriminate (B eq_refl).
Qed.
