(** C24, C25: cluster and network beacon messages. *)
From Verif Require Import Base Bytes WireSpec BitSolve ByteFacts Fields MacHeader Channels ChannelsSpec IeBase Beacons BeaconsSpec IeFacts BeaconsFacts.
Open Scope N_scope.

Lemma bytes_firstn m n : bytes m -> bytes (firstn n m).
Proof. intros H. rewrite <- (firstn_skipn n m) in H. apply Forall_app in H. tauto. Qed.

(** Every valid message occupies exactly the announced bytes, in the layout of the standard, and the size a receiver
    peeks from the leading bytes is the packed size. *)
Theorem C24_layout : forall mu c m, cb_ok mu c -> (cb_size mu c <= length m)%nat ->
  exists m', cb_pack mu c m = Ok m' /\ writes (cb_size mu c) m m' (cb_fields mu c 0 0 0) /\
  forall tail, cb_peek mu (firstn (cb_size mu c) m' ++ tail) = Ok (cb_size mu c).
Proof.
  intros mu c m K L. pose proof (cb_ok_raw mu c K) as R. pose proof (cb_size_eq mu c 0 0 0 R) as Z. pose proof (proj2 (cb_whole_iff mu c 0 0 0) R) as W.
  rewrite (cb_pack_ok mu c m K L). eexists. split; [reflexivity|]. split.
  - rewrite <- Z. apply fb_writes; [exact W|lia].
  - intros tail. rewrite <- Z at 1. rewrite <- fb_length, firstn_app, Nat.sub_diag, firstn_O, app_nil_r, firstn_all.
    rewrite cb_bytes_eq by exact R. rewrite <- !app_assoc. apply (cb_peek_raw mu c 0). apply R.
Qed.

(** Received bytes: once the peeked number of bytes is there, unpacking returns, whatever the bytes are, without touching
    anything beyond them. It accepts exactly if the bytes spell a valid message (reserved bits are ignored), which it
    returns. *)
Theorem C24_unpack_exact : forall mu m n, bytes m -> cb_peek mu m = Ok n -> (n <= length m)%nat ->
  (exists c v, cb_unpack mu (firstn n m) = Ok (c, v) /\ cb_unpack mu m = Ok (c, v)) /\
  (forall c, cb_unpack mu m = Ok (c, true) <->
     cb_ok mu c /\ cb_size mu c = n /\ exists r0 r1 r2, spells n m (cb_fields mu c r0 r1 r2)).
Proof.
  intros mu m n B P L.
  assert (L4 : (4 <= n)%nat) by (unfold cb_peek in P; destruct (ld m 1); try discriminate; cbn [bind] in P; injection P as P; lia).
  destruct (cb_parse mu m n B P ltac:(lia) L) as (c & r0 & r1 & r2 & t & R & E & Sz).
  pose proof (cb_size_eq mu c _ _ _ R) as Z. pose proof (proj2 (cb_whole_iff mu c _ _ _) R) as W.
  assert (U : cb_unpack mu m = Ok (cb_dec c, cb_valid mu (cb_dec c))) by (rewrite E; now apply cb_unpack_raw). split.
  - exists (cb_dec c), (cb_valid mu (cb_dec c)). split; [|exact U].
    assert (F : firstn n m = field_bytes (cb_fields mu c r0 r1 r2) ++ []).
    { rewrite E at 1. rewrite Sz, <- Z, <- fb_length, firstn_app, Nat.sub_diag, firstn_O, firstn_all. reflexivity. }
    rewrite F. now apply cb_unpack_raw.
  - intros x. rewrite U. split.
    + intros Q. injection Q as <- V. apply (cb_valid_dec mu c r0 r1 r2 R) in V. rewrite (cb_ok_dec mu c V). split; [exact V|]. split; [congruence|].
      exists r0, r1, r2. rewrite Sz, <- Z, E. now apply fb_spells.
    + intros (K & Sx & q0 & q1 & q2 & Sp). apply spells_fb in Sp; [|now apply bytes_firstn]. destruct Sp as (Wx & _ & Ex).
      apply cb_whole_iff in Wx. rewrite <- U, Ex, (cb_unpack_raw mu x q0 q1 q2) by exact Wx.
      rewrite (cb_ok_dec mu x K), (cb_ok_valid mu x K). reflexivity.
Qed.

Theorem C24_round_trip : forall mu c m, bytes m -> cb_ok mu c -> (cb_size mu c <= length m)%nat ->
  exists m', cb_pack mu c m = Ok m' /\ cb_unpack mu m' = Ok (c, true).
Proof.
  intros mu c m B K L. rewrite (cb_pack_ok mu c m K L). eexists. split; [reflexivity|].
  rewrite (cb_unpack_raw mu c 0 0 0) by now apply cb_ok_raw. rewrite (cb_ok_dec mu c K), (cb_ok_valid mu c K). reflexivity.
Qed.

(** A message with a field outside its range is never sent: packing aborts. The enumerated fields hold one of their
    enumerators, which include the markers not_defined, lower and upper. *)
Definition enumerator (first last v : N) : Prop := first <= v <= last \/ v = UNDEF32.
Theorem C24_invalid_aborts : forall mu c m,
  if_present (enumerator 2 16) (cb_power c) -> if_present (fun t => t < 2 ^ 32) (cb_time_to_next c) ->
  enumerator 0 7 (cb_nbp c) -> enumerator 0 11 (cb_cbp c) -> enumerator 0 16 (cb_count c) -> enumerator 0 4 (cb_rel c) -> enumerator 0 4 (cb_min c) ->
  ~ cb_ok mu c -> cb_pack mu c m = Abort.
Proof.
  intros mu c m H1 H2 H3 H4 H5 H6 H7 K. unfold cb_pack. destruct (cb_valid mu c) eqn:V; [exfalso|reflexivity]. apply K. clear K.
  unfold cb_valid in V. rewrite !andb_true_iff in V. destruct V as ((((((((V1 & V2) & V3) & V4) & V5) & V6) & V7) & V8) & V9).
  apply opt_channel in V4. unfold enumerator, enum_valid, UNDEF32 in *. unfold cb_ok.
  repeat split; try lia; try assumption.
  - destruct (cb_power c) as [p|]; [|exact I]. cbn [if_present opt_all] in *. unfold enum_valid_lower, UNDEF32 in V2. lia.
  - destruct (cb_offset c) as [p|]; [|exact I]. cbn [if_present opt_all] in *. destruct (N.leb_spec mu 4); lia.
Qed.

(** A beacon with every optional field, for the 16 bit frame offset. *)
Definition cb_example : cluster_beacon := mkCb 200 (Some 12) true (Some 40000) (Some 1700) (Some 3000000000) 1 0 15 2 3.
Example C24_nonvacuous :
  cb_ok 8 cb_example /\ cb_size 8 cb_example = 13%nat /\
  cb_pack 8 cb_example (repeat 255 14) = Ok [200; 31; 16; 251; 12; 156; 64; 6; 164; 178; 208; 94; 0; 255] /\
  cb_unpack 8 [200; 255; 16; 251; 252; 156; 64; 230; 164; 178; 208; 94; 0] = Ok (cb_example, true) /\
  cb_unpack 8 [200; 31; 127; 251; 12; 156; 64; 6; 164; 178; 208; 94; 0] = Ok (mkCb 200 (Some 12) true (Some 40000) (Some 1700) (Some 3000000000) UNDEF32 UNDEF32 15 2 3, false).
Proof.
  split; [|vm_compute; repeat split]. unfold cb_ok, cb_example. cbn [cb_sfn cb_power cb_offset cb_next_channel cb_time_to_next cb_nbp cb_cbp cb_count cb_rel cb_min if_present].
  repeat split; try lia. exists 9, 1691, 1711. split; [cbn; tauto|lia].
Qed.

(** The network beacon: layout and announced size. *)
Theorem C25_layout : forall c m, nb_ok c -> (nb_size c <= length m)%nat ->
  exists m', nb_pack c m = Ok m' /\ writes (nb_size c) m m' (nb_fields c 0 0 0 0 0 0 0) /\
  forall tail, nb_peek (firstn (nb_size c) m' ++ tail) = Ok (nb_size c).
Proof.
  intros c m K L. pose proof (nb_ok_raw c K) as R. pose proof (nb_size_eq c _ _ _ _ _ _ _ R) as Z. pose proof (proj2 (nb_whole_iff c _ _ _ _ _ _ _) R) as W.
  rewrite (nb_pack_ok c m K L). eexists. split; [reflexivity|]. split.
  - rewrite <- Z. apply fb_writes; [exact W|lia].
  - intros tail. rewrite <- Z at 1. rewrite <- fb_length, firstn_app, Nat.sub_diag, firstn_O, app_nil_r, firstn_all.
    rewrite nb_bytes_eq by exact R. rewrite <- !app_assoc. apply (nb_peek_raw c 0 0). apply R.
Qed.
Theorem C25_unpack_exact : forall m n, bytes m -> nb_peek m = Ok n -> (n <= length m)%nat ->
  (exists c v, nb_unpack (firstn n m) = Ok (c, v) /\ nb_unpack m = Ok (c, v)) /\
  (forall c, nb_unpack m = Ok (c, true) <->
     nb_ok c /\ nb_in_order c /\ nb_size c = n /\ exists r0 r1 r2 r3 r4 r5 r6, spells n m (nb_fields c r0 r1 r2 r3 r4 r5 r6)).
Proof.
  intros m n B P L.
  destruct (nb_parse m n B P L) as (c & r0 & r1 & r2 & r3 & r4 & r5 & r6 & t & O & R & E & Sz).
  pose proof (nb_size_eq c _ _ _ _ _ _ _ R) as Z. pose proof (proj2 (nb_whole_iff c _ _ _ _ _ _ _) R) as W.
  assert (U : nb_unpack m = Ok (nb_dec c, nb_valid (nb_dec c))) by (rewrite E; now apply nb_unpack_raw). split.
  - exists (nb_dec c), (nb_valid (nb_dec c)). split; [|exact U].
    assert (F : firstn n m = field_bytes (nb_fields c r0 r1 r2 r3 r4 r5 r6) ++ []).
    { rewrite E at 1. rewrite Sz, <- Z, <- fb_length, firstn_app, Nat.sub_diag, firstn_O, firstn_all. reflexivity. }
    rewrite F. now apply nb_unpack_raw.
  - intros x. rewrite U. split.
    + intros Q. injection Q as <- V. apply (nb_valid_dec c _ _ _ _ _ _ _ R) in V. rewrite (nb_ok_dec c V). split; [exact V|]. split; [exact O|]. split; [congruence|].
      exists r0, r1, r2, r3, r4, r5, r6. rewrite Sz, <- Z, E. now apply fb_spells.
    + intros (K & Ox & Sx & q0 & q1 & q2 & q3 & q4 & q5 & q6 & Sp). apply spells_fb in Sp; [|now apply bytes_firstn]. destruct Sp as (Wx & _ & Ex).
      apply nb_whole_iff in Wx. rewrite <- U, Ex, (nb_unpack_raw x q0 q1 q2 q3 q4 q5 q6) by assumption.
      rewrite (nb_ok_dec x K), (nb_ok_valid x K). reflexivity.
Qed.
(** The receiver gets the message with the additional channels moved up; if they were set in order, the message itself. *)
Theorem C25_round_trip : forall c m, bytes m -> nb_ok c -> (nb_size c <= length m)%nat ->
  (exists m', nb_pack c m = Ok m' /\ nb_unpack m' = Ok (nb_moved_up c, true)) /\
  (nb_in_order c -> nb_moved_up c = c).
Proof.
  intros c m B K L. split; [|apply nb_moved_id]. rewrite (nb_pack_ok c m K L). eexists. split; [reflexivity|]. rewrite <- nb_moved_fields.
  pose proof (nb_moved_ok c K) as K'.
  rewrite nb_unpack_raw by (auto using nb_moved_in_order, nb_ok_raw). rewrite (nb_ok_dec _ K'), (nb_ok_valid _ K'). reflexivity.
Qed.
(** So a valid message whose additional channels are not set in order does not survive. *)
Theorem C25_out_of_order_refuted :
  exists c m m' c', nb_ok c /\ nb_pack c m = Ok m' /\ nb_unpack m' = Ok (c', true) /\ c' <> c.
Proof.
  exists (mkNb None false None None (Some 1657) None 0 0 1700 5), (repeat 0 10). eexists. eexists. split.
  { unfold nb_ok. cbn. repeat split; try lia; [exists 1, 1657, 1677|exists 2, 1680, 1700]; (split; [cbn; tauto|lia]). }
  split; [vm_compute; reflexivity|]. split; [vm_compute; reflexivity|]. discriminate.
Qed.
Theorem C25_invalid_aborts : forall c m,
  if_present (enumerator 2 16) (nb_power c) -> enumerator 0 7 (nb_nbp c) -> enumerator 0 11 (nb_cbp c) -> nb_time_to_next c < 2 ^ 32 ->
  ~ nb_ok c -> nb_pack c m = Abort.
Proof.
  intros c m H1 H2 H3 H4 K. unfold nb_pack. destruct (nb_valid c) eqn:V; [exfalso|reflexivity]. apply K. clear K.
  unfold nb_valid in V. rewrite !andb_true_iff, !opt_channel, channel_range in V. decompose [and] V. clear V.
  unfold enumerator, enum_valid, UNDEF32 in *. unfold nb_ok. repeat split; try lia; try assumption.
  destruct (nb_power c) as [p|]; [|exact I]. cbn [if_present opt_all] in *.
  match goal with H : enum_valid_lower _ _ _ = true |- _ => unfold enum_valid_lower, UNDEF32 in H end. lia.
Qed.
Example C25_nonvacuous :
  let c := mkNb (Some 3) false (Some 1657) (Some 1700) (Some 22) None 6 10 411 77 in
  nb_ok c /\ nb_in_order c /\ nb_pack c (repeat 9 15) = Ok [22; 106; 1; 155; 0; 0; 0; 77; 3; 6; 121; 6; 164; 0; 22] /\
  nb_unpack [246; 106; 225; 155; 0; 0; 0; 77; 243; 230; 121; 230; 164; 224; 22] = Ok (c, true).
Proof.
  cbn zeta. split; [|split; [split; discriminate|split; vm_compute; reflexivity]].
  unfold nb_ok. cbn. repeat split; try lia; [exists 1, 1657, 1677|exists 2, 1680, 1700|exists 5, 1, 22|exists 6, 288, 411]; (split; [cbn; tauto|lia]).
Qed.

Print Assumptions C24_layout.
Print Assumptions C24_unpack_exact.
Print Assumptions C24_round_trip.
Print Assumptions C24_invalid_aborts.
Print Assumptions C25_layout.
Print Assumptions C25_unpack_exact.
Print Assumptions C25_round_trip.
Print Assumptions C25_out_of_order_refuted.
Print Assumptions C25_invalid_aborts.
