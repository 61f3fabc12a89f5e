(** C28: load info and measurement report. *)
From Verif Require Import Base Bytes WireSpec BitSolve ByteFacts Fields MacHeader IeBase IeLists BeaconsSpec IeFacts IeCursor ResourceIesFacts AssociationSpec
  InfoIes CapabilityIes InfoIesSpec LoadFacts P41_ResourceIes.
Open Scope N_scope.

Definition absent {A} (o : option A) : Prop := o = None.

(** ** Load info *)
(** Without the load of PTs and of the random access channel the element is written and read back. *)
Theorem C28_load_info : forall c, li_ok c -> absent (li_pt c) -> absent (li_rach c) -> exists n, li_size c = Ok n /\ forall m, (n <= length m)%nat ->
  exists m', li_pack c m = Ok m' /\ writes n m m' (li_fields c 0) /\
    forall tail, li_peek (firstn n m' ++ tail) = Ok (Some n) /\ li_unpack (firstn n m' ++ tail) = Ok (c, true).
Proof.
  intros c O A1 A2. destruct (li_whole c 0 O ltac:(lia)) as (W & E). exists (li_len c). split; [now apply li_size_ok|]. intros m L. exists (packed (li_fields c 0) m).
  assert (P : li_peeked c = li_len c) by (unfold li_peeked, li_len; rewrite A1, A2; reflexivity).
  split; [rewrite li_pack_raw by assumption; now rewrite P, Nat.eqb_refl|]. split; [rewrite <- E; apply packed_writes; [exact W|lia]|]. intros tail. rewrite <- E, firstn_packed at 1.
  destruct (li_parts c 0 O ltac:(lia)) as (W0 & W1 & W2 & W3). split.
  - rewrite li_fields_eq, fb_app, <- app_assoc by auto using whole_app. rewrite li_peek_head by (auto; lia). now rewrite P.
  - rewrite <- E, firstn_packed, li_unpack_raw by (auto; lia). reflexivity.
Qed.
(** With one of them it is never written, in whatever place is there for it: the number of bytes announced by the first byte is another one. *)
Theorem C28_load_info_not_sent_refuted : forall c m n, li_ok c -> ~ absent (li_pt c) \/ ~ absent (li_rach c) -> li_size c = Ok n -> (n <= length m)%nat -> li_pack c m = Abort.
Proof.
  intros c m n O A E L. rewrite (li_size_ok c O) in E. injection E as <-. rewrite li_pack_raw by assumption.
  replace (li_peeked c =? li_len c)%nat with false; [reflexivity|]. symmetry. apply Nat.eqb_neq. unfold li_peeked, li_len, absent in *.
  destruct (li_pt c), (li_rach c); cbn [opt_size]; try lia. destruct A; congruence.
Qed.
Theorem C28_load_info_invalid_aborts : forall c m, enumerator 2 (li_max_assoc c) -> ~ li_ok c -> li_pack c m = Abort /\ li_size c = Abort.
Proof.
  intros c m E O. unfold li_pack, li_size. destruct (li_valid c) eqn:V; [|split; reflexivity]. exfalso. apply O. apply li_valid_ok; [|exact V].
  unfold li_valid in V. rewrite !andb_true_iff in V. unfold enumerator, enum_valid, UNDEF32 in *. lia.
Qed.
(** Received bytes are always accepted if as many are there as the first byte announces. This is more than the element
    has: three more with a load of PTs, one more with a load of the random access channel. The rest is not looked at. *)
Theorem C28_load_info_received : forall m n, bytes m -> li_peek m = Ok (Some n) -> (n <= length m)%nat ->
  exists c r k, spells k m (li_fields c r) /\ li_ok c /\ li_size c = Ok k /\ n = (k + opt_size (li_pt c) 3 + opt_size (li_rach c) 1)%nat /\
    li_unpack m = Ok (c, true) /\ li_unpack (firstn k m) = Ok (c, true).
Proof.
  intros m n B P L. destruct (li_parse m n B P L) as (c & r & t & O & R & -> & ->). destruct (li_whole c r O R) as (W & E). exists c, r, (li_len c).
  split; [rewrite <- E; now apply fb_spells|]. split; [exact O|]. split; [now apply li_size_ok|]. split.
  - unfold li_peeked, li_len. destruct (li_pt c), (li_rach c); cbn [opt_size]; lia.
  - split; [now apply li_unpack_raw|]. rewrite <- E, prefix_fields. now apply li_unpack_raw.
Qed.

(** ** Measurement report *)
Theorem C28_measurement_report : forall c m, mr_ok c -> absent (mr_tx_count c) -> (mr_size c <= length m)%nat ->
  exists m', mr_pack c m = Ok m' /\ writes (mr_size c) m m' (mr_fields c 0) /\
    forall tail, mr_peek (firstn (mr_size c) m' ++ tail) = Ok (Some (mr_size c)) /\ mr_unpack (firstn (mr_size c) m' ++ tail) = Ok (c, true).
Proof.
  intros c m O A L. destruct (mr_whole c 0 O ltac:(lia)) as (W & E). exists (packed (mr_fields c 0) m).
  assert (P : mr_peeked c = mr_size c) by (unfold mr_peeked, mr_size; rewrite A; reflexivity).
  split; [rewrite mr_pack_raw by assumption; now rewrite P, Nat.eqb_refl|]. split; [rewrite <- E; apply packed_writes; [exact W|lia]|]. intros tail. rewrite <- E, firstn_packed at 1.
  destruct (mr_parts c 0 O ltac:(lia)) as (W0 & W1 & W2 & W3 & W4). split.
  - rewrite mr_fields_eq, fb_app, <- app_assoc by auto 10 using whole_app. rewrite mr_peek_head by (destruct O as (_ & _ & _ & _ & O); auto; lia). now rewrite P.
  - rewrite <- E, firstn_packed, mr_unpack_raw by (auto; lia). reflexivity.
Qed.
(** With a transmission count it is never written. *)
Theorem C28_measurement_report_not_sent_refuted : forall c m, mr_ok c -> ~ absent (mr_tx_count c) -> (mr_size c <= length m)%nat -> mr_pack c m = Abort.
Proof.
  intros c m O A L. rewrite mr_pack_raw by assumption. replace (mr_peeked c =? mr_size c)%nat with false; [reflexivity|]. symmetry. apply Nat.eqb_neq. unfold mr_peeked, mr_size, absent in *.
  destruct (mr_tx_count c); cbn [opt_size]; [lia|congruence].
Qed.
Theorem C28_measurement_report_invalid_aborts : forall c m, enumerator 2 (mr_rach c) -> ~ mr_ok c -> mr_pack c m = Abort.
Proof.
  intros c m E O. unfold mr_pack. destruct (mr_valid c) eqn:V; [|reflexivity]. exfalso. apply O. apply mr_valid_ok; [|exact V].
  unfold mr_valid in V. rewrite !andb_true_iff in V. unfold enumerator, enum_valid, UNDEF32 in *. lia.
Qed.
(** With a transmission count one byte more than the element has is asked for. *)
Theorem C28_measurement_report_received : forall m n, bytes m -> mr_peek m = Ok (Some n) -> (n <= length m)%nat ->
  exists c r, spells (mr_size c) m (mr_fields c r) /\ mr_ok c /\ n = (mr_size c + opt_size (mr_tx_count c) 1)%nat /\
    mr_unpack m = Ok (c, true) /\ mr_unpack (firstn (mr_size c) m) = Ok (c, true).
Proof.
  intros m n B P L. destruct (mr_parse m n B P L) as (c & r & t & O & R & -> & ->). destruct (mr_whole c r O R) as (W & E). exists c, r.
  split; [rewrite <- E; now apply fb_spells|]. split; [exact O|]. split.
  - unfold mr_peeked, mr_size. destruct (mr_tx_count c); cbn [opt_size]; lia.
  - split; [now apply mr_unpack_raw|]. rewrite <- E, prefix_fields. now apply mr_unpack_raw.
Qed.

Print Assumptions C28_load_info.
Print Assumptions C28_load_info_not_sent_refuted.
Print Assumptions C28_load_info_invalid_aborts.
Print Assumptions C28_load_info_received.
Print Assumptions C28_measurement_report.
Print Assumptions C28_measurement_report_not_sent_refuted.
Print Assumptions C28_measurement_report_invalid_aborts.
Print Assumptions C28_measurement_report_received.

(** ** The hypotheses are satisfiable *)
Example li_ex : let c := mkLi 1 30 515 7 None None (Some (4, 5)) in
  li_ok c /\ li_pack c [9; 9; 9; 9; 9; 9; 9; 9] = Ok [9; 30; 2; 3; 7; 4; 5; 9] /\ li_unpack [9; 30; 2; 3; 7; 4; 5] = Ok (c, true).
Proof. unfold li_ok. cbn. repeat split; try lia; reflexivity. Qed.
Example li_ex_pt : let c := mkLi 0 30 5 7 (Some 6) None None in
  li_ok c /\ li_size c = Ok 5%nat /\ li_pack c [9; 9; 9; 9; 9; 9; 9; 9] = Abort /\ li_peek [4; 30; 5; 7; 6] = Ok (Some 8%nat) /\ li_unpack [4; 30; 5; 7; 6; 0; 0; 0] = Ok (c, true).
Proof. unfold li_ok. cbn. repeat split; try lia; reflexivity. Qed.
Example mr_ex : let c := mkMr (Some 3) None (Some 200) None 1 in
  mr_ok c /\ mr_pack c [9; 9; 9; 9] = Ok [21; 3; 200; 9] /\ mr_unpack [21; 3; 200; 9] = Ok (c, true) /\
  mr_pack (mkMr None None None (Some 7) 0) [9; 9; 9; 9] = Abort /\ mr_peek [2; 7] = Ok (Some 3%nat) /\ mr_unpack [2; 7; 0] = Ok (mkMr None None None (Some 7) 0, true).
Proof. unfold mr_ok. cbn. repeat split; try lia; reflexivity. Qed.
