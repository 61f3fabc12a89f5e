(** C26: the resource allocation IE and the random access resource IE. *)
From Verif Require Import Base Bytes WireSpec BitSolve ByteFacts Fields MacHeader Channels ChannelsSpec IeBase Beacons BeaconsSpec IeFacts IeCursor
  ResourceIes ResourceIesSpec ResourceIesFacts RandomAccessFacts.
Open Scope N_scope.

Lemma prefix_bytes n m : bytes m -> bytes (firstn n m).
Proof. intros H. rewrite <- (firstn_skipn n m) in H. apply Forall_app in H. tauto. Qed.
Lemma prefix_fields l t : firstn (nbytes l) (field_bytes l ++ t) = field_bytes l ++ [].
Proof. rewrite <- fb_length, firstn_app, Nat.sub_diag, firstn_O, firstn_all. reflexivity. Qed.

(** ** Resource allocation *)
(** A valid element with resources in both directions that are repeated occupies exactly the announced bytes in the
    layout of the standard, a receiver peeks this size, and unpacking returns the element. *)
Theorem C26_allocation : forall mu c, ra_ok mu c -> ra_full c ->
  exists n, ra_size mu c = Ok n /\ forall m, (n <= length m)%nat ->
  exists m', ra_pack mu c m = Ok m' /\ writes n m m' (ra_fields mu c 0 0 0) /\
  forall tail, ra_peek mu (firstn n m' ++ tail) = Ok (Some n) /\ ra_unpack mu (firstn n m' ++ tail) = Ok (c, true).
Proof.
  intros mu c O F. pose proof (ra_ok_raw mu c O) as K. pose proof F as (D1 & D2 & D3).
  assert (V : ra_valid mu c = Ok true).
  { destruct (ra_valid_full mu c F) as [(_ & V)|(V & _)]; auto; try tauto; destruct O as (_ & _ & _ & _ & _ & _ & O); destruct (ra_failure c); cbn in *; lia. }
  exists (ra_len mu c). split; [now apply ra_full_size|]. intros m L. rewrite (ra_pack_ok mu c m O F V L).
  eexists. split; [reflexivity|]. pose proof (ra_nbytes mu c 0 0 0 K) as E. split.
  - rewrite <- E. apply packed_writes; [now apply ra_whole|lia].
  - intros tail. rewrite <- E at 1 3. rewrite firstn_packed. split.
    + rewrite ra_fields_eq. destruct (ra_parts_whole mu c 0 0 0 K) as (W0 & W1 & W2 & W3 & W4 & W5 & W6 & W7).
      rewrite fb_app, <- app_assoc by auto 10 using whole_app. apply ra_peek_raw; auto. lia.
    + apply (ra_receive mu c 0 0 0 tail K); auto.
Qed.
(** The release of all resources is one byte. Whatever else is set in the element is not sent. *)
Theorem C26_allocation_release : forall mu c, ra_dl c = None -> ra_ul c = None ->
  ra_size mu c = Ok 1%nat /\ forall m, (1 <= length m)%nat ->
  exists m', ra_pack mu c m = Ok m' /\ writes 1 m m' [(2, 0); (6, 0)] /\
  forall tail, ra_peek mu (firstn 1 m' ++ tail) = Ok (Some 1%nat) /\
  exists c', ra_unpack mu (firstn 1 m' ++ tail) = Ok (c', true) /\ ra_release c' /\ (c' = c <-> ra_release c).
Proof.
  intros mu c D U. unfold ra_size, ra_pack, ra_valid. rewrite D, U. cbn [is_some negb andb bind guard]. split; [reflexivity|]. intros m L.
  destruct m as [|b m]; [cbn in L; lia|]. eexists. split; [vm_compute; reflexivity|]. split.
  - split; [reflexivity|]. split; [reflexivity|]. split; [repeat constructor|]. split; [cbn; lia|]. split; [reflexivity|]. split; [repeat constructor; cbn; lia|reflexivity].
  - intros tail. split; [reflexivity|]. exists ra_zero. split; [reflexivity|]. split; [reflexivity|]. split; intros E; [now rewrite <- E|now rewrite E].
Qed.
(** Everything else the standard allows cannot be sent: resources for one direction only, or not repeated. *)
Theorem C26_allocation_incomplete_throws : forall mu c m, ra_ok mu c -> (ra_dl c <> None \/ ra_ul c <> None) -> ~ ra_full c ->
  ra_valid mu c = Throw /\ ra_size mu c = Throw /\ ra_pack mu c m = Throw.
Proof.
  intros mu c m O D F. pose proof O as (K1 & K2 & K3 & _). unfold ra_size, ra_pack. rewrite (ra_valid_partial mu c K1 K2 K3 D F). auto.
Qed.
(** A field out of its range stops the sender. The failure timer holds one of its enumerators, which include the markers. *)
Theorem C26_allocation_invalid_aborts : forall mu c m, ra_full c -> if_present (fun f => 1 <= f <= 12 \/ f = UNDEF32) (ra_failure c) ->
  ~ ra_ok mu c -> ra_pack mu c m = Abort.
Proof.
  intros mu c m F E O. unfold ra_pack.
  destruct (ra_valid_full mu c F) as [(V & _)|(_ & V)]; [destruct (ra_failure c); cbn in *; lia|destruct (ra_failure c); cbn in *; unfold UNDEF32 in *; lia|tauto|].
  rewrite V. reflexivity.
Qed.
(** Received bytes: with the peeked number of bytes there, nothing else is read. An element with resources in both
    directions that are repeated is accepted if it is valid and aborts if not; any other element throws, except the
    release. *)
Theorem C26_allocation_received : forall mu m n, bytes m -> ra_peek mu m = Ok (Some n) -> (n <= length m)%nat ->
  ra_unpack mu (firstn n m) = ra_unpack mu m /\
  ((n = 1%nat /\ (exists r, spells 1 m [(2, 0); (6, r)]) /\ ra_unpack mu m = Ok (mkRa None None false None None None None None, true)) \/
   exists c r0 r1 r2, spells n m (ra_fields mu c r0 r1 r2) /\ (ra_dl c <> None \/ ra_ul c <> None) /\
     (ra_full c -> ra_ok mu c -> ra_unpack mu m = Ok (c, true)) /\
     (ra_full c -> ~ ra_ok mu c -> ra_unpack mu m = Abort) /\
     (~ ra_full c -> ra_unpack mu m = Throw)).
Proof.
  intros mu m n B P L. destruct (ra_parse mu m n B P L) as [(-> & b0 & t & -> & G)|(c & r0 & r1 & r2 & t & K & D & -> & ->)].
  - assert (E : N.shiftr b0 6 = 0) by (rewrite N.shiftr_div_pow2; apply N.div_small; exact G).
    assert (U : forall t, ra_unpack mu (b0 :: t) = Ok (ra_zero, true)) by (intros u; unfold ra_unpack; mcbn; rewrite E; reflexivity).
    cbn [firstn]. rewrite !U. split; [reflexivity|]. left. split; [reflexivity|]. split; [|reflexivity]. exists b0.
    split; [cbn; lia|]. split; [reflexivity|]. split; [repeat constructor; cbn; try lia; exact G|].
    cbn [firstn be_number fold_left]. unfold cat_fields. cbn [fold_left fst snd]. clear - G. bits.
  - destruct (ra_receive mu c r0 r1 r2 t K D) as (R1 & R2 & R3). destruct (ra_receive mu c r0 r1 r2 [] K D) as (Q1 & Q2 & Q3).
    pose proof (ra_nbytes mu c r0 r1 r2 K) as E. split.
    + rewrite <- E, prefix_fields. rewrite !ra_unpack_raw by assumption. reflexivity.
    + right. exists c, r0, r1, r2. split; [|auto]. rewrite <- E. apply fb_spells. now apply ra_whole.
Qed.
(** A reserved code for the repetition is refused, by the peek as well. *)
Theorem C26_allocation_reserved : forall mu m, ra_peek mu m = Ok None -> forall c v, ra_unpack mu m = Ok (c, v) -> v = false.
Proof.
  intros mu m P c v U. unfold ra_peek, ra_unpack in *. destruct (ld m 0) as [b0| | |]; try discriminate. cbn [bind] in *.
  destruct (N.shiftr b0 6 =? 0); [discriminate|]. 
  destruct (4 <? N.land (N.shiftr b0 1) 7); [|destruct (ld m 1); discriminate].
  repeat match type of U with context [get ?p ?r ?k m ?o] => destruct (get p r k m o) as [(? & ?)| | |]; try discriminate; cbn [bind] in U end.
  injection U as _ <-. reflexivity.
Qed.
(** So a valid allocation for the downlink can neither be sent nor received. *)
Theorem C26_downlink_only_refuted : exists mu c m, ra_ok mu c /\ ra_dl c <> None /\ ra_repeat c <> None /\
  (forall buf, ra_pack mu c buf = Throw) /\
  spells (length m) m (ra_fields mu c 0 0 0) /\ ra_peek mu m = Ok (Some (length m)) /\ ra_unpack mu m = Throw.
Proof.
  exists 1, (mkRa (Some (mkAl 12 true 3)) None false None (Some (mkRp false false 1 255)) None None None), [66; 0; 12; 131; 1; 255].
  split; [|split; [discriminate|split; [discriminate|split; [intros; reflexivity|split; [|split; vm_compute; reflexivity]]]]].
  - repeat split; cbn; lia.
  - split; [cbn; lia|]. split; [reflexivity|]. split; [|reflexivity]. repeat constructor; cbn; lia.
Qed.

Definition ra_example : resource_allocation :=
  mkRa (Some (mkAl 300 true 7)) (Some (mkAl 65000 false 127)) true (Some 4711) (Some (mkRp true true 8 200)) (Some 17) (Some 1700) (Some 11).
Example C26_allocation_nonvacuous :
  ra_ok 8 ra_example /\ ra_full ra_example /\ ra_size 8 ra_example = Ok 16%nat /\
  ra_pack 8 ra_example (repeat 255 17) = Ok [249; 192; 1; 44; 135; 253; 232; 127; 18; 103; 8; 200; 17; 6; 164; 11; 255] /\
  ra_unpack 8 [249; 255; 1; 44; 135; 253; 232; 127; 18; 103; 8; 200; 17; 230; 164; 251; 255] = Ok (ra_example, true) /\
  ra_unpack 8 [249; 192; 1; 44; 135; 253; 232; 127; 18; 103; 0; 200; 17; 6; 164; 11] = Abort /\
  ra_unpack 8 [240; 192; 1; 44; 135; 253; 232; 127; 18; 103; 17; 6; 164; 11] = Throw /\
  ra_unpack 8 [63] = Ok (ra_zero, true).
Proof.
  split; [|split; [repeat split; discriminate|vm_compute; repeat split]].
  unfold ra_ok, al_ok, rp_ok, ra_example. cbn [ra_dl ra_ul ra_short_rd_id ra_repeat ra_sfn_offset ra_channel ra_failure if_present al_start al_length rp_repetition rp_validity].
  repeat match goal with |- _ /\ _ => split end; try (vm_compute; reflexivity); try (vm_compute; discriminate).
  exists 9, 1691, 1711. split; [cbn; tauto|lia].
Qed.

(** ** Random access resource *)
(** A valid element that is repeated and has neither an SFN offset nor a channel. *)
Theorem C26_random_access : forall mu c, rr_ok mu c -> rr_repeat c <> None -> rr_sfn_offset c = None -> rr_channel c = None ->
  exists n, rr_size mu c = Ok n /\ forall m, (n <= length m)%nat ->
  exists m', rr_pack mu c m = Ok m' /\ writes n m m' (rr_fields mu c 0 0 0) /\
  forall tail, rr_peek mu (firstn n m' ++ tail) = Ok (Some n) /\ rr_unpack mu (firstn n m' ++ tail) = Ok (Some c, true).
Proof.
  intros mu c O D S1 S2. pose proof (rr_ok_raw mu c O) as K.
  assert (V : rr_valid mu c = Ok true).
  { pose proof K as ((_ & Sp & _ & _ & B1 & _ & B2) & _). destruct (rr_valid_some mu c D Sp) as [(_ & V)|(V & _)]; auto; [lia|lia|tauto]. }
  exists (rr_len mu c). split; [now apply rr_ok_size|]. intros m L. rewrite (rr_pack_raw mu c m O D V L).
  assert (Q : rr_peeked mu c = rr_len mu c) by (unfold rr_peeked, rr_len; rewrite S1, S2; reflexivity). rewrite Q, Nat.eqb_refl. cbn [guard].
  eexists. split; [reflexivity|]. pose proof (rr_nbytes mu c 0 0 0 K) as E. split.
  - rewrite <- E. apply packed_writes; [now apply rr_whole|lia].
  - intros tail. rewrite <- E at 1 3. rewrite firstn_packed. split.
    + rewrite rr_fields_eq. destruct (rr_parts mu c 0 0 0 K) as (W0 & W1 & W2 & W3 & W4).
      rewrite fb_app, <- app_assoc by auto 10 using whole_app. rewrite rr_peek_raw by apply K. now rewrite Q.
    + apply (rr_receive mu c 0 0 0 tail K); auto.
Qed.
(** With an SFN offset or a channel the peeked size is wrong, and the sender aborts. *)
Theorem C26_random_access_offset_aborts : forall mu c n m, rr_ok mu c -> rr_repeat c <> None -> (rr_sfn_offset c <> None \/ rr_channel c <> None) ->
  rr_size mu c = Ok n -> (n <= length m)%nat -> rr_pack mu c m = Abort.
Proof.
  intros mu c n m O D H Z L. pose proof (rr_ok_raw mu c O) as K.
  assert (V : rr_valid mu c = Ok true).
  { pose proof K as ((_ & Sp & _ & _ & B1 & _ & B2) & _). destruct (rr_valid_some mu c D Sp) as [(_ & V)|(V & _)]; auto; [lia|lia|tauto]. }
  rewrite (rr_ok_size mu c V) in Z. injection Z as <-. rewrite (rr_pack_raw mu c m O D V L).
  replace (rr_peeked mu c =? rr_len mu c)%nat with false; [reflexivity|]. symmetry. apply Nat.eqb_neq. unfold rr_peeked, rr_len.
  destruct (rr_sfn_offset c), (rr_channel c); cbn [opt_size]; try lia. destruct H; congruence.
Qed.
Theorem C26_random_access_single_throws : forall mu c m, rr_repeat c = None -> rr_valid mu c = Throw /\ rr_size mu c = Throw /\ rr_pack mu c m = Throw.
Proof. intros mu c m H. unfold rr_size, rr_pack. rewrite (rr_valid_none mu c H). auto. Qed.
Theorem C26_random_access_invalid_aborts : forall mu c m, rr_repeat c <> None -> if_present (fun r => rp_specific r = false) (rr_repeat c) ->
  rr_cw_min c <= 8 \/ rr_cw_min c = UNDEF32 -> rr_cw_max c <= 8 \/ rr_cw_max c = UNDEF32 -> ~ rr_ok mu c -> rr_pack mu c m = Abort.
Proof.
  intros mu c m D Sp B1 B2 O. unfold rr_pack. destruct (rr_valid_some mu c D Sp B1 B2) as [(V & _)|(_ & V)]; [tauto|]. rewrite V. reflexivity.
Qed.
(** Received bytes: the element is read from at most the peeked number of bytes. It is accepted if it is repeated and valid,
    aborts if it is repeated and not valid, and throws if it is not repeated. *)
Theorem C26_random_access_received : forall mu m n, bytes m -> rr_peek mu m = Ok (Some n) -> (n <= length m)%nat ->
  rr_unpack mu (firstn n m) = rr_unpack mu m /\
  exists c k r0 r1 r2, spells k m (rr_fields mu c r0 r1 r2) /\ (k <= n)%nat /\
    (rr_repeat c <> None -> rr_ok mu c -> rr_unpack mu m = Ok (Some c, true)) /\
    (rr_repeat c <> None -> ~ rr_ok mu c -> rr_unpack mu m = Abort) /\
    (rr_repeat c = None -> rr_unpack mu m = Throw).
Proof.
  intros mu m n B P L. destruct (rr_parse mu m n B P L) as (c & r0 & r1 & r2 & t & K & -> & ->).
  pose proof (rr_nbytes mu c r0 r1 r2 K) as E.
  assert (Le : (rr_len mu c <= rr_peeked mu c)%nat) by (unfold rr_len, rr_peeked; destruct (rr_sfn_offset c), (rr_channel c); cbn [opt_size]; lia).
  split.
  - rewrite <- E, <- fb_length in Le. rewrite firstn_app, firstn_all2 by lia. rewrite !rr_unpack_raw by exact K. reflexivity.
  - exists c, (rr_len mu c), r0, r1, r2. split; [rewrite <- E; apply fb_spells; now apply rr_whole|]. split; [exact Le|]. apply rr_receive. exact K.
Qed.
(** A valid element with a channel: the announced size is right, but it cannot be sent, and when received from elsewhere its
    size is overestimated. *)
Theorem C26_random_access_channel_refuted : exists mu c m, rr_ok mu c /\ rr_size mu c = Ok (length m) /\
  (forall buf, (length m <= length buf)%nat -> rr_pack mu c buf = Abort) /\
  spells (length m) m (rr_fields mu c 0 0 0) /\ rr_peek mu m = Ok (Some (length m + 2)%nat) /\ rr_unpack mu m = Ok (Some c, true).
Proof.
  exists 1, (mkRr (Some (mkRp false false 1 255)) None (Some 1700) None (mkAl 2 false 5) true 3 0 false 9 7), [10; 2; 5; 152; 79; 1; 255; 6; 164].
  assert (O : rr_ok 1 (mkRr (Some (mkRp false false 1 255)) None (Some 1700) None (mkAl 2 false 5) true 3 0 false 9 7)).
  { unfold rr_ok, al_ok, rp_ok. cbn [rr_repeat rr_sfn_offset rr_channel rr_channel_2 rr_allocation rr_max_in_slots rr_max_length rr_cw_min rr_delay rr_window rr_cw_max
      if_present al_start al_length rp_repetition rp_validity rp_specific].
    repeat match goal with |- _ /\ _ => split end; try exact I; try (vm_compute; reflexivity); try (vm_compute; discriminate). exists 9, 1691, 1711. split; [cbn; tauto|lia]. }
  split; [exact O|]. split; [vm_compute; reflexivity|]. split; [|split; [|split; vm_compute; reflexivity]].
  - intros buf L. eapply C26_random_access_offset_aborts; [exact O|discriminate|right; discriminate|vm_compute; reflexivity|exact L].
  - split; [cbn; lia|]. split; [reflexivity|]. split; [|reflexivity]. repeat constructor; cbn; lia.
Qed.
Example C26_random_access_nonvacuous :
  let c := mkRr (Some (mkRp true false 4 9)) None None (Some 1700) (mkAl 513 true 100) false 15 7 true 8 3 in
  rr_ok 8 c /\ rr_repeat c <> None /\ rr_size 8 c = Ok 10%nat /\
  rr_pack 8 c (repeat 255 11) = Ok [17; 2; 1; 228; 127; 195; 4; 9; 6; 164; 255] /\
  rr_unpack 8 [241; 2; 1; 228; 127; 195; 4; 9; 230; 164] = Ok (Some c, true) /\
  rr_unpack 8 [17; 2; 1; 228; 127; 195; 0; 9; 6; 164] = Abort /\
  rr_unpack 8 [1; 2; 1; 228; 127; 195; 6; 164] = Throw.
Proof.
  cbn zeta. split; [|split; [discriminate|vm_compute; repeat split]].
  unfold rr_ok, al_ok, rp_ok. cbn [rr_repeat rr_sfn_offset rr_channel rr_channel_2 rr_allocation rr_max_in_slots rr_max_length rr_cw_min rr_delay rr_window rr_cw_max
      if_present al_start al_length rp_repetition rp_validity rp_specific].
    repeat match goal with |- _ /\ _ => split end; try exact I; try (vm_compute; reflexivity); try (vm_compute; discriminate). exists 9, 1691, 1711. split; [cbn; tauto|lia].
Qed.

Print Assumptions C26_allocation.
Print Assumptions C26_allocation_release.
Print Assumptions C26_allocation_incomplete_throws.
Print Assumptions C26_allocation_invalid_aborts.
Print Assumptions C26_allocation_received.
Print Assumptions C26_allocation_reserved.
Print Assumptions C26_downlink_only_refuted.
Print Assumptions C26_random_access.
Print Assumptions C26_random_access_offset_aborts.
Print Assumptions C26_random_access_single_throws.
Print Assumptions C26_random_access_invalid_aborts.
Print Assumptions C26_random_access_received.
Print Assumptions C26_random_access_channel_refuted.
