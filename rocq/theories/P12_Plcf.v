(** C16: PLCF headers round-trip. *)
From Verif Require Import Base Bytes WireSpec ByteFacts Feedback FeedbackSpec FeedbackFacts Plcf PlcfSpec PlcfFacts.
Open Scope N_scope.

(** A valid type 1 header occupies exactly the first five bytes, in the bit layout of the standard. *)
Theorem C16_type1_layout : forall p m, (5 <= length m)%nat -> p10_ok p ->
  exists m', p10_pack p m = Ok m' /\ writes 5 m m' (p10_fields p).
Proof. exact p10_pack_writes. Qed.

(** Invalid headers are refused by an abort. *)
Theorem C16_invalid_headers_abort : forall m,
  (forall p, (5 <= length m)%nat -> ~ p10_ok p -> p10_pack p m = Abort) /\
  (forall p, (10 <= length m)%nat -> ~ p20_ok p -> p20_pack p m = Abort) /\
  (forall p, (10 <= length m)%nat -> ~ p21_ok p -> p21_pack p m = Abort).
Proof.
  intros m. split; [|split]; intros p; [apply p10_pack_abort|apply p20_pack_abort|apply p21_pack_abort].
Qed.

Theorem C16_type1_round_trip : forall p m old, (5 <= length m)%nat -> p10_ok p ->
  exists m', p10_pack p m = Ok m' /\ length m' = length m /\ skipn 5 m' = skipn 5 m /\
    p10_unpack old m' = Ok (p, true).
Proof.
  intros p m old Hl Hok. destruct (p10_pack_writes p m Hl Hok) as (m' & E & W). exists m'.
  split; [exact E|]. pose proof W as (W1 & W2 & W3 & W4). split; [exact W1|]. split; [exact W2|].
  apply p10_unpack_complete; auto. lia.
Qed.

(** Type 2: the buffer size in the feedback is coded as its level. *)
Theorem C16_type2_layout :
  (forall p m, (10 <= length m)%nat -> p20_ok p -> fb_buf (fb_view (p20_ff p) (p20_pool p)) < 4294967296 ->
   exists m' level, p20_pack p m = Ok m' /\ writes 10 m m' (p20_fields p level) /\
     buffer_level (fb_buf (fb_view (p20_ff p) (p20_pool p))) level) /\
  (forall p m, (10 <= length m)%nat -> p21_ok p -> fb_buf (fb_view (p21_ff p) (p21_pool p)) < 4294967296 ->
   exists m' level, p21_pack p m = Ok m' /\ writes 10 m m' (p21_fields p level) /\
     buffer_level (fb_buf (fb_view (p21_ff p) (p21_pool p))) level).
Proof.
  split; intros p m Hl Hok Hb.
  - destruct (p20_pack_writes p m Hl Hok) as (m' & E & W). eexists _, _.
    split; [exact E|]. split; [exact W|]. now apply status_level.
  - destruct (p21_pack_writes p m Hl Hok) as (m' & E & W). eexists _, _.
    split; [exact E|]. split; [exact W|]. now apply status_level.
Qed.

Theorem C16_type2_round_trip :
  (forall p m old, (10 <= length m)%nat -> p20_ok p -> fb_buf (fb_view (p20_ff p) (p20_pool p)) < 4294967296 ->
   exists m' p' level, p20_pack p m = Ok m' /\ length m' = length m /\ skipn 10 m' = skipn 10 m /\
     buffer_level (fb_buf (fb_view (p20_ff p) (p20_pool p))) level /\
     p20_unpack old m' = Ok (p', true) /\ p20_arrives p p' (level_min level)) /\
  (forall p m old, (10 <= length m)%nat -> p21_ok p -> fb_buf (fb_view (p21_ff p) (p21_pool p)) < 4294967296 ->
   exists m' p' level, p21_pack p m = Ok m' /\ length m' = length m /\ skipn 10 m' = skipn 10 m /\
     buffer_level (fb_buf (fb_view (p21_ff p) (p21_pool p))) level /\
     p21_unpack old m' = Ok (p', true) /\ p21_arrives p p' (level_min level)).
Proof.
  split; intros p m old Hl Hok Hb.
  - destruct (p20_pack_writes p m Hl Hok) as (m' & E & W). pose proof W as (W1 & W2 & W3 & W4).
    pose proof (status_level _ Hb) as Hlv.
    destruct (p20_unpack_complete old m' p _ ltac:(lia) W3 Hok (status_le _) W4) as (p' & E' & Ha & _).
    eexists m', p', _. split; [exact E|]. split; [exact W1|]. split; [exact W2|]. split; [exact Hlv|].
    split; [exact E'|]. exact Ha.
  - destruct (p21_pack_writes p m Hl Hok) as (m' & E & W). pose proof W as (W1 & W2 & W3 & W4).
    pose proof (status_level _ Hb) as Hlv.
    destruct (p21_unpack_complete old m' p _ ltac:(lia) W3 Hok (status_le _) W4) as (p' & E' & Ha & _).
    eexists m', p', _. split; [exact E|]. split; [exact W1|]. split; [exact W2|]. split; [exact Hlv|].
    split; [exact E'|]. exact Ha.
Qed.

(** The number of spatial streams survives for 1, 2, 4 and 8 streams and for no other number. *)
Theorem C16_spatial_streams : forall n,
  (exists c, N_SS_code n = Ok c /\ c <= 3 /\ N_SS_of_code c = Ok n) <-> (n = 1 \/ n = 2 \/ n = 4 \/ n = 8).
Proof.
  intros n. split.
  - intros (c & E & Hc & E').
    unfold N_SS_code in E. destruct (nth_error N_SS_coded_lut (N.to_nat n)) eqn:En; [|discriminate].
    assert (Hn : (N.to_nat n < 9)%nat) by (change 9%nat with (length N_SS_coded_lut); apply nth_error_Some; congruence).
    assert (n = 0 \/ n = 1 \/ n = 2 \/ n = 3 \/ n = 4 \/ n = 5 \/ n = 6 \/ n = 7 \/ n = 8) as H by lia.
    injection E as <-.
    destruct H as [->|[->|[->|[->|[->|[->|[->|[->| ->]]]]]]]]; cbn in En; injection En as <-; cbn in E';
      try discriminate; auto.
  - intros [->|[->|[->| ->]]]; eexists; (split; [reflexivity|]); (split; [lia|reflexivity]).
Qed.

(** A transmit power in dBm is coded as the smallest table power not below it, or the largest. *)
Theorem C16_transmit_power : forall dbm,
  exists v, get_TransmitPower_dBm (TransmitPower_of_dBm dbm) = Ok v /\ TransmitPower_of_dBm dbm <= 15 /\
    In v tx_power_table /\
    ((dbm <= 23)%Z -> (dbm <= v)%Z /\ forall w, In w tx_power_table -> (dbm <= w)%Z -> (v <= w)%Z) /\
    ((23 < dbm)%Z -> v = 23%Z).
Proof.
  intros dbm. unfold TransmitPower_of_dBm, tx_power_table. cbn [lower_bound].
  repeat match goal with
  | |- context [Z.ltb ?a ?b] => destruct (Z.ltb_spec a b)
  end; vm_compute Nat.eqb; cbv iota;
    (eexists; split; [reflexivity|]; split; [vm_compute; discriminate|]; split; [cbn; auto 20|]; split;
     [intros ?; split; [lia|]; intros w Hw Hd; cbn in Hw; lia | intros ?; lia]).
Qed.

Definition ex_pool : pool :=
  mkPool (mkF1 3 ACK 100 5) (mkF2 0 mimo_not_defined 0 0) (mkF3 0 tfb_not_defined 0 tfb_not_defined 0)
         (mkF4 0 0) (mkF5 0 tfb_not_defined mimo_not_defined 0) (mkF6 0 0 0 0).
Definition ex20 : plcf20 := mk20 (mkBase 0 1 7) 200 4660 9 4 51966 1 2 1 5 1 ex_pool.
Definition ex21 : plcf21 := mk21 (mkBase 1 0 15) 1 65535 15 11 1 3 0 0 ex_pool.
Definition ex10 : plcf10 := mk10 (mkBase 0 1 3) 77 4660 12 0 6.

Example C16_hypotheses_met : p10_ok ex10 /\ p20_ok ex20 /\ p21_ok ex21 /\
  p10_pack ex10 [1; 2; 3; 4; 5; 6] = Ok [19; 77; 18; 52; 198; 6] /\
  p20_pack ex20 (repeat 255 12) = Ok [23; 200; 18; 52; 148; 202; 254; 109; 23; 70; 255; 255].
Proof.
  unfold p10_ok, p20_ok, p21_ok, base_ok, short_network_id, short_rd_id, tf_ok.
  repeat split; cbn; try lia; auto; try (right; reflexivity); vm_compute; reflexivity.
Qed.

Print Assumptions C16_type1_layout.
Print Assumptions C16_invalid_headers_abort.
Print Assumptions C16_type1_round_trip.
Print Assumptions C16_type2_layout.
Print Assumptions C16_type2_round_trip.
Print Assumptions C16_spatial_streams.
Print Assumptions C16_transmit_power.
