(** C21: the MAC PDU decoder. *)
From Verif Require Import Base Bytes WireSpec MacHeader Mux Beacons SmallIes Decoder DecoderSpec DecoderFacts P26_Beacons.
Open Scope N_scope.

(** A decoder that was constructed and then used in whatever way has the slots it was built with. *)
Definition sized (d : decoder) : Prop := forall k, length (d_pool d k) = capacity k.
Theorem C21_new_sized : sized d_new.
Proof. intros k. cbn. unfold pool_init. apply repeat_length. Qed.

(** However the bytes of the block arrive, once they are all there the decoder holds the header type, the common header and
    exactly the messages and elements of the block, in order; it never aborts and never reads behind what is there. *)
Theorem C21_decodes : forall d0 mu m ws,
  sized d0 -> In mu [1; 2; 4; 8] -> bytes m -> (0 < length m)%nat -> N.of_nat (length m) < 2 ^ 31 -> increments 0 (length m) ws ->
  exists d d', set_configuration d0 (N.of_nat (length m)) mu = Ok d /\ feed m (ws ++ [length m]) d = Ok d' /\
    has_reached_valid_final_state d' = Ok true /\
    d_mht d' = pdu_type (read_pdu mu m) /\ common_of d' = pdu_common (read_pdu mu m) /\
    delivered m d' = map Some (pdu_items (read_pdu mu m)) /\ sized d'.
Proof.
  intros d0 mu m ws Hs Hmu Bm L0 Lm Inc. assert (Mu : mu_ok mu) by (unfold mu_ok; cbn in Hmu; intuition).
  destruct (start_inv d0 m mu Hs L0) as (d & E & I & R0 & St).
  destruct (feed_ok m mu ws d 0 Bm Lm Mu ltac:(lia) Inc I ltac:(lia) ltac:(congruence) L0) as (d' & F & I' & Lr & C).
  exists d, d'. split; [exact E|]. split; [exact F|]. pose proof (inv_tb _ _ _ I') as T. destruct I' as (caps & es & G & Sp).
  assert (K : d_r d' = d_tb d' /\ (d_state d' = DONE \/ d_state d' = PREMATURE_ABORT) /\ tells m mu d' es).
  { unfold special in Sp. destruct C as [D|[(D & Rd)|(ND & Q)]].
    - rewrite D in Sp. tauto.
    - rewrite D in Sp. unfold R in Rd. split; [lia|]. tauto.
    - lia. }
  destruct K as (K1 & K2 & K3). unfold has_reached_valid_final_state. rewrite K1, N.eqb_refl. cbn [guard].
  split; [destruct K2 as [-> | ->]; reflexivity|]. unfold tells in K3. rewrite K3. cbn [pdu_type pdu_common pdu_items]. split; [reflexivity|]. split; [reflexivity|]. split; [apply G|]. intros k. apply G.
Qed.

(** While bytes are still missing what was decoded so far is a beginning of what the block will turn out to say. *)
Lemma feed_prefix m mu ws d from : bytes m -> N.of_nat (length m) < 2 ^ 31 -> mu_ok mu -> (from <= length m)%nat -> increments from (length m) ws ->
  inv m mu d -> (R d <= from)%nat -> d_state d <> DONE -> (0 < length m)%nat ->
  exists d', feed m ws d = Ok d' /\ inv m mu d'.
Proof.
  intros Bm Lm Mu. revert d from. induction ws as [|w ws IH]; intros d from Lf Inc I Lr ND L0.
  - exists d. split; [reflexivity|exact I].
  - cbn [feed]. destruct Inc as (Iw & Inc). destruct (decode_ok m w mu d Bm Lm Mu L0 ltac:(lia) I ltac:(lia) ND) as (d' & E & I' & Lr' & C). rewrite E. cbn [bind].
    assert (Lw : length (firstn w m) = w) by (rewrite firstn_length; lia). rewrite Lw in *.
    assert (ND' : d_state d' <> DONE).
    { intros D. destruct I' as (c & e & G & Sp). unfold special in Sp. rewrite D in Sp. destruct Sp as (Sp & _). pose proof (g_tb _ _ _ _ _ G). unfold R in Lr'. lia. }
    apply (IH d' w); auto. lia.
Qed.
Lemma inv_prefix m mu d : inv m mu d -> exists es more, delivered m d = map Some es /\ pdu_items (read_pdu mu m) = es ++ more.
Proof.
  intros (caps & es & G & Sp). exists es. unfold special, tells in Sp. 
  destruct (d_state d).
  - destruct Sp as (_ & _ & _ & _ & -> & _). eexists. split; [apply G|reflexivity].
  - destruct Sp as (h & _ & _ & _ & _ & _ & _ & -> & _). eexists. split; [apply G|reflexivity].
  - destruct Sp as (_ & ->). eexists. split; [apply G|reflexivity].
  - destruct Sp as (k & b & t & _ & _ & _ & _ & _ & _ & _ & _ & ->). eexists. split; [apply G|reflexivity].
  - destruct Sp as (s & t & _ & _ & _ & _ & _ & _ & ->). eexists. split; [apply G|reflexivity].
  - destruct Sp as (k & fl & n & _ & _ & _ & _ & Sp). cbv zeta in Sp. destruct Sp as (_ & _ & _ & _ & _ & ->). eexists. split; [apply G|reflexivity].
  - destruct Sp as (_ & ->). eexists. split; [apply G|reflexivity].
  - destruct Sp as (_ & ->). exists []. rewrite app_nil_r. split; [apply G|reflexivity].
  - destruct Sp as (_ & ->). exists []. rewrite app_nil_r. split; [apply G|reflexivity].
Qed.
Theorem C21_prefix : forall d0 mu m ws,
  sized d0 -> In mu [1; 2; 4; 8] -> bytes m -> (0 < length m)%nat -> N.of_nat (length m) < 2 ^ 31 -> increments 0 (length m) ws ->
  exists d d' es more, set_configuration d0 (N.of_nat (length m)) mu = Ok d /\ feed m ws d = Ok d' /\ sized d' /\
    delivered m d' = map Some es /\ pdu_items (read_pdu mu m) = es ++ more.
Proof.
  intros d0 mu m ws Hs Hmu Bm L0 Lm Inc. assert (Mu : mu_ok mu) by (unfold mu_ok; cbn in Hmu; intuition).
  destruct (start_inv d0 m mu Hs L0) as (d & E & I & R0 & St).
  destruct (feed_prefix m mu ws d 0 Bm Lm Mu ltac:(lia) Inc I ltac:(lia) ltac:(congruence) L0) as (d' & F & I').
  destruct (inv_prefix m mu d' I') as (es & more & D & P). exists d, d', es, more. split; [exact E|]. split; [exact F|]. split; [|split; [exact D|exact P]].
  destruct I' as (c & e & G & _). intros k. apply G.
Qed.

(** A block: unicast header, a power target, five bytes of user plane data, a byte of padding and an unknown rest. *)
Definition block : list N := [2; 0; 7; 0; 0; 0; 9; 0; 0; 0; 8; 29; 50; 67; 5; 10; 11; 12; 13; 14; 192; 255; 255].
Example C21_nonvacuous : pdu_items (read_pdu 1 block) = [Power_target 50; Data 1 [10; 11; 12; 13; 14]] /\
  pdu_common (read_pdu 1 block) <> None /\ bytes block /\ increments 0 (length block) [0; 1; 1; 5; 14; 20]%nat.
Proof. split; [vm_compute; reflexivity|]. split; [vm_compute; discriminate|]. split; [unfold block, bytes; repeat constructor|cbn; lia]. Qed.

(** *** What does not hold *)
(** After the block is completely decoded a further call of decode aborts, although no new bytes are asked for. *)
Theorem C21_decode_again_refuted : exists m d d',
  set_configuration d_new (N.of_nat (length m)) 1 = Ok d /\ decode m d = Ok d' /\ decode m d' = Abort.
Proof.
  exists [4; 29; 50].
  assert (E : (do d <- set_configuration d_new 3 1 ; do d' <- decode [4; 29; 50] d ; match decode [4; 29; 50] d' with Abort => Ok tt | _ => Throw end) = Ok tt) by (vm_compute; reflexivity).
  apply bind_ok_inv in E. destruct E as (d & E1 & E). apply bind_ok_inv in E. destruct E as (d' & E2 & E). exists d, d'. split; [exact E1|]. split; [exact E2|].
  destruct (decode [4; 29; 50] d'); try discriminate E. reflexivity.
Qed.
(** A block too short for the announced common header leaves a header without content behind a pointer that is not null. *)
Theorem C21_short_block_header_refuted : exists m d d' t,
  set_configuration d_new (N.of_nat (length m)) 1 = Ok d /\ decode m d = Ok d' /\ d_mch d' = Some (t, None) /\ pdu_common (read_pdu 1 m) = None.
Proof.
  exists [2; 0; 7].
  assert (E : (do d <- set_configuration d_new 3 1 ; do d' <- decode [2; 0; 7] d ; match d_mch d' with Some (2, None) => Ok tt | _ => Throw end) = Ok tt) by (vm_compute; reflexivity).
  apply bind_ok_inv in E. destruct E as (d & E1 & E). apply bind_ok_inv in E. destruct E as (d' & E2 & E). exists d, d', 2. split; [exact E1|]. split; [exact E2|].
  split; [|vm_compute; reflexivity]. destruct (d_mch d') as [[t [c|]]|]; try discriminate E; [destruct t as [|[?|[?|?|]|]]; discriminate E|]. destruct t as [|[?|[?|?|]|]]; try discriminate E. reflexivity.
Qed.

Print Assumptions C21_new_sized.
Print Assumptions C21_decodes.
Print Assumptions C21_prefix.
Print Assumptions C21_decode_again_refuted.
Print Assumptions C21_short_block_header_refuted.
