(** C29: packet sizes are consistent for every configuration. *)
From Verif Require Import Base PacketSizes PacketSizesSpec PacketSizesFacts.
Open Scope N_scope.

(** For every supported configuration sizes are returned exactly if the configuration is possible,
    they are consistent, and no assertion fires. *)
Theorem C29_sizes : forall d, supported d ->
  match get_packet_sizes d with
  | Ok (Some q) => possible d /\ consistent d q
  | Ok None => ~ possible d
  | _ => False
  end.
Proof.
  intros d S0. destruct (possible_dec d) as [P|P].
  - destruct (sizes_possible d S0 P) as (mc & tm & t & s & _ & _ & _ & _ & _ & _ & _ & _ & _ & E).
    pose proof (sizes_consistent d _ S0 P E) as C. rewrite E. split; assumption.
  - rewrite (sizes_impossible d S0 P). exact P.
Qed.

Theorem C29_unsupported_aborts : forall d, ~ supported d -> get_packet_sizes d = Abort.
Proof. exact unsupported_aborts. Qed.

(** Codeblock segmentation of any transport block: as few blocks as possible, each of a length of the
    turbo code; the blocks hold the block, its checksums and fewer than 64 filler bits. *)
Theorem C29_segmentation : forall tb Z, In Z [2048; 6144] -> 0 < tb < 2147483648 ->
  exists s blocks, cbsegm tb Z = Ok (Some s) /\ blocks <> [] /\
    sg_C s = N.of_nat (length blocks) /\
    blocks = repeat (sg_K1 s) (N.to_nat (sg_C1 s)) ++ repeat (sg_K2 s) (N.to_nat (sg_C2 s)) /\
    Forall (fun k => turbo_size k /\ k <= Z) blocks /\
    sum blocks = tb + checksum_bits blocks + sg_F s /\ sg_F s < 64 /\
    (tb + 24 <= Z -> length blocks = 1%nat) /\
    (Z < tb + 24 -> N.of_nat (length blocks - 1) * (Z - 24) < tb + 24 <= N.of_nat (length blocks) * (Z - 24)).
Proof.
  intros tb Z HZ T. destruct (cbsegm_well tb Z HZ T) as (s & E & W). exists s, (blocks_of s).
  pose proof (blocks_length s tb Z W) as L. pose proof W as (A & B & C & D & K & G & F & M).
  assert (NE : blocks_of s <> []). { intros X. rewrite X in L. cbn in L. lia. }
  split; [exact E|]. split; [exact NE|]. split; [lia|]. split; [reflexivity|]. split.
  { unfold blocks_of. apply Forall_app. split; apply Forall_forall; intros k H; apply repeat_spec in H as Q; subst k.
    + auto.
    + destruct K as [K|K]; [rewrite K in H; destruct H|exact K]. }
  split. { rewrite checksum_length, L by exact NE. unfold blocks_of. rewrite sum_app, !sum_repeat, !N2Nat.id, G. lia. }
  split; [exact F|]. split; intros H.
  - replace (tb + 24 <=? Z) with true in M by lia. lia.
  - replace (tb + 24 <=? Z) with false in M by lia.
    replace (N.of_nat (length (blocks_of s) - 1)) with (sg_C s - 1) by lia.
    replace (N.of_nat (length (blocks_of s))) with (sg_C s) by lia. exact M.
Qed.

(** A transport block of 8 bits needs filler bits, and is never offered for a packet: the announced
    transport blocks have none (part of [consistent]). *)
Theorem C29_filler_bits_exist : exists s, cbsegm 8 2048 = Ok (Some s) /\ sg_F s = 8.
Proof. eexists. split; vm_compute; reflexivity. Qed.

(** Concrete configurations: one slot of the smallest class; a large one with several codeblocks; one
    that is too short for any data; one without room for the reference symbols. *)
Definition ex_slot := mkPsdef 1 1 1 2 0 4 2048.
Definition ex_large := mkPsdef 8 16 1 16 11 9 6144.
Definition ex_short := mkPsdef 1 1 0 1 0 0 2048.
Definition ex_no_room := mkPsdef 1 1 1 1 5 9 2048.
Example C29_hypotheses_met :
  Forall supported [ex_slot; ex_large; ex_short; ex_no_room] /\
  match get_packet_sizes ex_slot with Ok (Some q) => q_N_TB_bits q = 2488 /\ q_C q = 2 /\ q_packet q = 1440 | _ => False end /\
  match get_packet_sizes ex_large with Ok (Some q) => 1 < q_C q | _ => False end /\
  get_packet_sizes ex_short = Ok None /\ get_packet_sizes ex_no_room = Ok None.
Proof.
  split.
  { repeat (apply Forall_cons; [unfold supported; cbn [d_u d_b d_type d_length d_tm d_mcs d_Z ex_slot ex_large ex_short ex_no_room In]; lia|]). constructor. }
  vm_compute. repeat split.
Qed.

Print Assumptions C29_sizes.
Print Assumptions C29_unsupported_aborts.
Print Assumptions C29_segmentation.
Print Assumptions C29_filler_bits_exist.
