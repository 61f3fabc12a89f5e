(** C48, C50: the maximum packet sizes of a radio device class, and the length of packets at the
    sample rate of the hardware. *)
From Verif Require Import Base Plcf PacketSizes PacketSizesSpec PacketSizesFacts PacketSizesMaxFacts PacketUse PacketUseSpec PacketUseFacts P31_PacketSizes.
Open Scope N_scope.

(** Class files are accepted exactly if every parameter is in range. *)
Theorem C48_class_files : forall c, class_ok c <-> rdc_checked c = true.
Proof. exact class_checked. Qed.

(** The maximum of an accepted class exists, except with four antennas and packets of a single slot;
    then asking for it aborts. *)
Theorem C48_maximum_exists : forall c, class_ok c ->
  match get_maximum_packet_sizes c with
  | Ok m => ~ (r_N_TX c = 4 /\ r_PacketLength c = 1)
  | Abort => r_N_TX c = 4 /\ r_PacketLength c = 1
  | _ => False
  end.
Proof.
  intros c HC. destruct (max_eval c HC) as (A & B).
  destruct (N.eq_dec (r_N_TX c) 4) as [E1|E1].
  - destruct (N.eq_dec (r_PacketLength c) 1) as [E2|E2].
    + rewrite (B E1 E2). auto.
    + destruct A as (q & -> & _); tauto.
  - destruct A as (q & -> & _); tauto.
Qed.

(** No packet a device of the class may send or receive is larger than the maximum in any respect:
    symbols, bits, bytes, codeblocks, samples. *)
Theorem C48_packets_fit : forall c d q m, class_ok c -> within c d -> get_packet_sizes d = Ok (Some q) ->
  get_maximum_packet_sizes c = Ok m -> fits q m.
Proof. exact max_fits. Qed.

(** The maximum is attained. *)
Theorem C48_maximum_is_a_packet : forall c m, class_ok c -> get_maximum_packet_sizes c = Ok m ->
  exists d, within c d /\ get_packet_sizes d = Ok (Some m).
Proof.
  intros c m HC M. pose proof HC as (CU & _). exists (maxdef c (r_u c)). split; [apply max_smaller_within; auto; lia|].
  destruct (max_eval c HC) as (A & B).
  assert (ND : ~ (r_N_TX c = 4 /\ r_PacketLength c = 1)) by (intros (X & Y); rewrite (B X Y) in M; discriminate).
  destruct (A ND) as (q & E & F). congruence.
Qed.

(** The number of data cells is not among what fits: with fewer antennas there may be more of them. *)
Theorem C48_data_cells_refuted : exists c d q m, class_ok c /\ within c d /\ get_packet_sizes d = Ok (Some q) /\
  get_maximum_packet_sizes c = Ok m /\ q_N_PDC_subc m < q_N_PDC_subc q.
Proof.
  exists rdc_2_12_4_A, (mkPsdef 2 12 1 4 0 7 2048). eexists _, _.
  split; [apply class_checked; vm_compute; reflexivity|].
  split; [unfold within, supported; cbn [d_u d_b d_type d_length d_tm d_mcs d_Z In r_u r_b r_mcs r_Z r_PacketLength r_N_TX rdc_2_12_4_A];
          change (eff_antennas 0) with 1; lia|].
  split; [vm_compute; reflexivity|]. split; vm_compute; reflexivity.
Qed.

Theorem C48_builtin_classes : Forall (fun c => class_ok c /\ exists m, get_maximum_packet_sizes c = Ok m) builtin_classes.
Proof.
  repeat (apply Forall_cons; [split; [apply class_checked; vm_compute; reflexivity|eexists; vm_compute; reflexivity]|]).
  constructor.
Qed.

(** A packet converted to the sample rate of the hardware lasts as long as it should, rounded up to
    full samples; the conversion aborts exactly if that is fewer samples than at the DECT rate. *)
Theorem C50_packet_length : forall d q rate,
  supported d -> get_packet_sizes d = Ok (Some q) -> 0 < rate < 4294967296 ->
  exists n, lasts d rate n /\ n < 4294967296 /\
    get_N_samples_in_packet_length q rate = (if q_packet q <=? n then Ok n else Abort).
Proof. exact resampled. Qed.

(** The transmit buffers, laid out for the longest packet of the class in slots, hold every packet of
    the class, if the hardware samples at least as fast as the class needs. *)
Theorem C50_transmit_buffer : forall c m rate, class_ok c -> get_maximum_packet_sizes c = Ok m ->
  r_u c * r_b c * 1728000 <= rate < 4294967296 ->
  match get_N_samples_in_packet_length_max m rate with
  | Ok len => rate mod 2400 = 0 /\ forall d q, within c d -> get_packet_sizes d = Ok (Some q) ->
      exists n, get_N_samples_in_packet_length q rate = Ok n /\ lasts d rate n /\ q_packet q <= n <= len
  | Abort => rate mod 2400 <> 0
  | _ => False
  end.
Proof.
  intros c m rate HC M R. pose proof HC as (CU & CB & _).
  assert (0 < r_u c * r_b c).
  { destruct CU as [<-|[<-|[<-|[<-|[]]]]]; destruct CB as [<-|[<-|[<-|[<-|[<-|[<-|[]]]]]]]; lia. }
  rewrite (buffer_eval c m rate HC M) by lia.
  destruct (N.eqb_spec (rate mod 2400) 0) as [Z0|Z0]; [|exact Z0]. split; [exact Z0|]. intros d q W E.
  destruct (buffer_large_enough c m d q rate HC M W E R Z0) as (n & A1 & A2 & A3 & A4). eauto 10.
Qed.

(** The longest packet fills the buffer completely. *)
Example C50_hypotheses_met : exists m, get_maximum_packet_sizes rdc_1_1_1_A = Ok m /\
  get_N_samples_in_packet_length_max m 3840000 = Ok 6400 /\ get_N_samples_in_packet_length m 3840000 = Ok 6400 /\
  lasts ex_slot 3840000 3200.
Proof. eexists. split; [vm_compute; reflexivity|]. split; [vm_compute; reflexivity|]. split; [vm_compute; reflexivity|]. vm_compute. repeat split; discriminate. Qed.

Example C48_hypotheses_met : class_ok (mkRdc 4 12 4 9 6144 7) /\ ~ class_ok (mkRdc 4 3 4 9 6144 7) /\
  get_maximum_packet_sizes (mkRdc 1 1 4 7 2048 1) = Abort /\ class_ok (mkRdc 1 1 4 7 2048 1).
Proof.
  split; [apply class_checked; reflexivity|]. split; [rewrite class_checked; vm_compute; discriminate|].
  split; [vm_compute; reflexivity|apply class_checked; reflexivity].
Qed.

Print Assumptions C48_class_files.
Print Assumptions C48_maximum_exists.
Print Assumptions C48_packets_fit.
Print Assumptions C48_maximum_is_a_packet.
Print Assumptions C48_data_cells_refuted.
Print Assumptions C48_builtin_classes.
Print Assumptions C50_packet_length.
Print Assumptions C50_transmit_buffer.
