(** C49: a received control header and the packet the receiver then expects. *)
From Verif Require Import Base WireSpec Plcf PlcfSpec PacketSizes PacketSizesSpec PacketSizesFacts PacketSizesMaxFacts PacketUse PacketUseSpec PacketUseFacts P12_Plcf.
Open Scope N_scope.

(** Whatever bytes arrive: a header the decoder of the class reports describes a packet within the
    class, whose transport block fits the receive buffers. The request for it aborts exactly if the
    header describes a packet that does not exist. *)
Theorem C49_request : forall c m s e10 e20 e21 m1 m2 dec1 dec2 type h,
  class_ok c -> get_maximum_packet_sizes c = Ok m -> report_ok c s ->
  (5 <= length m1)%nat -> bytes (firstn 5 m1) -> (10 <= length m2)%nat -> bytes (firstn 10 m2) ->
  decode_and_rdc_check (set_configuration (decoder_of_class m e10 e20 e21)) 1 m1 = Ok dec1 ->
  decode_and_rdc_check dec1 2 m2 = Ok dec2 ->
  type = 1 \/ type = 2 -> get_plcf_base dec2 type = Ok (Some h) ->
  exists d, described s h (r_Z c) d /\ within c d /\
  match worksub_pcc2pdc m s dec2 type with
  | Ok q => possible d /\ consistent d q /\ fits q m
  | Abort => ~ possible d
  | _ => False
  end.
Proof.
  intros c m s e10 e20 e21 m1 m2 dec1 dec2 type h HC M RS L1 B1 L2 B2 E1 E2 T G.
  pose proof (decoder_accepted m e10 e20 e21 m1 m2 dec1 dec2 type h L1 B1 L2 B2 E1 E2 T G) as A.
  destruct (psdef_described c m s dec2 type h HC M RS G A) as (d & D1 & D2 & D3).
  exists d. split; [exact D2|]. split; [exact D3|]. unfold worksub_pcc2pdc. rewrite D1. cbn [bind].
  apply (process_exact c); auto.
Qed.

(** The same for a transmission the firmware asks for. *)
Theorem C49_transmit : forall c m type d, class_ok c -> get_maximum_packet_sizes c = Ok m -> type = 1 \/ type = 2 -> within c d ->
  match get_process m type d with
  | Ok q => possible d /\ consistent d q /\ fits q m
  | Abort => ~ possible d
  | _ => False
  end.
Proof. exact process_exact. Qed.

Definition first_of (m : packet_sizes) : decoder := decoder_of_class m ex10 ex20 ex21.

(** A header on the air can abort the receiver: one subslot with the lowest MCS holds no data. *)
Theorem C49_never_aborts_refuted : exists m dec,
  get_maximum_packet_sizes rdc_1_1_1_A = Ok m /\
  decode_and_rdc_check (set_configuration (first_of m)) 1 [0; 77; 18; 52; 192] = Ok dec /\
  get_plcf_base dec 1 = Ok (Some (P10 (mk10 (mkBase 0 0 0) 77 4660 12 0 0))) /\
  worksub_pcc2pdc m (mkSync 1 1 1) dec 1 = Abort.
Proof.
  eexists _, _. split; [vm_compute; reflexivity|]. split; [vm_compute; reflexivity|]. split; vm_compute; reflexivity.
Qed.

(** A header announcing two streams from four antennas is received as one announcing four. *)
Theorem C49_streams_as_announced_refuted : exists m dec1 dec2 h d,
  get_maximum_packet_sizes rdc_2_12_4_A = Ok m /\
  decode_and_rdc_check (set_configuration (first_of m)) 1 [255; 0; 0; 0; 0] = Ok dec1 /\
  decode_and_rdc_check dec1 2 [19; 200; 18; 52; 148; 202; 254; 109; 23; 70] = Ok dec2 /\
  get_plcf_base dec2 2 = Ok (Some h) /\ announced h = 2 /\
  worksub_psdef m (mkSync 2 12 4) dec2 2 = Ok d /\ streams (d_tm d) = 4.
Proof.
  do 5 eexists. split; [vm_compute; reflexivity|]. split; [vm_compute; reflexivity|]. split; [vm_compute; reflexivity|].
  split; [vm_compute; reflexivity|]. split; [reflexivity|]. split; vm_compute; reflexivity.
Qed.

Example C49_hypotheses_met : exists m dec q,
  get_maximum_packet_sizes rdc_1_1_1_A = Ok m /\ report_ok rdc_1_1_1_A (mkSync 1 1 1) /\ class_ok rdc_1_1_1_A /\
  decode_and_rdc_check (set_configuration (first_of m)) 1 [19; 77; 18; 52; 198] = Ok dec /\
  get_plcf_base dec 1 = Ok (Some (P10 ex10)) /\
  worksub_pcc2pdc m (mkSync 1 1 1) dec 1 = Ok q /\ q_N_TB_byte q = 1054.
Proof.
  do 3 eexists. split; [vm_compute; reflexivity|]. split; [unfold report_ok; cbn; lia|].
  split; [apply class_checked; reflexivity|]. split; [vm_compute; reflexivity|]. split; [vm_compute; reflexivity|].
  split; vm_compute; reflexivity.
Qed.

Print Assumptions C49_request.
Print Assumptions C49_transmit.
Print Assumptions C49_never_aborts_refuted.
Print Assumptions C49_streams_as_announced_refuted.
