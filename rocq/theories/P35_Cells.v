(** C31: the reference, control and data cells of a transmitted packet. *)
From Verif Require Import Base PacketSizes PacketSizesSpec PacketSizesFacts Cells TxCells CellsSpec TxFacts TxUseFacts.
Open Scope N_scope.

(** A packet of the class was transmitted as [os]. *)
Definition transmitted (c : rdc) (d : psdef) (q : packet_sizes) (os : list osym) : Prop :=
  class_ok c /\ within c d /\ get_packet_sizes d = Ok (Some q) /\
  exists m k, get_maximum_packet_sizes c = Ok m /\ tx_new m = Ok k /\ transmit m k q = Ok os.
Lemma transmitted_inv c d q os : transmitted c d q os ->
  supported d /\ possible d /\ consistent d q /\ os = map (symbol_of d) (nseq 1 (N.to_nat (symbols d - overhead (d_u d)))) /\
  q_N_DF_symb q = symbols d - overhead (d_u d).
Proof.
  intros (HC & W & Q & m & k & M & K & T). pose proof W as (S0 & _).
  destruct (possible_dec d) as [P|P]; [|rewrite (sizes_impossible _ S0 P) in Q; discriminate].
  pose proof (sizes_consistent d q S0 P Q) as C. pose proof C as (_ & _ & C3 & _).
  pose proof (transmit_exact c m HC M) as X. destruct (r_mcs c <=? 9); [|congruence].
  destruct X as (k' & K' & X). assert (k' = k) by congruence. subst k'. rewrite (X d q W Q) in T.
  destruct (antennas (d_tm d) <=? r_N_TX c); [|discriminate]. injection T as <-.
  assert (q_N_DF_symb q = symbols d - overhead (d_u d)) by lia. repeat (split; auto). rewrite H. reflexivity.
Qed.

(** Transmission succeeds for every packet of the class that exists, as long as the mode needs no more antennas
    than the device has; nothing is read or written out of bounds. Classes with the two highest MCS cannot be used. *)
Theorem C31_transmission_succeeds : forall c m, class_ok c -> get_maximum_packet_sizes c = Ok m ->
  match tx_new m with
  | Ok k => r_mcs c <= 9 /\ forall d q, within c d -> get_packet_sizes d = Ok (Some q) ->
      match transmit m k q with
      | Ok os => antennas (d_tm d) <= r_N_TX c /\ map o_l os = nseq 1 (N.to_nat (q_N_DF_symb q))
      | Abort => r_N_TX c < antennas (d_tm d)
      | _ => False
      end
  | Abort => 9 < r_mcs c
  | _ => False
  end.
Proof.
  intros c m HC M. pose proof (transmit_exact c m HC M) as X. destruct (N.leb_spec (r_mcs c) 9) as [L|L].
  - destruct X as (k & -> & X). split; [exact L|]. intros d q W Q. rewrite (X d q W Q).
    destruct (N.leb_spec (antennas (d_tm d)) (r_N_TX c)) as [A|A]; [|exact A]. split; [exact A|].
    rewrite map_map. rewrite <- (map_id (nseq 1 (N.to_nat (q_N_DF_symb q)))) at 2. reflexivity.
  - rewrite X. exact L.
Qed.

(** In every OFDM symbol, the control, reference and data cells together are exactly the occupied subcarriers ... *)
Theorem C31_cover : forall c d q os o k, transmitted c d q os -> In o os ->
  (k <= 56 * d_b d /\ k <> 28 * d_b d <-> uses (o_control o) k \/ uses (o_reference o) k \/ uses (o_data o) k).
Proof.
  intros c d q os o k T I. apply transmitted_inv in T as (S0 & _ & _ & -> & _). apply in_map_iff in I as (l & <- & _).
  rewrite <- occupied_in. apply symbol_cover. apply S0.
Qed.
(** ... no subcarrier has two purposes, not even in different streams ... *)
Theorem C31_disjoint : forall c d q os o k, transmitted c d q os -> In o os ->
  ~ (uses (o_control o) k /\ uses (o_data o) k) /\ ~ (uses (o_control o) k /\ uses (o_reference o) k) /\
  ~ (uses (o_reference o) k /\ uses (o_data o) k).
Proof.
  intros c d q os o k T I. apply transmitted_inv in T as (S0 & _ & _ & -> & _). apply in_map_iff in I as (l & <- & _).
  apply symbol_apart. apply S0.
Qed.
(** ... a reference cell belongs to one stream, so that the others are silent there ... *)
Theorem C31_one_reference : forall c d q os o t t' k v v', transmitted c d q os -> In o os ->
  In (t, k, v) (o_reference o) -> In (t', k, v') (o_reference o) -> t = t'.
Proof.
  intros c d q os o t t' k v v' T I. apply transmitted_inv in T as (S0 & _ & _ & -> & _). apply in_map_iff in I as (l & <- & _).
  apply symbol_one_stream. apply S0.
Qed.
(** ... and no cell of a stream is written twice. *)
Theorem C31_written_once : forall c d q os o, transmitted c d q os -> In o os ->
  NoDup (map fst (o_control o ++ o_reference o ++ o_data o)) /\
  forall w, In w (o_control o ++ o_reference o ++ o_data o) -> fst (fst w) < eff_antennas (d_tm d).
Proof.
  intros c d q os o T I. apply transmitted_inv in T as (S0 & _ & _ & -> & _). apply in_map_iff in I as (l & <- & _).
  split; [apply symbol_once; apply S0|]. intros w. apply symbol_streams. apply S0.
Qed.

(** Over the whole packet there are 98 control cells, and as many reference and data cells as announced. *)
Theorem C31_counts : forall c d q os, transmitted c d q os ->
  sum (map (fun o => len (cells_used (o_control o))) os) = 98 /\
  sum (map (fun o => len (o_reference o)) os) = q_N_DRS_subc q /\
  sum (map (fun o => len (cells_used (o_data o))) os) = q_N_PDC_subc q.
Proof.
  intros c d q os T. pose proof T as (_ & _ & Q & _). apply transmitted_inv in T as (S0 & P & C & -> & D).
  destruct C as (_ & _ & _ & C4 & C5 & C6 & _). rewrite D in C5. destruct (before_total d S0 P) as (B1 & B2 & B3).
  pose proof (refs_total d S0 P) as RT. set (DF := symbols d - overhead (d_u d)) in *. replace DF with (DF + 1 - 1) by lia.
  rewrite control_total, data_total, reference_total by (auto; lia). rewrite B1, B2, RT, C4.
  split; [reflexivity|]. split; [reflexivity|]. rewrite C4 in C5. unfold data_cells. fold DF. lia.
Qed.

(** A slot with transmit diversity over two antennas: three symbols carry control. *)
Definition small_class : rdc := mkRdc 1 1 2 7 2048 2.
Definition small_packet : psdef := mkPsdef 1 1 1 1 1 3 2048.
Example C31_hypotheses_met : exists q os, transmitted small_class small_packet q os /\
  map (fun o => (len (cells_used (o_control o)), len (o_reference o), len (cells_used (o_data o)))) os =
    [(28, 28, 0); (56, 0, 0); (14, 0, 42); (0, 0, 56); (0, 0, 56); (0, 28, 28); (0, 0, 56); (0, 0, 56)].
Proof.
  eexists _, _. split.
  - split; [apply PacketSizesMaxFacts.class_checked; vm_compute; reflexivity|]. split.
    + unfold within, supported, small_class, small_packet. cbn [d_u d_b d_type d_length d_tm d_mcs d_Z In r_u r_b r_mcs r_Z r_PacketLength r_N_TX].
      change (eff_antennas 1) with 2. lia.
    + split; [vm_compute; reflexivity|]. eexists _, _. split; [vm_compute; reflexivity|]. split; [vm_compute; reflexivity|].
      vm_compute; reflexivity.
  - vm_compute. reflexivity.
Qed.
Example C31_closed_loop_aborts : exists c d q m k, class_ok c /\ within c d /\ get_packet_sizes d = Ok (Some q) /\
  get_maximum_packet_sizes c = Ok m /\ tx_new m = Ok k /\ transmit m k q = Abort.
Proof.
  exists rdc_1_1_1_A, (mkPsdef 1 1 1 1 3 3 2048). eexists _, _, _.
  split; [apply PacketSizesMaxFacts.class_checked; vm_compute; reflexivity|]. split.
  { unfold within, supported, rdc_1_1_1_A. cbn [d_u d_b d_type d_length d_tm d_mcs d_Z In r_u r_b r_mcs r_Z r_PacketLength r_N_TX].
    change (eff_antennas 3) with 1. lia. }
  split; [vm_compute; reflexivity|]. split; [vm_compute; reflexivity|]. split; [vm_compute; reflexivity|]. vm_compute; reflexivity.
Qed.

Print Assumptions C31_transmission_succeeds.
Print Assumptions C31_cover.
Print Assumptions C31_disjoint.
Print Assumptions C31_one_reference.
Print Assumptions C31_written_once.
Print Assumptions C31_counts.
