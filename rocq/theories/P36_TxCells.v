(** C51: what the cells of a transmitted packet carry. *)
From Verif Require Import Base PacketSizes PacketSizesSpec PacketSizesFacts Cells TxCells CellsSpec CellsFacts TxFacts TxUseFacts P35_Cells.
Open Scope N_scope.

(** Every symbol of the packet is exactly what the standard describes: position, stream and value of every cell. *)
Theorem C51_symbols : forall c d q os, transmitted c d q os ->
  os = map (symbol_of d) (nseq 1 (N.to_nat (q_N_DF_symb q))).
Proof. intros c d q os T. apply transmitted_inv in T as (_ & _ & _ & -> & ->). reflexivity. Qed.

(** Without transmit diversity the coded bits are sent in order, each exactly once: the streams take turns, and
    the values of all data cells, in the order they are written, are bits 0.., N_bps.., 2 N_bps.. up to the last. *)
Theorem C51_data_in_order : forall c d q os, transmitted c d q os -> diversity (d_tm d) = false ->
  map snd (flat_map o_data os) = map (fun i => Data (i * bits_per_cell (d_mcs d))) (upto (streams (d_tm d) * q_N_PDC_subc q)) /\
  q_G q = bits_per_cell (d_mcs d) * (streams (d_tm d) * q_N_PDC_subc q).
Proof.
  intros c d q os T D. apply transmitted_inv in T as (S0 & P & C & -> & DF).
  destruct C as (_ & _ & _ & C4 & C5 & C6 & C7 & _). rewrite DF in C5. destruct (before_total d S0 P) as (B1 & B2 & B3).
  set (n := symbols d - overhead (d_u d)) in *.
  assert (PD : q_N_PDC_subc q = data_before (d_b d) (eff_antennas (d_tm d)) (n + 1)).
  { rewrite B2. rewrite C4 in C5. unfold data_cells. fold n. lia. }
  split; [|lia]. rewrite PD, <- plain_values by exact D. replace n with (n + 1 - 1) at 1 by lia.
  rewrite <- data_contents by (auto; lia). unfold sent. rewrite map_map. reflexivity.
Qed.

(** With transmit diversity, data cell [i] carries symbol [i] in one stream and the conjugate of the other symbol of
    its pair in another stream, for every [i]. *)
Theorem C51_data_diversity : forall c d q os, transmitted c d q os -> diversity (d_tm d) = true ->
  sent (flat_map o_data os) =
    flat_map (diversity_pair (eff_antennas (d_tm d)) (fun i => Data (i * bits_per_cell (d_mcs d)))
                (fun neg i => DataConj neg (i * bits_per_cell (d_mcs d)))) (upto (q_N_PDC_subc q)) /\
  q_G q = bits_per_cell (d_mcs d) * q_N_PDC_subc q.
Proof.
  intros c d q os T D. apply transmitted_inv in T as (S0 & P & C & -> & DF).
  destruct C as (_ & _ & _ & C4 & C5 & C6 & C7 & _). rewrite DF in C5. destruct (before_total d S0 P) as (B1 & B2 & B3).
  set (n := symbols d - overhead (d_u d)) in *.
  assert (PD : q_N_PDC_subc q = data_before (d_b d) (eff_antennas (d_tm d)) (n + 1)).
  { rewrite B2. rewrite C4 in C5. unfold data_cells. fold n. lia. }
  assert (TM : d_tm d <= 11) by apply S0. destruct (diversity_facts _ TM D) as (SS & _). rewrite SS in C7.
  split; [|lia]. rewrite PD. replace n with (n + 1 - 1) at 1 by lia. rewrite data_contents by (auto; lia).
  apply flat_map_ext. intros i. unfold data_sent. rewrite D. reflexivity.
Qed.
(** The streams of a pair are different streams of the packet. *)
Theorem C51_pair_streams : forall tm p, tm <= 11 -> diversity tm = true ->
  let '(A, B) := stream_pair (eff_antennas tm) p in A < eff_antennas tm /\ B < eff_antennas tm /\ A <> B.
Proof. intros tm p T D. apply pair_streams. apply diversity_facts; auto. Qed.

(** The 98 control symbols are sent in order, with more than one stream always with transmit diversity. *)
Theorem C51_control : forall c d q os, transmitted c d q os ->
  sent (flat_map o_control os) =
    flat_map (if eff_antennas (d_tm d) =? 1 then (fun i => [(0, Control i)])
              else diversity_pair (eff_antennas (d_tm d)) Control ControlConj) (upto 98).
Proof.
  intros c d q os T. apply transmitted_inv in T as (S0 & P & C & -> & DF). destruct (before_total d S0 P) as (B1 & B2 & B3).
  set (n := symbols d - overhead (d_u d)) in *. replace n with (n + 1 - 1) at 1 by lia. rewrite control_contents by (auto; lia).
  rewrite B1. apply flat_map_ext. intros i. unfold control_sent. destruct (eff_antennas (d_tm d) =? 1); reflexivity.
Qed.

(** The two symbols of a pair are never torn apart: what is sent as conjugate is sent plainly in the same OFDM symbol. *)
Theorem C51_pairs_in_one_symbol : forall c d q os o t k neg x, transmitted c d q os -> In o os ->
  (In (t, k, DataConj neg x) (o_data o) -> exists t' k', In (t', k', Data x) (o_data o)) /\
  (In (t, k, ControlConj neg x) (o_control o) -> exists t' k', In (t', k', Control x) (o_control o)).
Proof.
  intros c d q os o t k neg x T I. apply transmitted_inv in T as (S0 & _ & _ & -> & _). apply in_map_iff in I as (l & <- & L).
  apply nseq_in in L. split; intros W; [eapply data_partner|eapply control_partner]; eauto; lia.
Qed.

(** The reference cells of a stream in a symbol carry the base sequence from the stream's own offset on, in steps of
    four, negated for the streams from 4 on. *)
Theorem C51_reference : forall c d q os o t k v, transmitted c d q os -> In o os ->
  (In (t, k, v) (o_reference o) <->
   exists i, v = Reference (4 <=? t) ((4 * i + t mod 4) mod 56) /\ t < eff_antennas (d_tm d) /\
     nth_error (reference (d_b d) (eff_antennas (d_tm d)) t (o_l o)) (N.to_nat i) = Some k).
Proof.
  intros c d q os o t k v T I. apply transmitted_inv in T as (S0 & _ & _ & -> & _). apply in_map_iff in I as (l & <- & _).
  cbn [symbol_of o_reference o_l]. set (b := d_b d). set (e := eff_antennas (d_tm d)).
  assert (NE : forall ks i k, In (i, k) (numbered ks) <-> nth_error ks (N.to_nat i) = Some k).
  { clear. intros ks i k. unfold numbered, upto, len. rewrite Nat2N.id.
    assert (G : forall z, In (z + i, k) (combine (nseq z (length ks)) ks) <-> nth_error ks (N.to_nat i) = Some k).
    { revert i. induction ks as [|k' ks IH]; intros i z; cbn [length nseq combine].
      - destruct (N.to_nat i); cbn; split; intros H; try contradiction; discriminate H.
      - destruct (N.eq_dec i 0) as [->|NZ].
        + cbn. rewrite N.add_0_r. split.
          * intros [H|H]; [congruence|]. apply in_combine_l in H. apply nseq_in in H. lia.
          * intros H. left. congruence.
        + replace (N.to_nat i) with (S (N.to_nat (i - 1))) by lia. cbn [nth_error]. rewrite <- (IH (i - 1) (z + 1)).
          replace (z + 1 + (i - 1)) with (z + i) by lia. cbn. split; [intros [H|H]; [|exact H]|auto].
          exfalso. assert (z = z + i) by congruence. lia. }
    specialize (G 0). rewrite N.add_0_l in G. exact G. }
  rewrite in_flat_map. split.
  - intros (t' & T' & W). apply upto_in in T'. unfold send_reference in W. apply in_map_iff in W as ((i, k') & E & W).
    cbn [fst snd] in E. injection E as <- <- <-. exists i. split; [reflexivity|]. split; [exact T'|]. apply NE. exact W.
  - intros (i & -> & T' & H). exists t. split; [apply upto_in; exact T'|]. unfold send_reference. apply in_map_iff.
    exists (i, k). split; [reflexivity|]. apply NE. exact H.
Qed.

(** The packet of P35: the first data cell. *)
Example C51_hypotheses_met : exists q os, transmitted small_class small_packet q os /\
  firstn 4 (sent (flat_map o_data os)) = [(0, Data 0); (1, DataConj true 4); (0, Data 4); (1, DataConj false 0)] /\
  firstn 4 (flat_map o_control os) =
    [(0, 2, Control 0); (1, 2, ControlConj true 1); (0, 3, Control 1); (1, 3, ControlConj false 0)] /\
  diversity (d_tm small_packet) = true /\ diversity 0 = false.
Proof.
  destruct C31_hypotheses_met as (q & os & T & _). exists q, os. split; [exact T|].
  pose proof (C51_symbols _ _ _ _ T) as E. apply transmitted_inv in T as (_ & _ & _ & -> & _). vm_compute. auto.
Qed.

Print Assumptions C51_symbols.
Print Assumptions C51_data_in_order.
Print Assumptions C51_data_diversity.
Print Assumptions C51_pair_streams.
Print Assumptions C51_control.
Print Assumptions C51_pairs_in_one_symbol.
Print Assumptions C51_reference.
