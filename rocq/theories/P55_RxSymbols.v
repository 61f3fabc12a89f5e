(** C62: a receiver takes every soft value of a packet from the cell it was sent in. *)
From Verif Require Import Base PacketSizes PacketSizesSpec PacketSizesFacts Cells TxCells CellsSpec CellsCheck CellsFacts TxFacts TxUseFacts
  RxSymbols RxSymbolsSpec RxSymbolsFacts RxReceiveFacts P35_Cells.
Open Scope N_scope.

(** A receiver made for bandwidths up to [b_max] and up to [M] streams is given the packet [d] of one spatial stream. *)
Definition offered (b_max M stride : N) (d : psdef) (q : packet_sizes) (k : comps) : Prop :=
  supported d /\ streams (d_tm d) = 1 /\ get_packet_sizes d = Ok (Some q) /\
  In b_max [1; 2; 4; 8; 12; 16] /\ In M [1; 2; 4; 8] /\ d_b d <= b_max /\ eff_antennas (d_tm d) <= M /\ 0 < stride /\
  comps_new b_max M = Ok k.
Definition received (b_max M stride : N) (lr : bool) (d : psdef) (q : packet_sizes) (s : rx) : Prop :=
  exists k, offered b_max M stride d q k /\ receive k M stride lr q = Ok s.
(** The receiver is not configured for reference cells on both sides, or there are fewer than eight streams, or the packet is
    too short for a second stage. *)
Definition right (lr : bool) (d : psdef) (q : packet_sizes) : Prop := lr = false \/ eff_antennas (d_tm d) <= 4 \/ q_N_DF_symb q < 22.

(** ** Lemmas *)
Lemma received_inv b_max M stride lr d q s : received b_max M stride lr d q s ->
  supported d /\ streams (d_tm d) = 1 /\ possible d /\ consistent d q /\ q_N_DF_symb q = symbols d - overhead (d_u d) /\
  control_end (d_b d) (eff_antennas (d_tm d)) < q_N_DF_symb q /\
  rx_control s = control_takes (d_b d) (eff_antennas (d_tm d)) /\
  rx_data s = data_takes (taken_for (eff_antennas (d_tm d)) lr (q_N_DF_symb q)) (d_b d) (eff_antennas (d_tm d)) (bits_per_cell (d_mcs d)) lr stride (q_N_DF_symb q) /\
  rx_heard s = q_N_DF_symb q + 1.
Proof.
  intros (k & (S0 & SS & Q & BM & M0 & BL & EL & S1 & K) & R).
  destruct (possible_dec d) as [P|P]; [|rewrite (sizes_impossible _ S0 P) in Q; discriminate].
  pose proof (sizes_consistent d q S0 P Q) as C. pose proof C as (_ & _ & C3 & _).
  pose proof (receive_exact d q k b_max M stride lr S0 SS Q K BM M0 BL EL S1) as X.
  destruct (N.leb_spec (q_N_DF_symb q) (control_end (d_b d) (eff_antennas (d_tm d)))) as [L|L]; [destruct X; congruence|].
  destruct X as (s' & R' & X1 & X2 & X3). assert (s' = s) as -> by congruence.
  repeat (split; [first [assumption|lia]|]). exact X3.
Qed.
Lemma flat_in {A} (X : N -> list A) m x : In x (flat_map X (nseq 1 (N.to_nat m))) <-> exists l, 1 <= l <= m /\ In x (X l).
Proof.
  rewrite in_flat_map. split; intros (l & L & H); exists l; (split; [|exact H]); [apply nseq_in in L|apply nseq_in]; lia.
Qed.
Lemma one_stream tm : tm <= 11 -> streams tm = 1 -> diversity tm = (2 <=? eff_antennas tm).
Proof. intros _ S. unfold diversity. rewrite S. reflexivity. Qed.
Lemma sent_once d l t k n : supported d -> streams (d_tm d) = 1 -> In (t, k, Data n) (o_data (symbol_of d l)) ->
  exists i, In (i, k) (number_from (data_before (d_b d) (eff_antennas (d_tm d)) l) (data (d_b d) (eff_antennas (d_tm d)) l)) /\
    n = i * bits_per_cell (d_mcs d) /\ In t (carriers (eff_antennas (d_tm d)) i).
Proof.
  intros S0 SS H. pose proof S0 as (_ & _ & _ & _ & T & _). pose proof (eff_cases _ T) as EC. cbn [symbol_of o_data] in H.
  apply in_flat_map in H as ((i & k') & I & W). unfold send_data in W. rewrite one_stream, SS in W by auto. unfold carriers.
  destruct (N.leb_spec 2 (eff_antennas (d_tm d))) as [L|L].
  - replace (eff_antennas (d_tm d) =? 1) with false by lia. destruct (stream_pair (eff_antennas (d_tm d)) (i / 2)) as (A, B0) eqn:SP.
    destruct W as [W|[W|[]]]; [|discriminate]. injection W as <- <- <-. exists i. rewrite SP. cbn; auto.
  - replace (eff_antennas (d_tm d) =? 1) with true by (cbn [In] in EC; lia). change (upto 1) with [0] in W. destruct W as [W|[]]. injection W as <- <- <-.
    exists i. split; [exact I|]. split; [lia|cbn; auto].
Qed.
Lemma control_once d l t k i : In (t, k, Control i) (o_control (symbol_of d l)) ->
  In (i, k) (number_from (98 - pending (d_b d) (eff_antennas (d_tm d)) l) (control (d_b d) (eff_antennas (d_tm d)) l)) /\ In t (carriers (eff_antennas (d_tm d)) i).
Proof.
  cbn [symbol_of o_control]. intros H. apply in_flat_map in H as ((j & k') & I & W). unfold send_control in W. unfold carriers.
  destruct (eff_antennas (d_tm d) =? 1).
  - destruct W as [W|[]]. injection W as <- <- <-. cbn; auto.
  - destruct (stream_pair (eff_antennas (d_tm d)) (j / 2)) as (A, B0) eqn:SP. destruct W as [W|[W|[]]]; [|discriminate]. injection W as <- <- <-. rewrite SP. cbn; auto.
Qed.
Lemma bits_of (X : N -> N * N -> take) (f : N -> N) (ks : N -> list N) (acc : N -> N) l :
  (forall l ik, k_bit (X l ik) = f (fst ik)) -> acc 1 = 0 -> (forall l, 1 <= l -> acc (l + 1) = acc l + len (ks l)) -> 1 <= l ->
  map k_bit (flat_map (fun l => map (X l) (number_from (acc l) (ks l))) (nseq 1 (N.to_nat (l - 1)))) = map f (upto (acc l)).
Proof.
  intros HX A1 AS. revert l. apply N_ind1; [rewrite A1; reflexivity|]. intros l L IH.
  replace (N.to_nat (l + 1 - 1)) with (S (N.to_nat (l - 1))) by lia. rewrite nseq_snoc, flat_map_app, map_app, IH, AS by exact L.
  cbn [flat_map]. rewrite app_nil_r. replace (1 + N.of_nat (N.to_nat (l - 1))) with l by lia. rewrite map_map.
  rewrite (map_ext _ (fun ik => f (fst ik))) by (intros; apply HX). rewrite <- (map_map fst f), number_fst.
  unfold upto, len. rewrite N2Nat.inj_add, Nat2N.id, nseq_app, map_app. do 3 f_equal. lia.
Qed.
Lemma data_bits b e bps lr stride df from l : 1 <= l ->
  map k_bit (flat_map (fun l => map (data_take e bps lr stride df (from l) l) (number_from (data_before b e l) (data b e l))) (nseq 1 (N.to_nat (l - 1)))) =
  map (fun i => i * bps) (upto (data_before b e l)).
Proof.
  intros L. apply (bits_of (fun l => data_take e bps lr stride df (from l) l) (fun i => i * bps) (data b e) (data_before b e)); auto.
  intros. apply before_next. assumption.
Qed.
Lemma bits_nodup bps n : 0 < bps -> NoDup (map (fun i => i * bps) (upto n)).
Proof.
  intros H. apply FinFun.Injective_map_NoDup; [|apply nseq_nodup]. intros x y E. apply N.mul_cancel_r in E; lia.
Qed.
Lemma bps_pos mcs : mcs <= 11 -> 0 < bits_per_cell mcs.
Proof. intros H. apply upto_11 in H. cbn [In] in H. repeat destruct H as [<-|H]; try contradiction H; reflexivity. Qed.
Lemma nodup_map_inj {A} (f : A -> N) l x y : NoDup (map f l) -> In x l -> In y l -> f x = f y -> x = y.
Proof.
  induction l as [|a l IH]; intros ND X Y E; [destruct X|]. cbn in ND. apply NoDup_cons_iff in ND as (N1 & N2).
  destruct X as [->|X], Y as [->|Y]; auto; exfalso; apply N1; [rewrite E|rewrite <- E]; apply in_map; assumption.
Qed.
Lemma right_taken lr d q l : right lr d q -> taken_for (eff_antennas (d_tm d)) lr (q_N_DF_symb q) l = l.
Proof.
  intros R. unfold taken_for. destruct lr; [|reflexivity]. cbn [andb]. destruct (N.eqb_spec (eff_antennas (d_tm d)) 8) as [E|]; [|reflexivity].
  destruct R as [R|[R|R]]; [discriminate|lia|]. cbn [andb]. rewrite E. unfold full, spacing. change (8 =? 8) with true. change (8 <=? 2) with false. cbv iota.
  destruct (N.leb_spec 12 l); [|reflexivity]. replace (l <=? 1 + (q_N_DF_symb q - 2) / 10 * 10) with false by lia. reflexivity.
Qed.

(** ** Reception *)
(** Reception of a packet that exists goes through all its symbols without reading or writing out of bounds, and all counts
    agree with the announced sizes; it is given up exactly if the control field ends in the last symbol. *)
Theorem C62_reception : forall b_max M stride lr d q k, offered b_max M stride d q k ->
  match receive k M stride lr q with
  | Ok s => control_end (d_b d) (eff_antennas (d_tm d)) < q_N_DF_symb q /\ rx_heard s = q_N_DF_symb q + 1
  | Abort => control_end (d_b d) (eff_antennas (d_tm d)) = q_N_DF_symb q
  | _ => False
  end.
Proof.
  intros b_max M stride lr d q k (S0 & SS & Q & BM & M0 & BL & EL & S1 & K).
  pose proof (receive_exact d q k b_max M stride lr S0 SS Q K BM M0 BL EL S1) as X.
  destruct (N.leb_spec (q_N_DF_symb q) (control_end (d_b d) (eff_antennas (d_tm d)))) as [L|L].
  - destruct X as (X & ->). congruence.
  - destruct X as (s & -> & _ & _ & H). auto.
Qed.

(** Exactly which soft values are computed, from what and with which estimates. *)
Theorem C62_exact : forall b_max M stride lr d q s, received b_max M stride lr d q s ->
  rx_control s = control_takes (d_b d) (eff_antennas (d_tm d)) /\
  rx_data s = data_takes (taken_for (eff_antennas (d_tm d)) lr (q_N_DF_symb q)) (d_b d) (eff_antennas (d_tm d))
                (bits_per_cell (d_mcs d)) lr stride (q_N_DF_symb q).
Proof. intros b_max M stride lr d q s R. apply received_inv in R. tauto. Qed.

(** Every control symbol a sender puts in a cell is taken from this cell of this symbol, with an estimate of the stream that
    carries it, and each of the 98 is taken once, in order. *)
Theorem C62_control : forall b_max M stride lr c d q os s, transmitted c d q os -> received b_max M stride lr d q s ->
  map k_bit (rx_control s) = map (fun i => i * 2) (upto 98) /\
  forall o t k i, In o os -> In (t, k, Control i) (o_control o) ->
    exists x, In x (rx_control s) /\ k_symbol x = Some (o_l o) /\ k_cell x = k /\ k_bit x = i * 2 /\ In t (map fst (k_with x)).
Proof.
  intros b_max M stride lr c d q os s T R. apply received_inv in R as (S0 & SS & P & _ & DF & CE & C & _). apply transmitted_inv in T as (_ & _ & _ & -> & _).
  pose proof S0 as (_ & B & _ & _ & TM & _). pose proof (eff_cases _ TM) as EC.
  destruct (end_values _ _ B EC) as (V & _). rewrite C. unfold control_takes. split.
  - pose proof (bits_of (fun l => control_take (eff_antennas (d_tm d)) l) (fun i => i * 2) (control (d_b d) (eff_antennas (d_tm d)))
      (fun l => 98 - pending (d_b d) (eff_antennas (d_tm d)) l) (control_end (d_b d) (eff_antennas (d_tm d)) + 1)) as X. cbv beta in X. rewrite V in X.
    replace (control_end (d_b d) (eff_antennas (d_tm d)) + 1 - 1) with (control_end (d_b d) (eff_antennas (d_tm d))) in X by lia.
    apply X; auto; [|lia]. intros l L. pose proof (f_control _ _ _ (facts_all _ _ l B EC L)) as F.
    assert (pending (d_b d) (eff_antennas (d_tm d)) l <= 98) by (unfold pending; lia). lia.
  - intros o t k i O W. apply in_map_iff in O as (l & <- & L). apply nseq_in in L. apply control_once in W as (I & CA).
    exists (control_take (eff_antennas (d_tm d)) l (i, k)). split.
    + apply flat_in. exists l. split; [|apply in_map; exact I]. split; [lia|].
      destruct (N.le_gt_cases l (control_end (d_b d) (eff_antennas (d_tm d)))) as [|G]; [assumption|]. exfalso.
      destruct (control_after _ _ l B EC ltac:(lia)) as (CN & _). rewrite CN in I. destruct I.
    + cbn [control_take k_symbol k_cell k_bit k_with fst snd symbol_of o_l]. rewrite map_map. cbn [fst]. rewrite map_id. auto.
Qed.

(** The same for the data cells, and each of the announced soft values is taken once, in order. *)
Theorem C62_data : forall b_max M stride lr c d q os s, transmitted c d q os -> received b_max M stride lr d q s -> right lr d q ->
  map k_bit (rx_data s) = map (fun i => i * bits_per_cell (d_mcs d)) (upto (q_N_PDC_subc q)) /\
  forall o t k n, In o os -> In (t, k, Data n) (o_data o) ->
    exists x, In x (rx_data s) /\ k_symbol x = Some (o_l o) /\ k_cell x = k /\ k_bit x = n /\ In t (map fst (k_with x)).
Proof.
  intros b_max M stride lr c d q os s T R RI. apply received_inv in R as (S0 & SS & P & CO & DF & CE & _ & D & _). apply transmitted_inv in T as (_ & _ & _ & -> & _).
  rewrite D. unfold data_takes. rewrite <- DF. split.
  - pose proof (data_bits (d_b d) (eff_antennas (d_tm d)) (bits_per_cell (d_mcs d)) lr stride (q_N_DF_symb q)
      (taken_for (eff_antennas (d_tm d)) lr (q_N_DF_symb q)) (q_N_DF_symb q + 1) ltac:(lia)) as X.
    replace (q_N_DF_symb q + 1 - 1) with (q_N_DF_symb q) in X by lia. rewrite X. destruct (before_total d S0 P) as (_ & BT & _). rewrite <- DF in BT. rewrite BT.
    destruct CO as (_ & _ & _ & C4 & C5 & _). unfold data_cells. rewrite <- DF, C5, C4. do 2 f_equal. lia.
  - intros o t k n O W. apply in_map_iff in O as (l & <- & L). apply nseq_in in L. apply sent_once in W as (i & I & -> & CA); auto.
    exists (data_take (eff_antennas (d_tm d)) (bits_per_cell (d_mcs d)) lr stride (q_N_DF_symb q) (taken_for (eff_antennas (d_tm d)) lr (q_N_DF_symb q) l) l (i, k)).
    split; [apply flat_in; exists l; split; [lia|apply in_map; exact I]|].
    cbn [data_take k_symbol k_cell k_bit k_with fst snd symbol_of o_l]. rewrite map_map. cbn [fst]. rewrite map_id, right_taken by exact RI. auto.
Qed.

(** ** Estimates *)
(** Control cells are equalized with the latest reference cells of the stream, received in the same or an earlier symbol. *)
Definition latest_before (e t l r : N) : Prop := 1 <= r <= l /\ active e t r = true /\ forall m, r < m <= l -> active e t m = false.
Lemma ref_active e t n : e <= 2 \/ 2 < e -> active e t (ref_symbol e t n) = true.
Proof.
  intros _. unfold active, ref_symbol. replace (first_symbol t <=? first_symbol t + n * spacing e) with true by lia. cbn [andb].
  unfold spacing. destruct (e <=? 2); lia.
Qed.
Lemma one_sided_latest e t l : first_symbol t <= l ->
  exists r, e_from (one_sided e t l) = [Some r] /\ e_both (one_sided e t l) = false /\ latest_before e t l r.
Proof.
  intros F. unfold one_sided. cbn [e_from e_both]. eexists. split; [reflexivity|]. split; [reflexivity|]. split; [|split; [apply ref_active; lia|]].
  - unfold ref_symbol, spacing, first_symbol in *. destruct (e <=? 2), (t <? 4); lia.
  - intros m Hm. unfold active. unfold ref_symbol, spacing, first_symbol in *. destruct (e <=? 2), (t <? 4);
      match goal with |- ?a && ?c = false => destruct c eqn:X; [|apply andb_false_r] end; lia.
Qed.
Lemma carriers_lt e i t : In e [1; 2; 4; 8] -> In t (carriers e i) -> t < e.
Proof.
  intros E0 H. unfold carriers in H. destruct (N.eqb_spec e 1) as [->|].
  - destruct H as [<-|[]]. lia.
  - assert (E0' : In e [2; 4; 8]) by (destruct E0; [congruence|assumption]). pose proof (pair_streams e (i / 2) E0') as PS.
    destruct (stream_pair e (i / 2)) as (A, B). destruct PS as (A1 & B1 & _). destruct H as [<-|[<-|[]]]; assumption.
Qed.
Lemma cells_start b e l t : In b [1; 2; 4; 8; 12; 16] -> In e [1; 2; 4; 8] -> 1 <= l -> control b e l <> [] \/ data b e l <> [] -> t < e -> first_symbol t <= l.
Proof.
  intros B E0 L H T. unfold first_symbol. destruct (N.ltb_spec t 4); [exact L|].
  assert (e = 8) as E by (cbn [In] in E0; lia). destruct (N.le_gt_cases 2 l) as [|L1]; [assumption|]. assert (l = 1) as -> by lia. exfalso.
  pose proof (facts_all b e 1 B E0 ltac:(lia)) as F. pose proof (f_free _ _ _ F) as F1. pose proof (f_parts _ _ _ F) as F2.
  assert (AC : len (active_streams e 1) = 4) by (rewrite E; reflexivity). rewrite AC in F1.
  assert (L0 : forall x : list N, x <> [] -> 0 < len x) by (intros [|? x] Hx; [congruence|unfold len; cbn [length]; lia]).
  destruct H as [H|H]; apply L0 in H; lia.
Qed.
Theorem C62_control_estimates : forall b_max M stride lr d q s x l t w, received b_max M stride lr d q s ->
  In x (rx_control s) -> k_symbol x = Some l -> In (t, w) (k_with x) ->
  exists E r, w = Some E /\ e_from E = [Some r] /\ e_both E = false /\ latest_before (eff_antennas (d_tm d)) t l r.
Proof.
  intros b_max M stride lr d q s x l t w R X SY W. apply received_inv in R as (S0 & _ & _ & _ & _ & _ & C & _). rewrite C in X.
  pose proof S0 as (_ & B & _ & _ & TM & _). pose proof (eff_cases _ TM) as EC.
  apply flat_in in X as (l' & L & X). apply in_map_iff in X as ((i, k) & <- & I). cbn [control_take k_symbol k_with fst snd] in *. injection SY as ->.
  apply in_map_iff in W as (t' & W & CA). injection W as -> <-.
  destruct (one_sided_latest (eff_antennas (d_tm d)) t l) as (r & R1 & R2 & R3).
  - apply (cells_start (d_b d) (eff_antennas (d_tm d))); auto; [lia| |eapply carriers_lt; eauto]. left. intros Z. rewrite Z in I. destruct I.
  - exists (one_sided (eff_antennas (d_tm d)) t l), r. auto.
Qed.
(** So are data cells unless the receiver is configured for both sides and there is room for a stage. *)
Theorem C62_one_sided_estimates : forall b_max M stride lr d q s x l t w, received b_max M stride lr d q s ->
  lr = false \/ full (eff_antennas (d_tm d)) (q_N_DF_symb q) = 0 ->
  In x (rx_data s) -> k_symbol x = Some l -> In (t, w) (k_with x) ->
  exists E r, w = Some E /\ e_from E = [Some r] /\ e_both E = false /\ latest_before (eff_antennas (d_tm d)) t l r.
Proof.
  intros b_max M stride lr d q s x l t w R ON X SY W. apply received_inv in R as (S0 & _ & _ & _ & _ & _ & _ & D & _). rewrite D in X.
  pose proof S0 as (_ & B & _ & _ & TM & _). pose proof (eff_cases _ TM) as EC.
  apply flat_in in X as (l' & L & X). apply in_map_iff in X as ((i, k) & <- & I). cbn [data_take k_symbol k_with fst snd] in *.
  assert (TK : taken_for (eff_antennas (d_tm d)) lr (q_N_DF_symb q) l' = l').
  { unfold taken_for. destruct ON as [-> | ->]; [reflexivity|]. destruct (N.leb_spec 12 l'), (N.leb_spec l' (1 + 0 * 10)); rewrite ?andb_false_r; try reflexivity; lia. }
  rewrite TK in SY. injection SY as ->. apply in_map_iff in W as (t' & W & CA). injection W as -> <-.
  replace (estimate (eff_antennas (d_tm d)) lr stride (q_N_DF_symb q) t l) with (one_sided (eff_antennas (d_tm d)) t l)
    by (unfold estimate; destruct ON as [-> | ->]; [reflexivity|change (0 <? 0) with false; rewrite andb_false_r; reflexivity]).
  destruct (one_sided_latest (eff_antennas (d_tm d)) t l) as (r & R1 & R2 & R3).
  - apply (cells_start (d_b d) (eff_antennas (d_tm d))); auto; [lia| |eapply carriers_lt; eauto]. right. intros Z. rewrite Z in I. destruct I.
  - exists (one_sided (eff_antennas (d_tm d)) t l), r. auto.
Qed.
(** Otherwise they are equalized with consecutive reference symbols of the stream on both sides, or the last two before them if
    no later ones complete a stage. *)
Theorem C62_two_sided_estimates : forall b_max M stride d q s x l t w, received b_max M stride true d q s -> right true d q ->
  0 < full (eff_antennas (d_tm d)) (q_N_DF_symb q) ->
  In x (rx_data s) -> k_symbol x = Some l -> In (t, w) (k_with x) ->
  exists E r r', w = Some E /\ e_both E = true /\ (e_from E = [Some r; Some r'] \/ e_from E = [Some r'; Some r]) /\
    r' = r + spacing (eff_antennas (d_tm d)) /\ 1 <= r /\ r' <= q_N_DF_symb q /\
    active (eff_antennas (d_tm d)) t r = true /\ active (eff_antennas (d_tm d)) t r' = true /\
    (r <= l <= r' \/ r' < l /\ 1 + full (eff_antennas (d_tm d)) (q_N_DF_symb q) * spacing (eff_antennas (d_tm d)) < l).
Proof.
  intros b_max M stride d q s x l t w R RI FU X SY W. apply received_inv in R as (S0 & _ & _ & _ & _ & CE & _ & D & _). rewrite D in X.
  pose proof S0 as (_ & B & _ & _ & TM & _). pose proof (eff_cases _ TM) as EC.
  apply flat_in in X as (l' & L & X). apply in_map_iff in X as ((i, k) & <- & I). cbn [data_take k_symbol k_with fst snd] in *.
  rewrite right_taken in SY by exact RI. injection SY as ->. apply in_map_iff in W as (t' & W & CA). injection W as -> <-.
  pose proof (carriers_lt _ _ _ EC CA) as TL.
  assert (NE : data (d_b d) (eff_antennas (d_tm d)) l <> []) by (intros Z; rewrite Z in I; destruct I).
  pose proof (cells_start _ _ l t B EC (proj1 L) (or_intror NE) TL) as FS.
  assert (E8 : eff_antennas (d_tm d) = 8 -> l mod 10 <> 1 /\ l mod 10 <> 2).
  { intros E8. pose proof (facts_all _ _ l B EC ltac:(lia)) as F. pose proof (f_free _ _ _ F) as F1. pose proof (f_parts _ _ _ F) as F2.
    rewrite active_count in F1 by (auto; lia). rewrite E8 in *. change (8 <=? 2) with false in F1. change (8 =? 4) with false in F1. cbv iota in F1.
    assert (L0 : 0 < len (data (d_b d) 8 l)) by (destruct (data (d_b d) 8 l); [congruence|unfold len; cbn [length]; lia]).
    destruct (N.eqb_spec ((l - 1) mod 10) 0), (N.eqb_spec ((l - 1) mod 10) 1); lia. }
  unfold estimate. cbn [andb]. replace (0 <? full (eff_antennas (d_tm d)) (q_N_DF_symb q)) with true by lia.
  unfold two_sided. set (l0 := N.min l _). set (p := stage_of (eff_antennas (d_tm d)) l0).
  eexists _, (ref_symbol (eff_antennas (d_tm d)) t p), (ref_symbol (eff_antennas (d_tm d)) t (p + 1)). split; [reflexivity|]. cbn [e_both e_from]. split; [reflexivity|].
  split; [destruct (_ =? 0); auto|]. split; [unfold ref_symbol; lia|].
  assert (C8 : eff_antennas (d_tm d) = 8 -> 3 <= control_end (d_b d) (eff_antennas (d_tm d))) by (apply end_values; auto).
  assert (F4 : 4 <= t -> eff_antennas (d_tm d) = 8) by (clear - EC TL; cbn [In] in EC; lia).
  assert (R3 : 1 <= ref_symbol (eff_antennas (d_tm d)) t p) by (unfold ref_symbol, first_symbol; destruct (t <? 4); lia).
  assert (R4 : ref_symbol (eff_antennas (d_tm d)) t (p + 1) <= q_N_DF_symb q /\
    (ref_symbol (eff_antennas (d_tm d)) t p <= l <= ref_symbol (eff_antennas (d_tm d)) t (p + 1) \/
     ref_symbol (eff_antennas (d_tm d)) t (p + 1) < l /\ 1 + full (eff_antennas (d_tm d)) (q_N_DF_symb q) * spacing (eff_antennas (d_tm d)) < l)).
  { clear - EC FS FU L F4 E8 C8 CE. unfold p, l0, ref_symbol, stage_of, full in *. unfold first_symbol, spacing in *. set (df := q_N_DF_symb q) in *. clearbody df.
    set (e := eff_antennas (d_tm d)) in *. clearbody e. clearbody p.
    destruct (N.eqb_spec e 8), (N.leb_spec e 2), (N.ltb_spec t 4); try lia. }
  split; [exact R3|]. split; [apply R4|]. split; [apply ref_active; lia|]. split; [apply ref_active; lia|]. apply R4.
Qed.

(** ** Refuted *)
(** With eight streams and estimates from both sides, the data cells of every stage but the first are taken from the symbol
    after the one they were sent in. Nothing else is taken for them. *)
Theorem C62_eight_streams_refuted : forall b_max M stride c d q os s, transmitted c d q os -> received b_max M stride true d q s ->
  ~ right true d q ->
  (exists o t k n, In o os /\ o_l o = 13 /\ In (t, k, Data n) (o_data o)) /\
  forall o t k n, In o os -> 12 <= o_l o <= 1 + full 8 (q_N_DF_symb q) * 10 -> In (t, k, Data n) (o_data o) ->
    exists x, In x (rx_data s) /\ k_symbol x = Some (o_l o + 1) /\ k_cell x = k /\ k_bit x = n /\
      forall y, In y (rx_data s) -> k_bit y = n -> y = x.
Proof.
  intros b_max M stride c d q os s T R RI. apply received_inv in R as (S0 & SS & P & CO & DF & CE & _ & D & _). apply transmitted_inv in T as (_ & _ & _ & -> & _).
  pose proof S0 as (_ & B & _ & _ & TM & MC & _). pose proof (eff_cases _ TM) as EC.
  assert (E8 : eff_antennas (d_tm d) = 8) by (unfold right in RI; cbn [In] in EC; lia). assert (D22 : 22 <= q_N_DF_symb q) by (unfold right in RI; lia).
  rewrite <- DF. split.
  - pose proof (facts_all _ _ 13 B EC ltac:(lia)) as F. pose proof (f_free _ _ _ F) as F1. pose proof (f_parts _ _ _ F) as F2. pose proof (f_control _ _ _ F) as F3.
    rewrite active_count in F1 by (auto; lia). rewrite E8 in *. change ((if 8 <=? 2 then _ else _)) with 0 in F1.
    destruct (control_after (d_b d) 8 13 B EC) as (C1 & _); [pose proof (end_range (d_b d) 8); lia|]. rewrite C1 in F2. change (len (@nil N)) with 0 in F2.
    destruct (number_has (data_before (d_b d) 8 13) (data (d_b d) 8 13) (data_before (d_b d) 8 13)) as (k & K); [cbn [In] in B; lia|].
    destruct (stream_pair 8 (data_before (d_b d) 8 13 / 2)) as (A, A') eqn:SP.
    exists (symbol_of d 13), A, k, (data_before (d_b d) 8 13 * bits_per_cell (d_mcs d)). split; [apply in_map; apply nseq_in; lia|]. split; [reflexivity|].
    cbn [symbol_of o_data]. apply in_flat_map. rewrite E8. exists (data_before (d_b d) 8 13, k). split; [exact K|]. unfold send_data. rewrite one_stream, E8 by auto.
    change (2 <=? 8) with true. rewrite SP. cbn; auto.
  - intros o t k n O L W. apply in_map_iff in O as (l & <- & LL). apply nseq_in in LL. cbn [symbol_of o_l] in *. apply sent_once in W as (i & I & -> & CA); auto.
    set (from := taken_for (eff_antennas (d_tm d)) true (q_N_DF_symb q)) in *.
    set (x := data_take (eff_antennas (d_tm d)) (bits_per_cell (d_mcs d)) true stride (q_N_DF_symb q) (from l) l (i, k)).
    assert (IX : In x (rx_data s)) by (rewrite D; apply flat_in; exists l; split; [lia|apply in_map; exact I]).
    exists x. split; [exact IX|]. split.
    { cbn [x data_take k_symbol]. unfold from, taken_for. rewrite E8. change (8 =? 8) with true. cbn [andb].
      replace (12 <=? l) with true by lia. replace (l <=? _) with true by lia. reflexivity. }
    split; [reflexivity|]. split; [reflexivity|]. intros y Y BY. apply (nodup_map_inj k_bit (rx_data s)); auto.
    rewrite D. pose proof (data_bits (d_b d) (eff_antennas (d_tm d)) (bits_per_cell (d_mcs d)) true stride (q_N_DF_symb q) from (q_N_DF_symb q + 1) ltac:(lia)) as X.
    replace (q_N_DF_symb q + 1 - 1) with (q_N_DF_symb q) in X by lia. unfold data_takes. rewrite X. apply bits_nodup. apply bps_pos. exact MC.
Qed.

(** A packet whose control field ends in its last symbol can be sent, and has data, but a receiver gives up with a failed assertion,
    however it is configured. *)
Definition tiny_class : rdc := mkRdc 2 2 1 1 2048 1.
Definition tiny_packet : psdef := mkPsdef 2 2 0 1 0 1 2048.
Lemma tiny_sent : exists q os, transmitted tiny_class tiny_packet q os /\ q_N_DF_symb q = 2 /\ q_N_PDC_subc q = 98.
Proof.
  eexists _, _. split; [|split].
  - split; [apply PacketSizesMaxFacts.class_checked; vm_compute; reflexivity|]. split.
    + unfold within, supported, tiny_class, tiny_packet. cbn [d_u d_b d_type d_length d_tm d_mcs d_Z In r_u r_b r_mcs r_Z r_PacketLength r_N_TX].
      change (eff_antennas 0) with 1. lia.
    + split; [vm_compute; reflexivity|]. eexists _, _. split; [vm_compute; reflexivity|]. split; [vm_compute; reflexivity|].
      vm_compute; reflexivity.
  - vm_compute. reflexivity.
  - vm_compute. reflexivity.
Qed.
Theorem C62_short_packet_refuted : exists c d q os, transmitted c d q os /\ 0 < q_N_PDC_subc q /\
  forall b_max M stride lr k, offered b_max M stride d q k -> receive k M stride lr q = Abort.
Proof.
  destruct tiny_sent as (q & os & T & D & P). exists tiny_class, tiny_packet, q, os. split; [exact T|]. split; [rewrite P; reflexivity|].
  intros b_max M stride lr k O. pose proof (C62_reception b_max M stride lr tiny_packet q k O) as X. rewrite D in X.
  replace (control_end (d_b tiny_packet) (eff_antennas (d_tm tiny_packet))) with 2 in X by (vm_compute; reflexivity).
  destruct (receive k M stride lr q); try contradiction; [lia|reflexivity].
Qed.

(** ** Concrete cases *)
Lemma offered_by b_max M stride d q : supported d -> streams (d_tm d) = 1 -> get_packet_sizes d = Ok (Some q) ->
  In b_max [1; 2; 4; 8; 12; 16] -> In M [1; 2; 4; 8] -> d_b d <= b_max -> eff_antennas (d_tm d) <= M -> 0 < stride ->
  exists k, offered b_max M stride d q k.
Proof.
  intros S0 SS Q BM M0 BL EL S1. destruct (comps_built b_max M BM M0) as (k & K & _). exists k. unfold offered. auto 10.
Qed.
Lemma received_by b_max M stride lr d q : (exists k, offered b_max M stride d q k) -> control_end (d_b d) (eff_antennas (d_tm d)) < q_N_DF_symb q ->
  exists s, received b_max M stride lr d q s.
Proof.
  intros (k & O) L. pose proof (C62_reception b_max M stride lr d q k O) as X. destruct (receive k M stride lr q) as [s| | |] eqn:R; try contradiction.
  - exists s, k. auto.
  - lia.
Qed.
(** A slot over two antennas, received by a larger device with estimates from both sides: control takes three symbols, there is one stage of six. *)
Example C62_hypotheses_met : exists q os s, transmitted small_class small_packet q os /\ received 4 8 3 true small_packet q s /\
  right true small_packet q /\ full (eff_antennas (d_tm small_packet)) (q_N_DF_symb q) = 1 /\
  control_end (d_b small_packet) (eff_antennas (d_tm small_packet)) = 3.
Proof.
  destruct C31_hypotheses_met as (q & os & T & _). pose proof T as (_ & (S0 & _) & Q & _).
  assert (DF : q_N_DF_symb q = 8).
  { destruct (transmitted_inv _ _ _ _ T) as (_ & _ & _ & _ & ->). vm_compute. reflexivity. }
  destruct (received_by 4 8 3 true small_packet q) as (s & R).
  - apply offered_by; auto; try reflexivity; try (cbn [In]; tauto); vm_compute; discriminate.
  - rewrite DF. vm_compute. reflexivity.
  - exists q, os, s. split; [exact T|]. split; [exact R|]. split; [right; left; vm_compute; discriminate|]. rewrite DF. split; vm_compute; reflexivity.
Qed.
(** A packet of 25 symbols over eight antennas: two stages. *)
Definition eight_class : rdc := mkRdc 1 1 8 1 2048 5.
Definition eight_packet : psdef := mkPsdef 1 1 0 5 10 1 2048.
Example C62_eight_hypotheses_met : exists q os s, transmitted eight_class eight_packet q os /\ received 1 8 1 true eight_packet q s /\
  ~ right true eight_packet q.
Proof.
  assert (HC : class_ok eight_class) by (apply PacketSizesMaxFacts.class_checked; vm_compute; reflexivity).
  assert (M : exists m, get_maximum_packet_sizes eight_class = Ok m) by (eexists; vm_compute; reflexivity). destruct M as (m & M).
  assert (W : within eight_class eight_packet).
  { unfold within, supported, eight_class, eight_packet. cbn [d_u d_b d_type d_length d_tm d_mcs d_Z In r_u r_b r_mcs r_Z r_PacketLength r_N_TX].
    change (eff_antennas 10) with 8. lia. }
  assert (Q : exists q, get_packet_sizes eight_packet = Ok (Some q) /\ q_N_DF_symb q = 23) by (eexists; split; vm_compute; reflexivity). destruct Q as (q & Q & DF).
  pose proof (transmit_exact _ _ HC M) as X. change (r_mcs eight_class <=? 9) with true in X. destruct X as (k & K & X). specialize (X _ _ W Q).
  change (antennas (d_tm eight_packet) <=? r_N_TX eight_class) with true in X.
  destruct (received_by 1 8 1 true eight_packet q) as (s & R).
  - clear - W Q. apply offered_by; [apply W|reflexivity|exact Q|cbn [In]; tauto|cbn [In]; tauto|vm_compute; discriminate|vm_compute; discriminate|reflexivity].
  - rewrite DF. pose proof (end_range (d_b eight_packet) (eff_antennas (d_tm eight_packet))). lia.
  - eexists q, _, s. split; [|split; [exact R|]].
    + split; [exact HC|]. split; [exact W|]. split; [exact Q|]. exists m, k. split; [exact M|]. split; [exact K|exact X].
    + unfold right. rewrite DF. change (eff_antennas (d_tm eight_packet)) with 8. intros [H|[H|H]]; [discriminate|lia|lia].
Qed.

Print Assumptions C62_reception.
Print Assumptions C62_exact.
Print Assumptions C62_control.
Print Assumptions C62_data.
Print Assumptions C62_control_estimates.
Print Assumptions C62_one_sided_estimates.
Print Assumptions C62_two_sided_estimates.
Print Assumptions C62_eight_streams_refuted.
Print Assumptions C62_short_packet_refuted.
