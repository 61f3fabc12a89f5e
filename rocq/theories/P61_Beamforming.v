(** C68: the antenna mapper and the codebook. *)
From Verif Require Import Base PacketSizes Beamforming BeamformingSpec BeamformingFacts.
From Coq Require Import ZArith Lia.
Open Scope nat_scope.

Lemma offset_eq dft_os dft occ : dft mod 2 = 0 -> occ mod 2 = 0 -> (dft_os - dft) mod 2 = 0 -> occ + 2 <= dft -> dft <= dft_os ->
  offset_lower_half dft_os dft (guards_bottom dft occ) = dft_os - occ / 2.
Proof. unfold offset_lower_half, guards_bottom. intros. lia. Qed.
(** The sizes of every bandwidth and every even oversampling. *)
Definition sizes_ok (dft_os dft occ : nat) : Prop := dft mod 2 = 0 /\ occ mod 2 = 0 /\ (dft_os - dft) mod 2 = 0 /\ occ + 2 <= dft /\ dft <= dft_os.
Theorem C68_sizes : forall b dft_os, In b [1; 2; 4; 8; 12; 16] -> 64 * b <= dft_os -> (dft_os - 64 * b) mod 2 = 0 -> sizes_ok dft_os (64 * b) (56 * b).
Proof.
  intros b dft_os B L M. unfold sizes_ok. assert (1 <= b) by (cbn in B; lia). split; [lia|]. split; [lia|]. split; [exact M|]. lia.
Qed.

Section Mapper.
  Variables (C : Type) (z : C) (add : C -> C -> C) (mulw : weight -> C -> C).
  Variables (n_ts n_tx dft_os dft occ : nat) (wmat : list weight).
  Hypotheses (Hw : length wmat = n_ts * n_tx) (Hs : sizes_ok dft_os dft occ).
  Let off := offset_lower_half dft_os dft (guards_bottom dft occ).
  Variables (n : nat) (tss : list (list C)).
  Hypotheses (Hn : n <= n_ts) (Lt : length tss = n_ts) (Ht : forall i, i < n_ts -> length (nth i tss []) = occ + 1).
  (** The stages are zero, as run_zero_stages leaves them. *)
  Let zeros := repeat (repeat z dft_os) n_tx.

  Lemma mapped : exists ants, run_beamforming C add mulw n_ts n_tx occ off wmat n tss zeros =
      Ok (ants, flat_map (fun i => products n_ts wmat i (seq 0 n_tx)) (seq 0 n)) /\
    length ants = n_tx /\ (forall a, a < n_tx -> length (nth a ants []) = dft_os) /\
    forall a p, a < n_tx -> p < dft_os -> nth p (nth a ants []) z =
      fold_left (fun x i => step_at C z add mulw occ off (entry wmat n_ts a i) (nth i tss []) p x) (seq 0 n) z.
  Proof using Hw Hs Hn Lt Ht.
    destruct Hs as (S1 & S2 & S3 & S4 & S5). pose proof (offset_eq _ _ _ S1 S2 S3 S4 S5) as E. fold off in E.
    assert (H2 : occ / 2 + occ / 2 = occ) by (clear - S2; lia).
    destruct (streams_ok C z add mulw n_ts n_tx occ off dft_os wmat Hw ltac:(clear - E S4 S5 H2; lia) ltac:(clear - E S4 S5 H2; lia) S2 tss n 0 zeros []) as (ants & R & L & D & V).
    - exact Hn.
    - cbn. rewrite Lt. exact Hn.
    - intros k K. apply Ht. cbn in K. clear - K Hn. lia.
    - apply repeat_length.
    - intros a A. unfold zeros. rewrite (nth_indep _ [] (repeat z dft_os)) by (rewrite repeat_length; exact A). rewrite nth_repeat. apply repeat_length.
    - exists ants. split; [exact R|]. split; [exact L|]. split; [exact D|]. intros a p A P. rewrite (V a p A). f_equal.
      unfold zeros. rewrite (nth_indep _ [] (repeat z dft_os)) by (rewrite repeat_length; exact A). rewrite !nth_repeat. reflexivity.
  Qed.

  (** For every matrix, all numbers of streams and antennas and all samples: each antenna gets, at the bin of each subcarrier, the superposition of the
      streams weighted with its row of the matrix, every non-zero weight once; all other bins stay zero; the assertion that every antenna was processed holds.
      No law of addition and multiplication is used: the result is exact for floating point numbers, in the order of the streams. *)
  Theorem C68_mapping : exists ants ps, run_beamforming C add mulw n_ts n_tx occ off wmat n tss zeros = Ok (ants, ps) /\ length ants = n_tx /\
    forall a, a < n_tx -> length (nth a ants []) = dft_os /\
      (forall k, subcarrier occ k ->
        nth (bin dft_os k) (nth a ants []) z = superpose add mulw (entry wmat n_ts a) (fun i => nth (position occ k) (nth i tss []) z) n z) /\
      (forall p, p < dft_os -> (forall k, subcarrier occ k -> bin dft_os k <> p) -> nth p (nth a ants []) z = z).
  Proof using Hw Hs Hn Lt Ht.
    destruct mapped as (ants & R & L & D & V). exists ants. eexists. split; [exact R|]. split; [exact L|]. intros a A. split; [exact (D a A)|].
    destruct Hs as (S1 & S2 & S3 & S4 & S5). pose proof (offset_eq _ _ _ S1 S2 S3 S4 S5) as E. fold off in E.
    assert (H2 : occ / 2 + occ / 2 = occ) by (clear - S2; lia). set (h := occ / 2) in *.
    assert (SP : forall k, subcarrier occ k -> bin dft_os k < dft_os /\ src_pos occ off (bin dft_os k) = Some (position occ k) /\ position occ k < occ + 1).
    { intros k K. unfold subcarrier in K. unfold position, src_pos. fold h in K |- *. unfold bin.
      destruct (Z.le_gt_cases 0 k) as [P|P].
      - rewrite Z.mod_small by (clear - K P S4 S5 H2; lia). replace (Z.to_nat k <=? h) with true by (symmetry; apply Nat.leb_le; clear - K P; lia).
        split; [clear - K P S4 S5 H2; lia|]. split; [f_equal; clear - K P; lia|clear - K P H2; lia].
      - assert (M : (k mod Z.of_nat dft_os = k + Z.of_nat dft_os)%Z).
        { symmetry. apply Z.mod_unique with (q := (-1)%Z); [left; clear - K P S4 S5 H2; lia|clear; lia]. }
        rewrite M. replace (Z.to_nat (k + Z.of_nat dft_os) <=? h) with false by (symmetry; apply Nat.leb_gt; clear - K P S4 S5 H2; lia).
        replace (off <=? Z.to_nat (k + Z.of_nat dft_os)) with true by (symmetry; apply Nat.leb_le; clear - K P E S4 S5 H2; lia).
        replace (Z.to_nat (k + Z.of_nat dft_os) <? off + h) with true by (symmetry; apply Nat.ltb_lt; clear - K P E S4 S5 H2; lia). cbn [andb].
        split; [clear - K P S4 S5 H2; lia|]. split; [f_equal; clear - K P E S4 S5 H2; lia|clear - K P H2; lia]. }
    split.
    - intros k K. destruct (SP k K) as (B1 & B2 & B3). rewrite (V a _ A B1). unfold superpose.
      assert (EX : forall l x, (forall i, In i l -> i < n_ts) ->
        fold_left (fun x i => step_at C z add mulw occ off (entry wmat n_ts a i) (nth i tss []) (bin dft_os k) x) l x =
        fold_left (fun acc i => if weqb (entry wmat n_ts a i) (0, 0)%Z then acc else
           add acc (if weqb (entry wmat n_ts a i) (1, 0)%Z then nth (position occ k) (nth i tss []) z else mulw (entry wmat n_ts a i) (nth (position occ k) (nth i tss []) z))) l x).
      { induction l as [|i l IH]; intros x I; cbn [fold_left]; [reflexivity|]. rewrite IH by (intros; apply I; right; assumption). f_equal.
        unfold step_at, plus_at, src_of. rewrite B2. destruct (weqb (entry wmat n_ts a i) (0, 0)%Z); [reflexivity|]. f_equal.
        destruct (weqb (entry wmat n_ts a i) (1, 0)%Z); [reflexivity|].
        rewrite (nth_indep _ z (mulw (entry wmat n_ts a i) z)) by (rewrite map_length, Ht by (apply I; left; reflexivity); exact B3). apply map_nth. }
      apply EX. intros i I. apply in_seq in I. clear - I Hn. lia.
    - intros p P O. rewrite (V a p A P). assert (N0 : src_pos occ off p = None).
      { unfold src_pos. fold h. destruct (Nat.leb_spec p h) as [X|X].
        - exfalso. apply (O (Z.of_nat p)); [unfold subcarrier; fold h; clear - X; lia|]. unfold bin. rewrite Z.mod_small by (clear - P; lia). apply Nat2Z.id.
        - destruct (Nat.leb_spec off p) as [Y|Y]; cbn [andb]; [|reflexivity]. destruct (Nat.ltb_spec p (off + h)) as [Z1|Z1]; [|reflexivity]. exfalso.
          apply (O (Z.of_nat p - Z.of_nat dft_os)%Z); [unfold subcarrier; fold h; clear - Y Z1 E S4 S5 H2; lia|]. unfold bin.
          replace ((Z.of_nat p - Z.of_nat dft_os) mod Z.of_nat dft_os)%Z with (Z.of_nat p); [apply Nat2Z.id|].
          apply Z.mod_unique with (q := (-1)%Z); [left; clear - P; lia|clear; lia]. }
      generalize (seq 0 n) as l. intros l. generalize z at 2 3 as x. induction l as [|i l IH]; intros x; cbn [fold_left]; [reflexivity|].
      unfold step_at at 2, plus_at. rewrite N0. rewrite IH. destruct (weqb (entry wmat n_ts a i) (0, 0)%Z); reflexivity.
  Qed.

  (** One product is computed for every weight that is neither 0 nor 1: the products that antennas with equal weights could share are computed again for each. *)
  Theorem C68_products : exists ants, run_beamforming C add mulw n_ts n_tx occ off wmat n tss zeros =
    Ok (ants, flat_map (fun i => flat_map (fun a => let w := entry wmat n_ts a i in if weqb w (0, 0)%Z || weqb w (1, 0)%Z then [] else [(w, i)]) (seq 0 n_tx)) (seq 0 n)).
  Proof using Hw Hs Hn Lt Ht.
    destruct mapped as (ants & R & _). exists ants. rewrite R. do 2 f_equal. apply flat_map_ext. intros i. unfold products.
    generalize (seq 0 n_tx) as l. induction l as [|a l IH]; [reflexivity|]. cbn [filter flat_map]. rewrite <- IH.
    destruct (weqb (entry wmat n_ts a i) (0, 0)%Z), (weqb (entry wmat n_ts a i) (1, 0)%Z); reflexivity.
  Qed.
End Mapper.
Print Assumptions C68_sizes.
Print Assumptions C68_mapping.
Print Assumptions C68_products.

(** ** The codebook *)
Definition the_W : W_t := match W_new with Ok w => w | _ => mkW [] [] [] end.
(** The pairs are those of the twelve transmission modes. *)
Theorem C68_modes : forall i t, get_tm_mode i = Ok t -> In (N.to_nat (N_TS t), N.to_nat (N_TX t)) pairs.
Proof.
  intros i t. unfold get_tm_mode, guard. destruct (i <=? 11)%N eqn:E; [|discriminate]. intros L. unfold rd in L. destruct (nth_error tm_table (N.to_nat i)) as [t'|] eqn:H; [|discriminate]. injection L as ->.
  assert (K : forall t, In t tm_table -> In (N.to_nat (N_TS t), N.to_nat (N_TX t)) pairs).
  { intros t' I. cbn [In tm_table] in I. repeat destruct I as [<-|I]; try contradiction; vm_compute; tauto. }
  apply K. eapply nth_error_In. exact H.
Qed.

(** The constructor passes its assertions. For every pair exactly the indices up to the maximum have a matrix and scaling factors; a clamped index is one of them. *)
Theorem C68_codebook : W_new = Ok the_W /\ forall n_ts n_tx, In (n_ts, n_tx) pairs -> exists m, codebook_index_max n_ts n_tx = Ok m /\
  (forall idx, if idx <=? m then exists w s o, get_W the_W n_ts n_tx idx = Ok w /\ get_scaling the_W n_ts n_tx idx = Ok s /\ get_scaling_DAC the_W n_ts n_tx idx = Ok o /\ length w = n_ts * n_tx
               else get_W the_W n_ts n_tx idx = Throw) /\
  forall idx, exists idx', clamp_W n_ts n_tx idx = Ok idx' /\ idx' <= m /\ (idx <= m -> idx' = idx).
Proof.
  split; [vm_compute; reflexivity|]. intros n_ts n_tx.
  assert (G : forall n_ts n_tx m R S D, codebook_index_max n_ts n_tx = Ok m -> (forall idx, get_W the_W n_ts n_tx idx = at_ R idx) ->
    (forall idx, get_scaling the_W n_ts n_tx idx = at_ S idx) -> (forall idx, get_scaling_DAC the_W n_ts n_tx idx = at_ D idx) ->
    length R = m + 1 -> length S = m + 1 -> length D = m + 1 -> forallb (fun w => length w =? n_ts * n_tx) R = true ->
    exists m, codebook_index_max n_ts n_tx = Ok m /\
      (forall idx, if idx <=? m then exists w s o, get_W the_W n_ts n_tx idx = Ok w /\ get_scaling the_W n_ts n_tx idx = Ok s /\ get_scaling_DAC the_W n_ts n_tx idx = Ok o /\ length w = n_ts * n_tx
                   else get_W the_W n_ts n_tx idx = Throw) /\
      forall idx, exists idx', clamp_W n_ts n_tx idx = Ok idx' /\ idx' <= m /\ (idx <= m -> idx' = idx)).
  { clear. intros n_ts n_tx m R S D E HR HS HD LR LS LD F. exists m. split; [exact E|]. split.
    - intros idx. rewrite HR, HS, HD. unfold at_. destruct (Nat.leb_spec idx m) as [L|L].
      + destruct (nth_error R idx) as [w|] eqn:E1; [|apply nth_error_None in E1; lia]. destruct (nth_error S idx) as [s|] eqn:E2; [|apply nth_error_None in E2; lia].
        destruct (nth_error D idx) as [o|] eqn:E3; [|apply nth_error_None in E3; lia]. exists w, s, o. split; [reflexivity|]. split; [reflexivity|]. split; [reflexivity|].
        rewrite forallb_forall in F. apply Nat.eqb_eq, F. eapply nth_error_In. exact E1.
      + replace (nth_error R idx) with (@None (list weight)) by (symmetry; apply nth_error_None; lia). reflexivity.
    - intros idx. exists (Nat.min idx m). unfold clamp_W. rewrite E. cbn [bind]. split; [reflexivity|]. lia. }
  intros P. cbn [In pairs] in P. repeat (destruct P as [P|P]; [injection P as <- <-|]); [..|contradiction];
    match goal with |- exists m, codebook_index_max ?a ?b = _ /\ _ =>
      let i := eval vm_compute in (match N_TS_N_TX_idx a b with Ok r => r | _ => 0 end) in
      let m := eval vm_compute in (match codebook_index_max a b with Ok r => r | _ => 0 end) in
      apply (G a b m (nth i (W the_W) []) (nth i (scaling the_W) []) (nth i (scaling_DAC the_W) [])); [reflexivity|reflexivity|reflexivity|reflexivity|reflexivity|reflexivity|reflexivity|reflexivity] end.
Qed.
Print Assumptions C68_modes.
Print Assumptions C68_codebook.

(** A property of all matrices, checked matrix by matrix. *)
Definition matrices : list (nat * nat * nat * list weight) :=
  flat_map (fun p => match get_W_all the_W (fst p) (snd p) with Ok R => map (fun x => (fst p, snd p, fst x, snd x)) (combine (seq 0 (length R)) R) | _ => [] end) pairs.
Lemma in_matrices n_ts n_tx idx w : In (n_ts, n_tx) pairs -> get_W the_W n_ts n_tx idx = Ok w -> In (n_ts, n_tx, idx, w) matrices.
Proof.
  intros P G. unfold matrices. apply in_flat_map. exists (n_ts, n_tx). split; [exact P|]. cbn [fst snd]. unfold get_W in G. unfold get_W_all.
  destruct (N_TS_N_TX_idx n_ts n_tx) as [i| | |]; try discriminate G. cbn [bind] in *. destruct (at_ (W the_W) i) as [R| | |]; try discriminate G. cbn [bind] in *.
  unfold at_ in G. destruct (nth_error R idx) as [x|] eqn:E; [|discriminate]. injection G as <-. apply in_map_iff. exists (idx, x). split; [reflexivity|].
  assert (L : idx < length R) by (apply nth_error_Some; congruence).
  replace (idx, x) with (nth idx (combine (seq 0 (length R)) R) (0, [])).
  - apply nth_In. rewrite combine_length, seq_length. lia.
  - rewrite combine_nth by apply seq_length. rewrite seq_nth by exact L. f_equal. apply nth_error_nth with (d := []) in E. exact E.
Qed.

Definition nonzero (w : list weight) : nat := length (filter (fun x => negb (weqb x (0, 0)%Z)) w).

Definition check (m : nat * nat * nat * list weight) : bool :=
  match m with (n_ts, n_tx, idx, w) =>
    match get_scaling the_W n_ts n_tx idx with Ok s => s =? nonzero w | _ => false end && (0 <? nonzero w) &&
    forallb (fun i => forallb (fun i' => (i =? i') || weqb (ip (seq 0 n_tx) (fun a => entry w n_ts a i) (fun a => entry w n_ts a i')) (0, 0)%Z) (seq 0 n_ts)) (seq 0 n_ts) &&
    forallb (fun i => Z.eqb (Z.of_nat n_ts * power (seq 0 n_tx) (fun a => entry w n_ts a i)) (Z.of_nat (nonzero w))) (seq 0 n_ts)
  end.
Lemma all_check : forallb check matrices = true.
Proof. vm_compute. reflexivity. Qed.
Lemma matrix_ok n_ts n_tx idx w : In (n_ts, n_tx) pairs -> get_W the_W n_ts n_tx idx = Ok w ->
  get_scaling the_W n_ts n_tx idx = Ok (nonzero w) /\ 0 < nonzero w /\
  (forall i i', i < n_ts -> i' < n_ts -> i <> i' -> ip (seq 0 n_tx) (fun a => entry w n_ts a i) (fun a => entry w n_ts a i') = (0, 0)%Z) /\
  (forall i, i < n_ts -> (Z.of_nat n_ts * power (seq 0 n_tx) (fun a => entry w n_ts a i) = Z.of_nat (nonzero w))%Z).
Proof.
  intros P G. pose proof all_check as A. rewrite forallb_forall in A. specialize (A _ (in_matrices _ _ _ _ P G)). unfold check in A. cbv beta iota in A.
  rewrite !andb_true_iff in A. destruct A as (((A1 & A2) & A3) & A4). split.
  { destruct (get_scaling the_W n_ts n_tx idx); try discriminate A1. apply Nat.eqb_eq in A1. congruence. }
  split; [apply Nat.ltb_lt; exact A2|]. split.
  - intros i i' I I' NE. rewrite forallb_forall in A3. specialize (A3 i ltac:(apply in_seq; lia)). rewrite forallb_forall in A3. specialize (A3 i' ltac:(apply in_seq; lia)).
    apply orb_true_iff in A3 as [A3|A3]; [apply Nat.eqb_eq in A3; congruence|]. unfold weqb in A3. rewrite andb_true_iff, !Z.eqb_eq in A3. apply pair_eq; apply A3.
  - intros i I. rewrite forallb_forall in A4. apply Z.eqb_eq, A4. apply in_seq. lia.
Qed.

(** The total power at the antennas, with the scaling factor 1/sqrt(s), is the mean power of the streams, whatever the streams: no matrix adds or removes
    power and no stream is favoured. *)
Theorem C68_power : forall n_ts n_tx idx w s, In (n_ts, n_tx) pairs -> get_W the_W n_ts n_tx idx = Ok w -> get_scaling the_W n_ts n_tx idx = Ok s -> forall x,
  (Z.of_nat n_ts * sumZ (map (fun a => norm2 (output w n_ts x a)) (seq 0 n_tx)) = Z.of_nat s * sumZ (map (fun i => norm2 (x i)) (seq 0 n_ts)))%Z /\ 0 < s.
Proof.
  intros n_ts n_tx idx w s P G S x. destruct (matrix_ok _ _ _ _ P G) as (M1 & M2 & M3 & M4). rewrite M1 in S. injection S as <-. split; [|exact M2].
  change (sumZ (map (fun a => norm2 (output w n_ts x a)) (seq 0 n_tx))) with (power (seq 0 n_tx) (out (fun i a => entry w n_ts a i) x (seq 0 n_ts))).
  destruct n_ts as [|n]; [exfalso; cbn in P; repeat destruct P as [P|P]; try discriminate P; contradiction|].
  pose proof (out_power (seq 0 n_tx) (fun i a => entry w (Datatypes.S n) a i) x (power (seq 0 n_tx) (fun a => entry w (Datatypes.S n) a 0)) (seq 0 (Datatypes.S n)) (seq_NoDup _ _)) as O.
  rewrite O.
  - rewrite Z.mul_assoc, M4 by lia. reflexivity.
  - intros i i' I I' NE. apply in_seq in I, I'. apply M3; lia.
  - intros i I. apply in_seq in I. apply (Z.mul_reg_l _ _ (Z.of_nat (Datatypes.S n))); [lia|]. rewrite !M4 by lia. reflexivity.
Qed.
(** The columns of a matrix are orthogonal: the streams can be told apart. *)
Theorem C68_orthogonal : forall n_ts n_tx idx w, In (n_ts, n_tx) pairs -> get_W the_W n_ts n_tx idx = Ok w -> forall i i', i < n_ts -> i' < n_ts -> i <> i' ->
  sumC (map (fun a => cmul (conj_ (entry w n_ts a i)) (entry w n_ts a i')) (seq 0 n_tx)) = (0, 0)%Z.
Proof. intros n_ts n_tx idx w P G. exact (proj1 (proj2 (proj2 (matrix_ok _ _ _ _ P G)))). Qed.
(** The factor optimised for the converter, 1/sqrt(o): the power of an antenna, for uncorrelated streams of power one, is at most one after scaling, and one for some antenna. *)
Definition check_DAC (m : nat * nat * nat * list weight) : bool :=
  match m with (n_ts, n_tx, idx, w) =>
    match get_scaling_DAC the_W n_ts n_tx idx with
    | Ok o => forallb (fun a => Z.leb (sumZ (map (fun i => norm2 (entry w n_ts a i)) (seq 0 n_ts))) (Z.of_nat o)) (seq 0 n_tx) &&
              existsb (fun a => Z.eqb (sumZ (map (fun i => norm2 (entry w n_ts a i)) (seq 0 n_ts))) (Z.of_nat o)) (seq 0 n_tx)
    | _ => false
    end
  end.
Lemma all_check_DAC : forallb check_DAC matrices = true.
Proof. vm_compute. reflexivity. Qed.
Theorem C68_converter : forall n_ts n_tx idx w o, In (n_ts, n_tx) pairs -> get_W the_W n_ts n_tx idx = Ok w -> get_scaling_DAC the_W n_ts n_tx idx = Ok o ->
  let p a := sumZ (map (fun i => norm2 (entry w n_ts a i)) (seq 0 n_ts)) in
  (forall a, a < n_tx -> (p a <= Z.of_nat o)%Z) /\ exists a, a < n_tx /\ p a = Z.of_nat o.
Proof.
  intros n_ts n_tx idx w o P G D p. pose proof all_check_DAC as A. rewrite forallb_forall in A. specialize (A _ (in_matrices _ _ _ _ P G)). unfold check_DAC in A. cbv beta iota in A.
  rewrite D, andb_true_iff, forallb_forall, existsb_exists in A. destruct A as (A1 & a & A2 & A3). split.
  - intros b B. apply Z.leb_le, A1. apply in_seq. lia.
  - exists a. apply in_seq in A2. split; [lia|]. apply Z.eqb_eq. exact A3.
Qed.
(** The index from which on no weight is zero, used to choose among matrices that feed every antenna. *)
Definition check_nonzero (m : nat * nat * nat * list weight) : bool :=
  match m with (n_ts, n_tx, idx, w) =>
    match codebook_index_nonzero n_ts n_tx with
    | Ok k => (n_tx =? 8) || Bool.eqb (k <=? idx) (forallb (fun x => negb (weqb x (0, 0)%Z)) w)
    | _ => false
    end
  end.
Lemma all_check_nonzero : forallb check_nonzero matrices = true.
Proof. vm_compute. reflexivity. Qed.
Theorem C68_nonzero : forall n_ts n_tx idx w k, In (n_ts, n_tx) pairs -> n_tx <> 8 -> get_W the_W n_ts n_tx idx = Ok w -> codebook_index_nonzero n_ts n_tx = Ok k ->
  (k <= idx <-> forall x, In x w -> x <> (0, 0)%Z).
Proof.
  intros n_ts n_tx idx w k P N8 G D. pose proof all_check_nonzero as A. rewrite forallb_forall in A. specialize (A _ (in_matrices _ _ _ _ P G)). unfold check_nonzero in A. cbv beta iota in A.
  rewrite D in A. apply orb_true_iff in A as [A|A]; [apply Nat.eqb_eq in A; contradiction|]. apply Bool.eqb_prop in A. rewrite <- Nat.leb_le, A, forallb_forall. split; intros H x I; specialize (H x I).
  - intros ->. discriminate H.
  - destruct x as [r i]. unfold weqb. cbn [fst snd]. destruct (Z.eqb_spec r 0) as [->|]; [|reflexivity]. destruct (Z.eqb_spec i 0) as [->|]; [exfalso; apply H; reflexivity|reflexivity].
Qed.
(** The phases. From index 12 on, one stream leaves the four antennas with phases that advance by a quarter turn [k] times from the first to the
    second pair member and [l] times between the pairs: 1, i^k, i^l, i^(k+l), for every [k] and [l]; so all sixteen directions occur, each once. Two streams
    on four antennas differ in the sign of the second pair. On two antennas the second one has phase 1, -1, i and -i. *)
Fixpoint turned (k : nat) : weight := match k with O => (1, 0)%Z | S k => cmul (0, 1)%Z (turned k) end.
Definition flipped (a : weight) : weight := (- fst a, - snd a)%Z.
Theorem C68_phases :
  (forall k l, k < 4 -> l < 4 -> get_W the_W 1 4 (12 + 4 * k + l) = Ok [turned 0; turned k; turned l; turned (k + l)]) /\
  (forall k l, k < 4 -> l < 2 -> get_W the_W 2 4 (14 + 2 * k + l) =
     Ok [turned 0; turned 0; turned k; turned k; turned l; flipped (turned l); turned (k + l); flipped (turned (k + l))]) /\
  (forall k, k < 2 -> get_W the_W 1 2 (2 + 2 * k) = Ok [turned 0; turned k] /\ get_W the_W 1 2 (3 + 2 * k) = Ok [turned 0; flipped (turned k)] /\
     get_W the_W 2 2 (1 + k) = Ok [turned 0; turned 0; turned k; flipped (turned k)] /\
     get_W the_W 1 4 (4 + 2 * k) = Ok [turned 0; (0, 0)%Z; turned k; (0, 0)%Z] /\ get_W the_W 1 4 (5 + 2 * k) = Ok [turned 0; (0, 0)%Z; flipped (turned k); (0, 0)%Z] /\
     get_W the_W 1 4 (8 + 2 * k) = Ok [(0, 0)%Z; turned 0; (0, 0)%Z; turned k] /\ get_W the_W 1 4 (9 + 2 * k) = Ok [(0, 0)%Z; turned 0; (0, 0)%Z; flipped (turned k)]).
Proof.
  repeat split; intros;
  repeat match goal with
  | K : _ < 0 |- _ => destruct (Nat.nlt_0_r _ K)
  | K : ?k < _ |- _ => is_var k; destruct k as [|k]; [clear K|apply Nat.succ_lt_mono in K]
  end; reflexivity.
Qed.
(** No matrix occurs twice for the same streams and antennas: every index is a different way to transmit. *)
Definition wmat_eqb (a b : list weight) : bool := (length a =? length b) && forallb (fun x => weqb (fst x) (snd x)) (combine a b).
Lemma wmat_eqb_refl a : wmat_eqb a a = true.
Proof.
  unfold wmat_eqb. rewrite Nat.eqb_refl. cbn [andb]. induction a as [|[r i] a IH]; [reflexivity|]. cbn [combine forallb fst snd]. rewrite IH. unfold weqb. cbn [fst snd].
  rewrite !Z.eqb_refl. reflexivity.
Qed.
Definition check_distinct (m m' : nat * nat * nat * list weight) : bool :=
  match m, m' with (n_ts, n_tx, idx, w), (n_ts', n_tx', idx', w') =>
    negb ((n_ts =? n_ts') && (n_tx =? n_tx') && wmat_eqb w w') || (idx =? idx') end.
Lemma all_check_distinct : forallb (fun m => forallb (check_distinct m) matrices) matrices = true.
Proof. vm_compute. reflexivity. Qed.
Theorem C68_distinct : forall n_ts n_tx idx idx' w, In (n_ts, n_tx) pairs -> get_W the_W n_ts n_tx idx = Ok w -> get_W the_W n_ts n_tx idx' = Ok w -> idx = idx'.
Proof.
  intros n_ts n_tx idx idx' w P G G'. pose proof all_check_distinct as A. rewrite forallb_forall in A. specialize (A _ (in_matrices _ _ _ _ P G)).
  rewrite forallb_forall in A. specialize (A _ (in_matrices _ _ _ _ P G')). unfold check_distinct in A. rewrite !Nat.eqb_refl, wmat_eqb_refl in A. apply Nat.eqb_eq. exact A.
Qed.
Print Assumptions C68_phases.
Print Assumptions C68_distinct.
Print Assumptions C68_power.
Print Assumptions C68_orthogonal.
Print Assumptions C68_converter.
Print Assumptions C68_nonzero.

(** ** Cases *)
(** Two streams and four antennas, matrix 15, samples written as sums; four subcarriers of an eight-point transform, oversampled to ten. *)
Inductive sym := Zero | X (i k : nat) | Sum (a b : sym) | Times (w : weight) (a : sym).
Example C68_nonvacuous :
  let w := match get_W the_W 2 4 15 with Ok w => w | _ => [] end in
  let ts i := map (X i) (seq 0 5) in
  sizes_ok 10 8 4 /\ length w = 2 * 4 /\ entry w 2 2 1 = (0, -1)%Z /\
  match run_beamforming sym Sum Times 2 4 4 (offset_lower_half 10 8 (guards_bottom 8 4)) w 2 [ts 0; ts 1] (repeat (repeat Zero 10) 4) with
  | Ok (ants, ps) =>
      nth 2 ants [] = map (fun k => match k with Some k => Sum (Sum Zero (Times (0, 1)%Z (X 0 k))) (Times (0, -1)%Z (X 1 k)) | None => Zero end)
                          [Some 2; Some 3; Some 4; None; None; None; None; None; Some 0; Some 1] /\
      ps = [((0, 1)%Z, 0); ((0, 1)%Z, 0); ((0, -1)%Z, 1); ((0, -1)%Z, 1)]
  | _ => False
  end.
Proof. cbv zeta. split; [vm_compute; repeat split; repeat constructor|]. split; [reflexivity|]. split; [reflexivity|]. vm_compute. split; reflexivity. Qed.
Example C68_sizes_case : sizes_ok 1024 (64 * 12) (56 * 12).
Proof. apply C68_sizes; [cbn; tauto|lia|reflexivity]. Qed.
