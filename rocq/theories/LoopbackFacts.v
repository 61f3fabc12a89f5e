(** Proofs about the loopback firmwares: tables, one call, and the plan. *)
From Coq Require Import QArith Qminmax.
From Verif Require Import Base Cells Loopback LoopbackSpec.
Open Scope nat_scope.

Lemma at_chk_nat {A} (l : list A) i d : i < length l -> at_chk l (N.of_nat i) = Ok (nth i l d).
Proof. intros H. unfold at_chk. rewrite Nnat.Nat2N.id, (nth_error_nth' l d H). reflexivity. Qed.
Lemma at_chk_none {A} (l : list A) i : length l <= i -> at_chk l (N.of_nat i) = Throw.
Proof. intros H. unfold at_chk. rewrite Nnat.Nat2N.id. apply nth_error_None in H. now rewrite H. Qed.

Definition shaped (P S : nat) (t : table) : Prop := length t = P /\ Forall (fun r => length r = S) t.
Lemma shaped_filled P S v : shaped P S (filled P S v).
Proof.
  unfold filled. split; [apply repeat_length|]. apply Forall_forall. intros r H. apply repeat_spec in H. subst.
  apply repeat_length.
Qed.
Lemma element_filled P S v i j : i < P -> j < S -> element (filled P S v) i j = Some v.
Proof.
  intros HP HS. unfold element, filled. rewrite (nth_error_nth' _ (repeat v S)) by now rewrite repeat_length.
  rewrite nth_repeat. rewrite (nth_error_nth' _ v) by now rewrite repeat_length. now rewrite nth_repeat.
Qed.
Lemma look_ok P S t r c : shaped P S t -> r < P -> c < S ->
  exists v, look t r c = Ok v /\ element t r c = Some v.
Proof.
  intros (L & F) HP HS. unfold look, element. rewrite (at_chk_nat t r []) by lia. cbn [bind].
  assert (E : length (nth r t []) = S). { rewrite Forall_forall in F. apply F, nth_In. lia. }
  rewrite (at_chk_nat _ c 0%Q) by lia. rewrite (nth_error_nth' t []) by lia.
  rewrite (nth_error_nth' _ 0%Q) by lia. eauto.
Qed.
Lemma Forall_upd {A} (Q : A -> Prop) l i x : Forall Q l -> Q x -> Forall Q (upd l i x).
Proof. intros F HQ. revert i. induction F; intros [|i]; cbn; auto. Qed.
Lemma put_ok P S t r c v : shaped P S t -> r < P -> c < S ->
  exists t', put t r c v = Ok t' /\ shaped P S t' /\ element t' r c = Some v /\
             (forall i j, (i, j) <> (r, c) -> element t' i j = element t i j).
Proof.
  intros (L & F) HP HS. unfold put. rewrite (at_chk_nat t r []) by lia. cbn [bind].
  assert (E : length (nth r t []) = S). { rewrite Forall_forall in F. apply F, nth_In. lia. }
  rewrite (at_chk_nat _ c 0%Q) by lia. cbn [bind]. eexists. split; [reflexivity|]. repeat split.
  - now rewrite upd_length.
  - apply Forall_upd; [exact F|]. now rewrite upd_length.
  - unfold element. rewrite nth_error_upd_same by lia. apply nth_error_upd_same. lia.
  - intros i j D. unfold element. destruct (Nat.eq_dec i r) as [->|N].
    + rewrite nth_error_upd_same by lia. rewrite (nth_error_nth' t []) by lia.
      apply nth_error_upd_other. congruence.
    + now rewrite nth_error_upd_other by congruence.
Qed.
Lemma put_throw P S t r c v : shaped P S t -> P <= r -> put t r c v = Throw.
Proof. intros (L & F) H. unfold put. now rewrite at_chk_none by lia. Qed.
Lemma look_throw P S t r c : shaped P S t -> P <= r -> look t r c = Throw.
Proof. intros (L & F) H. unfold look. now rewrite at_chk_none by lia. Qed.

Section Config.
Variable c : config.
Notation P := (length (params c)).
Notation S' := (length (snrs c)).
Definition formed (x : result) : Prop :=
  shaped P S' (t_pcc x) /\ shaped P S' (t_plcf x) /\ shaped P S' (t_pdc x) /\
  shaped P S' (t_max x) /\ shaped P S' (t_min x).

Record inv (s : fw) : Prop := {
  i_form : formed (res_of s);
  i_par : ph s <> PEnd -> par s < P;
  i_end : ph s = PEnd -> P <= par s;
  i_col : col s < S';
  i_cnt : match ph s with PB | PC => cnt s < n_exp c | PD => cnt s = n_exp c | _ => True end;
  i_me : kd c <> Ratio -> me s = id_a c;
  i_mcs : kd c <> Snr -> mcs s = 1%Z }.

Definition cur (s : fw) : Z := nth (par s) (params c) 0%Z.
Definition more (i j : nat) : list act :=
  flat_map (measure (n_exp c) i (nth i (params c) 0%Z)) (skipn j (indexed (snrs c))) ++
  flat_map (per_parameter (n_exp c) (snrs c)) (skipn (S i) (indexed (params c))).
Definition rest (s : fw) : list act :=
  match ph s with
  | PA => more (par s) (col s)
  | PB => experiments (n_exp c - cnt s) (cur s) ++ Store (par s) (col s) :: Next :: more (par s) (S (col s))
  | PC => Try (cur s) :: experiments (n_exp c - S (cnt s)) (cur s) ++
          Store (par s) (col s) :: Next :: more (par s) (S (col s))
  | PD => Store (par s) (col s) :: Next :: more (par s) (S (col s))
  | PE => Next :: more (par s) (S (col s))
  | PEnd => []
  end.

Lemma indexed_len {A} (l : list A) : length (indexed l) = length l.
Proof. unfold indexed. rewrite combine_length, seq_length. lia. Qed.
Lemma skipn_nth {A} (l : list A) i d : i < length l -> skipn i l = nth i l d :: skipn (S i) l.
Proof.
  revert i. induction l as [|x l IH]; intros [|i] H; cbn [length] in H; try lia; [reflexivity|].
  cbn [skipn nth]. rewrite (IH i) by lia. reflexivity.
Qed.
Lemma nth_indexed {A} (l : list A) i d : i < length l -> nth i (indexed l) (0, d) = (i, nth i l d).
Proof.
  intros H. unfold indexed. rewrite combine_nth by now rewrite seq_length. rewrite seq_nth by lia. reflexivity.
Qed.
Lemma indexed_skip {A} (l : list A) i d : i < length l ->
  skipn i (indexed l) = (i, nth i l d) :: skipn (S i) (indexed l).
Proof.
  intros H. rewrite (skipn_nth _ i (0, d)) by now rewrite indexed_len. now rewrite nth_indexed.
Qed.
Lemma more_col i j : j < S' ->
  more i j = measure (n_exp c) i (nth i (params c) 0%Z) (j, nth j (snrs c) 0%Z) ++ more i (S j).
Proof. intros H. unfold more. rewrite (indexed_skip (snrs c) j 0%Z H). cbn [flat_map]. now rewrite app_assoc. Qed.
Lemma more_row i : S i < P -> more i S' = more (S i) 0.
Proof.
  intros H. unfold more. rewrite (skipn_all2 (indexed (snrs c))) by (rewrite indexed_len; lia). cbn [flat_map app].
  rewrite (indexed_skip (params c) (S i) 0%Z H). cbn [flat_map skipn]. reflexivity.
Qed.
Lemma more_end i : P <= S i -> more i S' = [].
Proof.
  intros H. unfold more. rewrite !skipn_all2 by (rewrite indexed_len; lia). reflexivity.
Qed.
Lemma plan_start : 0 < P -> plan c = more 0 0.
Proof.
  intros H. unfold plan, more. change (indexed (params c)) with (skipn 0 (indexed (params c))) at 1.
  rewrite (indexed_skip (params c) 0 0%Z H). reflexivity.
Qed.
Lemma experiments_S n p : experiments (S n) p = Fade :: Try p :: experiments n p.
Proof. reflexivity. Qed.

(** ** One call of work_irregular *)
Definition wait (p : phase) : Z :=
  match p with PA => A_to_B c | PB => B_to_C c | _ => 0 end.

Lemma generate_facts s free t g ie : let '(s', l) := generate s free t g ie in
  ph s' = ph s /\ ref_t s' = ref_t s /\ par s' = par s /\ col s' = col s /\ cnt s' = cnt s /\ me s' = me s /\
  mcs s' = mcs s /\ res_of s' = res_of s /\ order s' = order s + length l /\
  map facts_of l = (if free then [(t, me s, mcs s, g, ie)] else []) /\
  map k_order l = seq (order s) (length l).
Proof. destruct free; cbn; repeat split; lia. Qed.

Lemma C_ok s now w a b : inv s -> par s < P ->
  exists s' l, C_generate c s now w a b = Ok (s', l) /\
    ph s' = ph s /\ par s' = par s /\ col s' = col s /\ cnt s' = cnt s /\ res_of s' = res_of s /\
    order s' = order s + length l /\
    (kd c <> Ratio -> me s' = id_a c) /\ (kd c <> Snr -> mcs s' = 1%Z) /\
    map k_order l = seq (order s) (length l) /\
    map facts_of l = permitted (wanted c (cur s) (random_tx_time c now w)) [a; b].
Proof.
  intros I HP. unfold C_generate, wanted, cur.
  pose proof (i_me s I) as Hme. pose proof (i_mcs s I) as Hmc.
  destruct (kd c) eqn:K.
  - rewrite (at_chk_nat _ _ 0%Z) by lia. cbn [bind]. specialize (Hme ltac:(discriminate)).
    destruct a; cbn [generate]; do 2 eexists; (split; [reflexivity|]); cbn; rewrite ?Hme;
      repeat split; auto; try lia; try congruence.
  - rewrite (at_chk_nat _ _ 0%Z) by lia. cbn [bind]. specialize (Hmc ltac:(discriminate)).
    destruct a, b; cbn [generate]; do 2 eexists; (split; [reflexivity|]); cbn; rewrite ?Hmc;
      repeat split; auto; try lia; try congruence.
  - specialize (Hmc ltac:(discriminate)). specialize (Hme ltac:(discriminate)).
    destruct a; [rewrite (at_chk_nat _ _ 0%Z) by lia|]; cbn [bind generate]; do 2 eexists; (split; [reflexivity|]); cbn;
      rewrite ?Hmc, ?Hme; repeat split; auto; try lia; try congruence.
Qed.

Lemma set_PERs_ok x r k n : formed x -> r < P -> k < S' ->
  exists y, set_PERs x r k n = Ok y /\ formed y /\
    n_pcc y = n_pcc x /\ n_plcf y = n_plcf x /\ n_pdc y = n_pdc x /\ t_max y = t_max x /\ t_min y = t_min x /\
    element (t_pcc y) r k = Some (lost (n_pcc x) n) /\
    element (t_plcf y) r k = Some (lost (n_plcf x) n) /\
    element (t_pdc y) r k = Some (lost (n_pdc x) n) /\
    (forall i j, (i, j) <> (r, k) -> element (t_pcc y) i j = element (t_pcc x) i j /\
       element (t_plcf y) i j = element (t_plcf x) i j /\ element (t_pdc y) i j = element (t_pdc x) i j).
Proof.
  intros (F1 & F2 & F3 & F4 & F5) HP HS. unfold set_PERs.
  destruct (put_ok P S' _ r k (1 - q_of (n_pcc x) / q_of n)%Q F1 HP HS) as (a & -> & A1 & A2 & A3).
  destruct (put_ok P S' _ r k (1 - q_of (n_plcf x) / q_of n)%Q F2 HP HS) as (b & -> & B1 & B2 & B3).
  destruct (put_ok P S' _ r k (1 - q_of (n_pdc x) / q_of n)%Q F3 HP HS) as (d & -> & D1 & D2 & D3).
  cbn [bind]. eexists. split; [reflexivity|]. cbn. split; [repeat split; try apply A1; try apply B1; try apply D1;
    try apply F4; apply F5|]. repeat split; auto; now intros; apply A3 || apply B3 || apply D3.
Qed.

(** What the call number of a state does: [x] is the act of the plan. *)
Lemma call_ok s now w a b : inv s -> sound c -> ph s <> PEnd -> (ref_t s <= now)%Z ->
  exists s' i x, turn_state c s now w a b = Ok (s', i) /\ inv s' /\ rest s = x :: rest s' /\
    fits c (Call now w a b, i, request s') x /\
    (* what is known about the parts *)
    match ph s with
    | PA => (exists v, i = Tuned v) /\ ph s' = PB /\ ref_t s' = (now + A_to_B c)%Z /\ order s' = order s /\
            par s' = par s /\ col s' = col s /\ res_of s' = reset (res_of s) /\ cnt s' = 0
    | PB => i = Faded /\ ph s' = PC /\ ref_t s' = (now + B_to_C c)%Z /\ order s' = order s /\ par s' = par s /\
            col s' = col s /\ res_of s' = res_of s /\ cnt s' = cnt s
    | PC => (exists l, i = Sent l /\ map k_order l = seq (order s) (length l) /\ order s' = order s + length l /\
              map facts_of l = permitted (wanted c (cur s) (random_tx_time c now w)) [a; b]) /\
            cnt s' = S (cnt s) /\
            (ph s' = PB /\ ref_t s' = (now + C_to_B c)%Z \/ ph s' = PD /\ ref_t s' = (now + C_to_D c)%Z) /\
            par s' = par s /\ col s' = col s /\ res_of s' = res_of s
    | PD => i = Stored (par s) (col s) /\ ph s' = PE /\ ref_t s' = ref_t s /\ order s' = order s /\
            par s' = par s /\ col s' = col s /\ cnt s' = cnt s /\
            set_PERs (res_of s) (par s) (col s) (n_exp c) = Ok (res_of s')
    | PE => i = Moved /\ (ph s' = PA \/ ph s' = PEnd) /\ ref_t s' = ref_t s /\ order s' = order s /\
            res_of s' = res_of s
    | PEnd => False
    end.
Proof.
  intros I (SP & SS & SN & G1 & G2 & G3 & G4) E HT. pose proof (i_par s I E) as HP. pose proof (i_col s I) as HS.
  pose proof (i_cnt s I) as HC. unfold turn_state, guard. replace (ref_t s <=? now)%Z with true by lia.
  unfold rest. destruct (ph s) eqn:Ph; [| | | | |congruence].
  - rewrite (at_chk_nat (snrs c) (col s) 0%Z) by lia. cbn [bind].
    do 3 eexists. split; [reflexivity|]. split; [|split; [|split]].
    + constructor; cbn; try apply I; try discriminate; auto; try lia.
    + cbn [ph with_phase A_reset par col cnt cur]. unfold cur. cbn [par with_phase A_reset cnt].
      rewrite (more_col (par s) (col s) HS). rewrite Nat.sub_0_r. unfold measure. cbn [fst snd app].
      rewrite <- app_assoc. reflexivity.
    + reflexivity.
    + cbn. repeat split; eauto.
  - do 3 eexists. split; [reflexivity|]. split; [|split; [|split]].
    + constructor; cbn; try apply I; try discriminate; auto; try lia.
    + cbn [ph with_phase par col cnt]. unfold cur. cbn [par with_phase].
      replace (n_exp c - cnt s) with (S (n_exp c - S (cnt s))) by lia. rewrite experiments_S. reflexivity.
    + exact Logic.I.
    + cbn. auto 10.
  - destruct (C_ok s now w a b I HP) as (s1 & l & -> & E1 & E2 & E3 & E4 & E5 & E6 & E7 & E8 & E9 & E10).
    cbn [bind]. cbn [set_cnt cnt]. rewrite E4.
    assert (X : (now + turn c <= random_tx_time c now w <= now + turn c + Z.of_N (jit c))%Z).
    { unfold random_tx_time. pose proof (N.mod_upper_bound w (jit c + 1) ltac:(lia)). lia. }
    destruct (S (cnt s) <? n_exp c) eqn:L.
    + do 3 eexists. split; [reflexivity|]. split; [|split; [|split]].
      * constructor; cbn; rewrite ?E2, ?E3, ?E4, ?E5; try apply I; try discriminate; auto; try lia.
      * cbn [ph with_phase par col cnt set_cnt]. unfold cur. cbn [par with_phase set_cnt]. rewrite E2, E3.
        reflexivity.
      * unfold fits; cbn. exists (random_tx_time c now w). split; [exact X|exact E10].
      * cbn. rewrite E2, E3, E5. split; [|auto]. exists l. auto.
    + assert (S (cnt s) = n_exp c) by lia.
      do 3 eexists. split; [reflexivity|]. split; [|split; [|split]].
      * constructor; cbn; rewrite ?E2, ?E3, ?E4, ?E5; try apply I; try discriminate; auto; try lia.
      * cbn [ph with_phase par col cnt set_cnt]. rewrite E2, E3. rewrite H, Nat.sub_diag. reflexivity.
      * unfold fits; cbn. exists (random_tx_time c now w). split; [exact X|exact E10].
      * cbn. rewrite E2, E3, E5. split; [|auto]. exists l. auto.
  - cbn beta. replace (cnt s =? n_exp c) with true by (symmetry; apply Nat.eqb_eq; exact HC).
    destruct (set_PERs_ok (res_of s) (par s) (col s) (n_exp c) (i_form s I) HP HS)
      as (y & Hy & Fy & _ & _ & _ & _ & _ & _).
    unfold D_save. rewrite Hy. cbn [bind].
    rewrite (at_chk_nat (params c) _ 0%Z HP), (at_chk_nat (snrs c) _ 0%Z HS). cbn [bind].
    destruct Fy as (F1 & F2 & F3 & F4 & F5).
    destruct (look_ok _ _ _ _ _ F1 HP HS) as (? & -> & _). destruct (look_ok _ _ _ _ _ F2 HP HS) as (? & -> & _).
    destruct (look_ok _ _ _ _ _ F3 HP HS) as (? & -> & _). destruct (look_ok _ _ _ _ _ F4 HP HS) as (? & -> & _).
    destruct (look_ok _ _ _ _ _ F5 HP HS) as (? & -> & _). cbn [bind].
    do 3 eexists. split; [reflexivity|]. split; [|split; [|split]].
    + constructor; cbn; try apply I; try discriminate; auto; try lia. repeat split; try apply F1; try apply F2;
        try apply F3; try apply F4; apply F5.
    + reflexivity.
    + cbn. auto.
    + cbn. repeat split; auto.
  - cbn [col with_phase set_col]. destruct (S (col s) =? S') eqn:L.
    + apply Nat.eqb_eq in L. assert (EN : E_next c (set_col (with_phase (set_col s (S (col s))) PA (ref_t s)) 0)
        = ({| ph := PA; ref_t := ref_t s; par := S (par s); col := 0; cnt := cnt s; order := order s; me := me s;
              mcs := mcs s; res_of := res_of s |}, P =? S (par s))).
      { unfold E_next. cbn [par col cnt order me mcs res_of ref_t ph with_phase set_col]. f_equal.
        destruct (kd c); [apply Nat.eqb_sym| |apply Nat.eqb_sym].
        destruct (P <=? S (par s)) eqn:Q1; destruct (P =? S (par s)) eqn:Q2; auto; first [apply Nat.leb_gt in Q1; apply Nat.eqb_eq in Q2; lia | apply Nat.leb_le in Q1; apply Nat.eqb_neq in Q2; lia]. }
      cbn [with_phase] in EN. rewrite EN. cbn [bind].
      destruct (P =? S (par s)) eqn:Q.
      * do 3 eexists. split; [reflexivity|]. split; [|split; [|split]].
        -- constructor; cbn; try apply I; try congruence; auto; try lia.
        -- cbn [ph par with_phase]. rewrite L, more_end by lia. reflexivity.
        -- exact Logic.I.
        -- cbn. auto 10.
      * do 3 eexists. split; [reflexivity|]. split; [|split; [|split]].
        -- constructor; cbn; try apply I; try discriminate; auto; try lia.
        -- cbn [ph par col]. rewrite L. rewrite more_row by lia. reflexivity.
        -- exact Logic.I.
        -- cbn. auto 10.
    + do 3 eexists. split; [reflexivity|]. split; [|split; [|split]].
      * constructor; cbn; try apply I; try discriminate; auto; try lia.
      * reflexivity.
      * exact Logic.I.
      * cbn. auto 10.
Qed.

End Config.
