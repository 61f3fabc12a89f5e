From Verif Require Import Base IntHelpers PacketSizes Cells CellsFacts TxCells Combining CombiningSpec.
From Coq Require Import QArith Qcanon Lia.
Open Scope Qc_scope.

Lemma C_eq (a b : C) : fst a = fst b -> snd a = snd b -> a = b.
Proof. destruct a, b. cbn. congruence. Qed.
Ltac cring := repeat match goal with x : C |- _ => destruct x end; apply C_eq; cbn; ring.

Lemma cadd_assoc a b c : cadd (cadd a b) c = cadd a (cadd b c). Proof. cring. Qed.
Lemma cadd_0_l a : cadd c0 a = a. Proof. cring. Qed.
Lemma cadd_0_r a : cadd a c0 = a. Proof. cring. Qed.
Lemma cmul_0_r a : cmul a c0 = c0. Proof. cring. Qed.
Lemma cmul_add_l a b c : cmul (cadd a b) c = cadd (cmul a c) (cmul b c). Proof. cring. Qed.
Lemma cmul_add_r a b c : cmul a (cadd b c) = cadd (cmul a b) (cmul a c). Proof. cring. Qed.
Lemma half_same a : half (cadd a a) = a.
Proof. destruct a. apply C_eq; cbn; field; discriminate. Qed.
Lemma cdiv_real s d : snd d = 0 -> fst d <> 0 -> cdiv (cmul s d) d = s.
Proof. destruct s as [r i], d as [x z]. cbn. intros -> H. apply C_eq; cbn; field; exact H. Qed.

(** Sums of squares *)
Lemma sq_pos (x : Qc) : 0 <= x * x.
Proof.
  destruct (Qclt_le_dec x 0) as [H|H].
  - apply Qclt_le_weak in H. replace (x * x) with (- x * - x) by ring. replace 0 with (0 * - x) by ring. apply Qcmult_le_compat_r; [|]; replace 0 with (- 0) by ring; apply Qcopp_le_compat; exact H.
  - replace 0 with (0 * x) by ring. apply Qcmult_le_compat_r; exact H.
Qed.
Lemma add_pos a b : 0 <= a -> 0 <= b -> 0 <= a + b.
Proof. intros A B. replace 0 with (0 + 0) by ring. apply Qcplus_le_compat; assumption. Qed.
Lemma add_zero a b : 0 <= a -> 0 <= b -> a + b = 0 -> a = 0.
Proof.
  intros A B E. apply Qcle_antisym; [|exact A]. replace a with (- b) by (replace b with ((a + b) - a) by ring; rewrite E; ring).
  replace 0 with (- 0) by ring. apply Qcopp_le_compat. exact B.
Qed.
Definition sq (a : C) : Qc := fst a * fst a + snd a * snd a.
Lemma sq_nonneg a : 0 <= sq a.
Proof. apply add_pos; apply sq_pos. Qed.
Lemma sq_zero a : sq a = 0 -> a = c0.
Proof.
  intros E. unfold sq in E. assert (E1 := add_zero _ _ (sq_pos _) (sq_pos _) E). rewrite Qcplus_comm in E. assert (E2 := add_zero _ _ (sq_pos _) (sq_pos _) E).
  apply C_eq; cbn; [apply Qcmult_integral in E1 as [K|K]|apply Qcmult_integral in E2 as [K|K]]; exact K.
Qed.
Lemma mul_conj a : cmul a (conj a) = (sq a, 0).
Proof. apply C_eq; cbn; unfold sq; ring. Qed.

Lemma csum_map_add {A} (f g : A -> C) l : csum (map (fun x => cadd (f x) (g x)) l) = cadd (csum (map f l)) (csum (map g l)).
Proof. induction l as [|x l IH]; cbn; [cring|]. fold (csum (map (fun x => cadd (f x) (g x)) l)) (csum (map f l)) (csum (map g l)). rewrite IH. generalize (f x) (g x) (csum (map f l)) (csum (map g l)). intros. cring. Qed.
Lemma csum_mul {A} s (f : A -> C) l : csum (map (fun x => cmul s (f x)) l) = cmul s (csum (map f l)).
Proof. induction l as [|x l IH]; cbn; [rewrite cmul_0_r; reflexivity|]. fold (csum (map (fun x => cmul s (f x)) l)) (csum (map f l)). rewrite IH, cmul_add_r. reflexivity. Qed.
Lemma csum_zero {A} (f : A -> C) l : (forall x, In x l -> f x = c0) -> csum (map f l) = c0.
Proof. induction l as [|x l IH]; intros H; [reflexivity|]. cbn. fold (csum (map f l)). rewrite IH, H; [apply cadd_0_l|left; reflexivity|intros; apply H; right; assumption]. Qed.
Lemma csum_one (f : N -> C) A : forall l, NoDup l -> In A l -> (forall x, In x l -> x <> A -> f x = c0) -> csum (map f l) = f A.
Proof.
  induction l as [|x l IH]; intros ND I H; [contradiction|]. inversion ND as [|? ? Hn Hd]; subst. cbn. fold (csum (map f l)). destruct (N.eq_dec x A) as [->|NE].
  - rewrite csum_zero; [apply cadd_0_r|]. intros z Hz. apply H; [right; exact Hz|]. intros ->. contradiction.
  - destruct I as [->|I]; [congruence|]. rewrite IH; [|exact Hd|exact I|intros; apply H; [right; assumption|assumption]]. rewrite H; [apply cadd_0_l|left; reflexivity|exact NE].
Qed.
Lemma csum_two (f : N -> C) A B l : NoDup l -> In A l -> In B l -> A <> B -> (forall x, In x l -> x <> A -> x <> B -> f x = c0) -> csum (map f l) = cadd (f A) (f B).
Proof.
  intros ND IA IB NE H. transitivity (csum (map (fun x => cadd (if N.eqb x A then f x else c0) (if N.eqb x A then c0 else f x)) l)).
  - f_equal. apply map_ext. intros x. destruct (N.eqb x A); [rewrite cadd_0_r|rewrite cadd_0_l]; reflexivity.
  - rewrite csum_map_add. f_equal.
    + rewrite (csum_one _ A); [rewrite N.eqb_refl; reflexivity|exact ND|exact IA|]. intros x _ Hx. apply N.eqb_neq in Hx. rewrite Hx. reflexivity.
    + rewrite (csum_one _ B); [|exact ND|exact IB|].
      * assert (E : N.eqb B A = false) by (apply N.eqb_neq; congruence). rewrite E. reflexivity.
      * intros x Hx Hb. destruct (N.eqb_spec x A) as [|Ha]; [reflexivity|apply H; assumption].
Qed.
(** The sum of real, non-negative denominators. *)
Lemma csum_real {A} (f : A -> C) (q : A -> Qc) l : (forall x, In x l -> f x = (q x, 0)) -> (forall x, 0 <= q x) ->
  snd (csum (map f l)) = 0 /\ 0 <= fst (csum (map f l)) /\ (fst (csum (map f l)) = 0 -> forall x, In x l -> q x = 0).
Proof.
  intros H P. induction l as [|x l IH]; [cbn; split; [reflexivity|]; split; [discriminate|intros _ x []]|].
  destruct IH as (I1 & I2 & I3); [intros; apply H; right; assumption|]. cbn. fold (csum (map f l)). rewrite (H x (or_introl eq_refl)). cbn. rewrite I1. split; [ring|].
  split; [apply add_pos; [apply P|exact I2]|]. intros E z [<-|Hz].
  - exact (add_zero _ _ (P x) I2 E).
  - apply I3; [|exact Hz]. rewrite Qcplus_comm in E. exact (add_zero _ _ I2 (P x) E).
Qed.

(** ** Accumulation over the antennas *)
Definition base (j : nat) : nat := 2 * (j / 2).
Lemma base_even j : Nat.even j = true -> base j = j.
Proof. intros E. apply Nat.even_spec in E. destruct E as [m ->]. unfold base. lia. Qed.
Lemma base_S j : Nat.even j = true -> base (S j) = j.
Proof. intros E. apply Nat.even_spec in E. destruct E as [m ->]. unfold base. lia. Qed.
Lemma even_S j : Nat.even j = true -> Nat.even (S j) = false.
Proof. intros E. rewrite Nat.even_succ, <- Nat.negb_even, E. reflexivity. Qed.

Section Div.
  Variables (mat : list (N * N)) (modulo pxx : N) (ks0 : list N).
  Definition streams_of (j : nat) : N * N := nth (N.to_nat (((pxx + N.of_nat (base j)) / 2) mod modulo)) mat (0, 0)%N.
  Hypothesis Hmat : forall j, (j < length ks0)%nat -> (N.to_nat (((pxx + N.of_nat (base j)) / 2) mod modulo) < length mat)%nat.
  Definition hA (a : antenna) (j : nat) : C :=
    half (cadd (chestim a (fst (streams_of j)) (nth (base j) ks0 0%N)) (chestim a (fst (streams_of j)) (nth (S (base j)) ks0 0%N))).
  Definition hB (a : antenna) (j : nat) : C :=
    half (cadd (chestim a (snd (streams_of j)) (nth (base j) ks0 0%N)) (chestim a (snd (streams_of j)) (nth (S (base j)) ks0 0%N))).
  Definition fN (a : antenna) (j : nat) : C :=
    let r0 := y a (nth (base j) ks0 0%N) in let r1 := y a (nth (S (base j)) ks0 0%N) in
    if Nat.even j then cadd (cmul (conj (hA a j)) r0) (cmul (hB a j) (conj r1)) else cadd (cmul (copp (hB a j)) (conj r0)) (cmul (conj (hA a j)) r1).
  Definition fD (a : antenna) (j : nat) : C := cadd (cmul (hA a j) (conj (hA a j))) (cmul (hB a j) (conj (hB a j))).

  Lemma div_ant_ok a : forall n cnt ks num den, length ks = (2 * n)%nat -> Nat.even cnt = true -> (forall i, (i < length ks)%nat -> nth i ks 0%N = nth (cnt + i) ks0 0%N) ->
    (cnt + length ks)%nat = length ks0 -> length num = length ks0 -> length den = length ks0 ->
    exists num' den', div_ant mat modulo pxx a cnt ks num den = Ok (num', den') /\ length num' = length ks0 /\ length den' = length ks0 /\
      (forall j, (j < cnt)%nat -> nth j num' c0 = nth j num c0 /\ nth j den' c0 = nth j den c0) /\
      forall j, (cnt <= j < length ks0)%nat -> nth j num' c0 = cadd (nth j num c0) (fN a j) /\ nth j den' c0 = cadd (nth j den c0) (fD a j).
  Proof using Hmat.
    induction n as [|n IH]; intros cnt ks num den Hn He Hk Hl Ln Ld.
    - destruct ks; [|discriminate]. cbn in Hl. exists num, den. split; [reflexivity|]. split; [exact Ln|]. split; [exact Ld|]. split; [intros; split; reflexivity|intros; lia].
    - destruct ks as [|k [|k' ks]]; cbn in Hn; [lia|lia|]. cbn [length] in Hl. cbn [div_ant].
      assert (E1 := base_even cnt He). assert (E2 := base_S cnt He).
      assert (Ek : k = nth cnt ks0 0%N) by (specialize (Hk 0%nat); cbn in Hk; rewrite Hk by lia; f_equal; lia).
      assert (Ek' : k' = nth (S cnt) ks0 0%N) by (specialize (Hk 1%nat); cbn in Hk; rewrite Hk by lia; f_equal; lia).
      unfold at_idx. rewrite (rd_ok mat _ (0, 0)%N) by (rewrite <- E1 at 1; apply Hmat; lia). cbn [bind].
      assert (ES : streams_of cnt = nth (N.to_nat (((pxx + N.of_nat cnt) / 2) mod modulo)) mat (0, 0)%N) by (unfold streams_of; rewrite E1; reflexivity).
      rewrite <- ES. assert (ES' : streams_of (S cnt) = streams_of cnt) by (unfold streams_of; rewrite E1, E2; reflexivity).
      destruct (streams_of cnt) as [A B] eqn:AB.
      rewrite !(rd_ok num _ c0) by lia. cbn [bind]. rewrite !(rd_ok den _ c0) by lia. cbn [bind]. cbv zeta.
      match goal with |- exists num' den', div_ant _ _ _ _ _ _ ?nn ?dd = _ /\ _ => destruct (IH (S (S cnt)) ks nn dd) as (num' & den' & E & L1 & L2 & P1 & P2) end.
      + lia.
      + rewrite Nat.even_succ_succ. exact He.
      + intros i Hi. specialize (Hk (S (S i))). cbn [nth length] in Hk. rewrite Hk by lia. f_equal. lia.
      + lia.
      + rewrite !upd_length. exact Ln.
      + rewrite !upd_length. exact Ld.
      + exists num', den'. split; [exact E|]. split; [exact L1|]. split; [exact L2|]. split.
        * intros j Hj. destruct (P1 j) as [Q1 Q2]; [lia|]. rewrite Q1, Q2. rewrite !nth_upd_other by lia. split; reflexivity.
        * intros j Hj. destruct (Nat.eq_dec j cnt) as [->|N1]; [|destruct (Nat.eq_dec j (S cnt)) as [->|N2]].
          -- destruct (P1 cnt) as [Q1 Q2]; [lia|]. rewrite Q1, Q2. rewrite (nth_upd_other _ (S cnt) cnt), (nth_upd_other _ (S cnt) cnt) by lia.
             rewrite !nth_upd_same by lia. unfold fN, fD, hA, hB. rewrite E1, He, AB, <- Ek, <- Ek'. cbn [fst snd]. split; reflexivity.
          -- destruct (P1 (S cnt)) as [Q1 Q2]; [lia|]. rewrite Q1, Q2. rewrite !nth_upd_same by (rewrite ?upd_length; lia).
             unfold fN, fD, hA, hB. rewrite E2, (even_S _ He), ES', <- Ek, <- Ek'. cbn [fst snd]. split; reflexivity.
          -- destruct (P2 j) as [Q1 Q2]; [lia|]. rewrite Q1, Q2. rewrite !nth_upd_other by lia. split; reflexivity.
  Qed.

  Lemma div_ants_ok : Nat.even (length ks0) = true -> forall ants num den, length num = length ks0 -> length den = length ks0 ->
    exists num' den', div_ants mat modulo pxx ants ks0 num den = Ok (num', den') /\ length num' = length ks0 /\ length den' = length ks0 /\
      forall j, (j < length ks0)%nat -> nth j num' c0 = cadd (nth j num c0) (csum (map (fun a => fN a j) ants)) /\ nth j den' c0 = cadd (nth j den c0) (csum (map (fun a => fD a j) ants)).
  Proof using Hmat.
    intros Ev. induction ants as [|a ants IH]; intros num den Ln Ld; cbn [div_ants].
    - exists num, den. split; [reflexivity|]. split; [exact Ln|]. split; [exact Ld|]. intros j Hj. cbn. rewrite !cadd_0_r. split; reflexivity.
    - apply Nat.even_spec in Ev as Ev'. destruct Ev' as [m Em].
      destruct (div_ant_ok a m 0 ks0 num den Em eq_refl) as (n1 & d1 & E & L1 & L2 & _ & P); [reflexivity|reflexivity|exact Ln|exact Ld|]. rewrite E. cbn [bind].
      destruct (IH n1 d1 L1 L2) as (n2 & d2 & E' & L1' & L2' & P'). exists n2, d2. split; [exact E'|]. split; [exact L1'|]. split; [exact L2'|]. intros j Hj.
      destruct (P j) as [Q1 Q2]; [lia|]. destruct (P' j Hj) as [Q3 Q4]. rewrite Q3, Q4, Q1, Q2. cbn [map csum fold_right]. rewrite !cadd_assoc. split; reflexivity.
  Qed.
End Div.

Lemma divide_nth num den j : length num = length den -> (j < length num)%nat -> nth j (divide num den) c0 = cdiv (nth j num c0) (nth j den c0).
Proof.
  intros L H. unfold divide. rewrite (nth_indep _ c0 (cdiv (fst (c0, c0)) (snd (c0, c0)))) by (rewrite map_length, combine_length; lia).
  rewrite (map_nth (fun p => cdiv (fst p) (snd p))). rewrite combine_nth by exact L. reflexivity.
Qed.
Lemma divide_length num den : length num = length den -> length (divide num den) = length num.
Proof. intros L. unfold divide. rewrite map_length, combine_length. lia. Qed.

(** Maximum ratio combining of one stream *)
Lemma mrc_ant_ok a : forall ks cnt num den, (cnt + length ks)%nat = length num -> length num = length den ->
  exists num' den', mrc_ant a cnt ks num den = Ok (num', den') /\ length num' = length num /\ length den' = length num /\
    (forall j, (j < cnt)%nat -> nth j num' c0 = nth j num c0 /\ nth j den' c0 = nth j den c0) /\
    forall i, (i < length ks)%nat -> let k := nth i ks 0%N in
      nth (cnt + i) num' c0 = cadd (nth (cnt + i) num c0) (cmul (y a k) (conj (chestim a 0 k))) /\
      nth (cnt + i) den' c0 = cadd (nth (cnt + i) den c0) (cmul (chestim a 0 k) (conj (chestim a 0 k))).
Proof.
  induction ks as [|k ks IH]; intros cnt num den L1 L2; cbn [mrc_ant].
  - exists num, den. split; [reflexivity|]. split; [reflexivity|]. split; [lia|]. split; [intros; split; reflexivity|cbn; intros; lia].
  - cbn [length] in L1. rewrite (rd_ok num cnt c0), (rd_ok den cnt c0) by lia. cbn [bind].
    match goal with |- exists num' den', mrc_ant _ _ _ ?nn ?dd = _ /\ _ => destruct (IH (S cnt) nn dd) as (n2 & d2 & E & M1 & M2 & P1 & P2); [rewrite upd_length; lia|rewrite !upd_length; lia|] end.
    rewrite upd_length in M1, M2. exists n2, d2. split; [exact E|]. split; [exact M1|]. split; [exact M2|]. split.
    + intros j Hj. destruct (P1 j) as [Q1 Q2]; [lia|]. rewrite Q1, Q2, !nth_upd_other by lia. split; reflexivity.
    + intros [|i] Hi; cbn [nth]; cbv zeta.
      * rewrite Nat.add_0_r. destruct (P1 cnt) as [Q1 Q2]; [lia|]. rewrite Q1, Q2, !nth_upd_same by lia. split; reflexivity.
      * cbn [length] in Hi. replace (cnt + S i)%nat with (S cnt + i)%nat by lia. destruct (P2 i) as [Q1 Q2]; [lia|]. rewrite Q1, Q2, !nth_upd_other by lia. split; reflexivity.
Qed.
Lemma mrc_ants_ok ks : forall ants num den, length num = length ks -> length den = length ks ->
  exists num' den', mrc_ants ants ks num den = Ok (num', den') /\ length num' = length ks /\ length den' = length ks /\
    forall i, (i < length ks)%nat -> let k := nth i ks 0%N in
      nth i num' c0 = cadd (nth i num c0) (csum (map (fun a => cmul (y a k) (conj (chestim a 0 k))) ants)) /\
      nth i den' c0 = cadd (nth i den c0) (csum (map (fun a => cmul (chestim a 0 k) (conj (chestim a 0 k))) ants)).
Proof.
  induction ants as [|a ants IH]; intros num den Ln Ld; cbn [mrc_ants].
  - exists num, den. split; [reflexivity|]. split; [exact Ln|]. split; [exact Ld|]. intros i Hi. cbn. rewrite !cadd_0_r. split; reflexivity.
  - destruct (mrc_ant_ok a ks 0 num den) as (n1 & d1 & E & L1 & L2 & _ & P); [lia|lia|]. rewrite E. cbn [bind].
    destruct (IH n1 d1) as (n2 & d2 & E' & L1' & L2' & P'); [lia|lia|]. exists n2, d2. split; [exact E'|]. split; [exact L1'|]. split; [exact L2'|]. intros i Hi. cbv zeta.
    destruct (P i) as [Q1 Q2]; [lia|]. destruct (P' i Hi) as [Q3 Q4]. cbn [Nat.add] in Q1, Q2. rewrite Q3, Q4, Q1, Q2. cbn [map csum fold_right]. rewrite !cadd_assoc. split; reflexivity.
Qed.
(** If every antenna receives its channel times the symbol [s k], the symbols come out. *)
Lemma mrc_ok ants ks (s : N -> C) : (forall a k, In a ants -> In k ks -> y a k = cmul (chestim a 0 k) (s k)) -> (forall k, In k ks -> exists a, In a ants /\ chestim a 0 k <> c0) ->
  mrc ants ks = Ok (map s ks).
Proof.
  intros Hy Hh. unfold mrc. destruct (mrc_ants_ok ks ants (repeat c0 (length ks)) (repeat c0 (length ks))) as (num & den & E & L1 & L2 & P); [apply repeat_length|apply repeat_length|].
  rewrite E. cbn [bind]. f_equal. apply nth_ext with (d := c0) (d' := s 0%N); [rewrite divide_length, map_length; lia|]. intros i Hi. rewrite divide_length in Hi by lia. rewrite L1 in Hi.
  rewrite divide_nth by lia. rewrite (map_nth s). destruct (P i Hi) as [Q1 Q2]. cbv zeta in Q1, Q2. rewrite Q1, Q2, !nth_repeat, !cadd_0_l. set (k := nth i ks 0%N) in *. assert (Ik : In k ks) by (apply nth_In; exact Hi).
  assert (EN : csum (map (fun a => cmul (y a k) (conj (chestim a 0 k))) ants) = cmul (s k) (csum (map (fun a => cmul (chestim a 0 k) (conj (chestim a 0 k))) ants))).
  { rewrite <- csum_mul. f_equal. apply map_ext_in. intros a Ha. rewrite (Hy a k Ha Ik). generalize (chestim a 0 k) (s k). intros. cring. }
  rewrite EN. destruct (csum_real (fun a => cmul (chestim a 0 k) (conj (chestim a 0 k))) (fun a => sq (chestim a 0 k)) ants) as (R1 & R2 & R3); [intros; apply mul_conj|intros; apply sq_nonneg|].
  apply cdiv_real; [exact R1|]. intros Z. destruct (Hh k Ik) as (a & Ia & Na). apply Na, sq_zero, (R3 Z a Ia).
Qed.
