(** C70: combining the antennas recovers every symbol that was sent. *)
From Verif Require Import Base IntHelpers PacketSizes Cells CellsFacts TxCells RxSymbols Combining CombiningSpec CombiningFacts.
From Coq Require Import QArith Qcanon Lia.
Open Scope Qc_scope.

(** ** What is on the air *)
Lemma carried_none (num : value -> C) t k : forall (ws : list write) (acc : C), (forall w, In w ws -> snd (fst w) <> k) ->
  fold_left (fun (acc : C) (w : write) => let '(t', k', v) := w in if ((t' =? t) && (k' =? k))%N then num v else acc) ws acc = acc.
Proof.
  induction ws as [|[[t' k'] v] ws IH]; intros acc H; [reflexivity|]. cbn [fold_left]. rewrite IH by (intros; apply H; right; assumption).
  specialize (H _ (or_introl eq_refl)). cbn in H. apply N.eqb_neq in H. rewrite H, andb_false_r. reflexivity.
Qed.
Lemma carried_cell (num : value -> C) (wl : list (list write)) ks j ws t k : (forall i w, nth_error wl i = Some w -> forall x, In x w -> nth_error ks i = Some (snd (fst x))) -> NoDup ks ->
  nth_error wl j = Some ws -> nth_error ks j = Some k -> carried num (concat wl) t k = carried num ws t k.
Proof.
  intros H ND Ej Ek. apply nth_error_split in Ej as (l1 & l2 & -> & Lj). rewrite concat_app. cbn [concat]. unfold carried. rewrite !fold_left_app.
  assert (D : forall i w x, nth_error (l1 ++ ws :: l2) i = Some w -> i <> j -> In x w -> snd (fst x) <> k).
  { intros i w x Ei Ni Ix E. specialize (H i w Ei x Ix). rewrite E in H. apply Ni. apply (NoDup_nth_error ks); [exact ND|apply nth_error_Some; congruence|congruence]. }
  rewrite (carried_none num t k (concat l1)).
  - apply carried_none. intros x Hx. apply in_concat in Hx as (w & Iw & Ix). apply In_nth_error in Iw as (i & Ei). apply (D (length l1 + S i)%nat w x); [|lia|exact Ix].
    rewrite nth_error_app2 by lia. replace (length l1 + S i - length l1)%nat with (S i) by lia. exact Ei.
  - intros x Hx. apply in_concat in Hx as (w & Iw & Ix). apply In_nth_error in Iw as (i & Ei). assert (L : (i < length l1)%nat) by (apply nth_error_Some; congruence).
    apply (D i w x); [rewrite nth_error_app1 by exact L; exact Ei|lia|exact Ix].
Qed.

Lemma table n : In n [2; 4; 8]%N -> exists mat, index_N_TS n = Ok mat /\ length mat = N.to_nat (get_modulo n) /\ (0 < get_modulo n)%N /\ (forall A B, In (A, B) mat -> A < n /\ B < n /\ A <> B)%N.
Proof.
  assert (G : forall n mat, forallb (fun p => (fst p <? n) && (snd p <? n) && negb (fst p =? snd p))%N mat = true -> forall A B, In (A, B) mat -> (A < n /\ B < n /\ A <> B)%N).
  { clear. intros n mat F A B I. rewrite forallb_forall in F. specialize (F _ I). cbn in F. rewrite !andb_true_iff, !N.ltb_lt, negb_true_iff, N.eqb_neq in F. tauto. }
  intros [<-|[<-|[<-|[]]]]; eexists; (split; [reflexivity|]); (split; [reflexivity|]); (split; [reflexivity|]); apply G; reflexivity.
Qed.

Section Pairs.
  Variables (num : value -> C) (n pxx : N) (ks : list N) (wl : list (list write)) (s : nat -> C) (hs : list (N -> N -> C)) (mat : list (N * N)).
  Hypotheses (Hn : In n [2; 4; 8]%N) (Hp : (pxx mod 2 = 0)%N) (Hd : NoDup ks) (He : Nat.even (length ks) = true) (Hm : index_N_TS n = Ok mat).
  Hypothesis Hl : length wl = length ks.
  Hypothesis Hw : forall j k, nth_error ks j = Some k -> exists A B va vb, nth_error wl j = Some [(A, k, va); (B, k, vb)] /\
    at_idx mat (((pxx + N.of_nat j) / 2) mod get_modulo n) = Ok (A, B) /\ num va = s j /\ num vb = if Nat.even j then copp (conj (s (S j))) else conj (s (pred j)).
  Hypotheses (Hf : flat_pairs hs ks) (Ha : audible hs n ks).
  Let ants := listen hs (carried num (concat wl)) n.

  Lemma halves j : ((pxx + N.of_nat j) / 2 = (pxx + N.of_nat (base j)) / 2)%N.
  Proof using Hp. clear - Hp. unfold base. lia. Qed.
  Lemma Hmat j : (N.to_nat (((pxx + N.of_nat (base j)) / 2) mod get_modulo n) < length mat)%nat.
  Proof using Hn Hm. destruct (table n Hn) as (m & Em & Lm & P & _). rewrite Hm in Em. injection Em as <-. rewrite Lm. pose proof (N.mod_lt ((pxx + N.of_nat (base j)) / 2) (get_modulo n)) as Q. clear - P Q. lia. Qed.

  (** What an antenna receives at cell [j]. *)
  Lemma air h j k : nth_error ks j = Some k -> In h hs -> let p := streams_of mat (get_modulo n) pxx j in
    (fst p < n /\ snd p < n /\ fst p <> snd p)%N /\
    received h (carried num (concat wl)) n k = cadd (cmul (h (fst p) k) (s j)) (cmul (h (snd p) k) (if Nat.even j then copp (conj (s (S j))) else conj (s (pred j)))).
  Proof using Hn Hp Hd Hm Hl Hw.
    intros Ek Ih p. destruct (Hw j k Ek) as (A & B & va & vb & Ew & Eat & Va & Vb). rewrite halves in Eat. unfold at_idx in Eat. rewrite (rd_ok mat _ (0, 0)%N) in Eat by apply Hmat. injection Eat as Ep.
    assert (EP : p = (A, B)) by (exact Ep). rewrite EP. cbn [fst snd]. destruct (table n Hn) as (m & Em & Lm & _ & T). rewrite Hm in Em. injection Em as <-.
    assert (T' : (A < n /\ B < n /\ A <> B)%N) by (apply T; rewrite <- Ep; apply nth_In, Hmat). split; [exact T'|]. destruct T' as (TA & TB & TN).
    assert (Car : forall t, carried num (concat wl) t k = if (B =? t)%N then num vb else if (A =? t)%N then num va else c0).
    { intros t. rewrite (carried_cell num wl ks j [(A, k, va); (B, k, vb)] t k); [|..|exact Hd|exact Ew|exact Ek].
      - unfold carried. cbn [fold_left]. rewrite N.eqb_refl, !andb_true_r. destruct (N.eqb_spec B t), (N.eqb_spec A t); reflexivity.
      - intros i w Ei x Ix. assert (L : (i < length ks)%nat) by (rewrite <- Hl; apply nth_error_Some; congruence). destruct (nth_error ks i) as [ki|] eqn:Eki; [|apply nth_error_None in Eki; lia].
        destruct (Hw i ki Eki) as (A' & B' & va' & vb' & Ew' & _). rewrite Ei in Ew'. injection Ew' as ->. destruct Ix as [<-|[<-|[]]]; reflexivity. }
    unfold received. rewrite (csum_two _ A B).
    - rewrite !Car, N.eqb_refl. assert (E : (B =? A)%N = false) by (apply N.eqb_neq; congruence). rewrite E, N.eqb_refl, Va, Vb. reflexivity.
    - apply nseq_nodup.
    - apply upto_in. exact TA.
    - apply upto_in. exact TB.
    - exact TN.
    - intros x _ NA NB. rewrite Car. assert (E1 : (B =? x)%N = false) by (apply N.eqb_neq; congruence). assert (E2 : (A =? x)%N = false) by (apply N.eqb_neq; congruence). rewrite E1, E2. apply cmul_0_r.
  Qed.

  Lemma recovered : run_diversity n pxx ants ks = Ok (map s (seq 0 (length ks))).
  Proof using Hn Hp Hd He Hm Hl Hw Hf Ha.
    unfold run_diversity. rewrite Hm. cbn [bind]. unfold guard. rewrite He.
    destruct (div_ants_ok mat (get_modulo n) pxx ks (fun j _ => Hmat j) He ants (repeat c0 (length ks)) (repeat c0 (length ks))) as (nu & de & E & L1 & L2 & P); [apply repeat_length|apply repeat_length|].
    rewrite E. cbn [bind]. f_equal. apply nth_ext with (d := c0) (d' := s 0%nat); [rewrite divide_length, map_length, seq_length; lia|]. intros j Hj. rewrite divide_length in Hj by lia. rewrite L1 in Hj.
    rewrite divide_nth by lia. rewrite (map_nth s), seq_nth by exact Hj. cbn [Nat.add]. destruct (P j Hj) as [Q1 Q2]. rewrite Q1, Q2, !nth_repeat, !cadd_0_l.
    assert (Lb : (base j < length ks /\ S (base j) < length ks)%nat).
    { apply Nat.even_spec in He as [m Em]. clear - Hj Em. unfold base. lia. }
    assert (Ek : nth_error ks (base j) = Some (nth (base j) ks 0%N)) by (apply nth_error_nth'; lia).
    assert (Ek' : nth_error ks (S (base j)) = Some (nth (S (base j)) ks 0%N)) by (apply nth_error_nth'; lia).
    set (k := nth (base j) ks 0%N) in *. set (k' := nth (S (base j)) ks 0%N) in *.
    assert (Bb : Nat.even (base j) = true) by (unfold base; apply Nat.even_spec; exists (j / 2)%nat; reflexivity).
    assert (S1 : streams_of mat (get_modulo n) pxx (base j) = streams_of mat (get_modulo n) pxx j) by (unfold streams_of; rewrite (base_even _ Bb); reflexivity).
    assert (S2 : streams_of mat (get_modulo n) pxx (S (base j)) = streams_of mat (get_modulo n) pxx j) by (unfold streams_of; rewrite (base_S _ Bb); reflexivity).
    destruct (streams_of mat (get_modulo n) pxx j) as [A B] eqn:AB.
    assert (Fl : forall h t, In h hs -> h t k' = h t k) by (intros h t I; symmetry; apply (Hf h t (j / 2)%nat); [exact I|exact Ek|rewrite Nat.add_1_r; exact Ek']).
    assert (HA : forall h, In h hs -> hA mat (get_modulo n) pxx ks (mkAnt (received h (carried num (concat wl)) n) h) j = h A k).
    { intros h I. unfold hA. cbn [chestim]. fold k k'. rewrite AB. cbn [fst]. rewrite (Fl h A I). apply half_same. }
    assert (HB : forall h, In h hs -> hB mat (get_modulo n) pxx ks (mkAnt (received h (carried num (concat wl)) n) h) j = h B k).
    { intros h I. unfold hB. cbn [chestim]. fold k k'. rewrite AB. cbn [snd]. rewrite (Fl h B I). apply half_same. }
    assert (EN : csum (map (fun a => fN mat (get_modulo n) pxx ks a j) ants) = cmul (s j) (csum (map (fun a => fD mat (get_modulo n) pxx ks a j) ants))).
    { rewrite <- csum_mul. unfold ants, listen. rewrite !map_map. f_equal. apply map_ext_in. intros h I. unfold fN, fD. cbn [y]. fold k k'. rewrite (HA h I), (HB h I).
      destruct (air h (base j) k Ek I) as [_ R0]. destruct (air h (S (base j)) k' Ek' I) as [_ R1]. cbv zeta in R0, R1. rewrite R0, R1, S1, S2, Bb, (even_S _ Bb). cbn [fst snd pred]. rewrite !(Fl h _ I).
      destruct (Nat.even j) eqn:Ev.
      - rewrite (base_even _ Ev). generalize (h A k) (h B k) (s j) (s (S j)). clear. intros. cring.
      - assert (Ej : S (base j) = j) by (clear - Ev; rewrite <- Nat.negb_odd, negb_false_iff in Ev; apply Nat.odd_spec in Ev as [m ->]; unfold base; lia). rewrite Ej.
        generalize (h A k) (h B k) (s j) (s (base j)). clear. intros. cring. }
    rewrite EN. destruct (csum_real (fun a => fD mat (get_modulo n) pxx ks a j) (fun a => sq (hA mat (get_modulo n) pxx ks a j) + sq (hB mat (get_modulo n) pxx ks a j)) ants) as (R1 & R2 & R3).
    - intros a _. unfold fD. rewrite !mul_conj. apply C_eq; cbn; ring.
    - intros a. apply add_pos; apply sq_nonneg.
    - apply cdiv_real; [exact R1|]. intros Z.
      assert (AllZ : forall h, In h hs -> h A k = c0 /\ h B k = c0).
      { intros h I. specialize (R3 Z (mkAnt (received h (carried num (concat wl)) n) h)). rewrite (HA h I), (HB h I) in R3. specialize (R3 (in_map _ _ _ I)).
        split; apply sq_zero; [|rewrite Qcplus_comm in R3]; exact (add_zero _ _ (sq_nonneg _) (sq_nonneg _) R3). }
      assert (Hne : exists h0, In h0 hs \/ hs = []) by (destruct hs as [|h0 ?]; [exists (fun _ _ => c0); right; reflexivity|exists h0; left; left; reflexivity]).
      assert (T : (A < n /\ B < n /\ A <> B)%N).
      { destruct (table n Hn) as (m & Em & _ & _ & T). rewrite Hm in Em. injection Em as <-. apply T. rewrite <- AB. apply nth_In, Hmat. }
      destruct T as (TA & TB & TN). assert (Ik : In k ks) by (apply nth_In; lia).
      destruct (Ha A B k TA TB TN Ik) as [(h & I & NZ)|(h & I & NZ)]; apply NZ, AllZ; exact I.
  Qed.
End Pairs.

(** ** The theorems *)
(** Data field with transmit diversity: what the transmitter writes for one OFDM symbol (TxCells.run_pdc_div) from the buffer [buf] of modulated symbols
    arrives as these symbols, in order. *)
Theorem C70_data_diversity : forall ctl dat ref x n subc buf ks hs wl, x_ts x = n -> In n [2; 4; 8]%N -> (subc mod 2 = 0)%N -> NoDup ks -> Nat.even (length ks) = true ->
  mapM (run_pdc_div x subc buf) (combine (upto (len ks)) ks) = Ok wl -> flat_pairs hs ks -> audible hs n ks -> forall occ,
  collect_pdc n 1 occ subc (listen hs (carried (number ctl dat ref) (concat wl)) n) ks = Ok (map dat (firstn (length ks) buf)).
Proof.
  intros ctl dat ref x n subc buf ks hs wl Hx Hn Hs Hd He Hw Hf Ha occ. unfold collect_pdc.
  replace (n =? 1)%N with false by (destruct Hn as [<-|[<-|[<-|[]]]]; reflexivity). change (1 =? 1)%N with true. cbv iota.
  destruct (table n Hn) as (mat & Hm & _). apply mapM_inv in Hw.
  assert (Lc : length (combine (upto (len ks)) ks) = length ks).
  { rewrite combine_length. unfold upto. rewrite nseq_length. unfold len. lia. }
  assert (Hl : length wl = length ks) by (rewrite <- Lc; symmetry; clear - Hw; induction Hw; cbn; congruence).
  assert (Cell : forall j k, nth_error ks j = Some k -> exists w, nth_error wl j = Some w /\ run_pdc_div x subc buf (N.of_nat j, k) = Ok w).
  { intros j k Ek. assert (L : (j < length ks)%nat) by (apply nth_error_Some; congruence). destruct (nth_error wl j) as [w|] eqn:Ew; [|apply nth_error_None in Ew; lia]. exists w. split; [reflexivity|].
    assert (Ec : nth_error (combine (upto (len ks)) ks) j = Some (N.of_nat j, k)).
    { clear - Ek L. rewrite (nth_error_nth' _ (0, 0)%N) by (rewrite combine_length; unfold upto; rewrite nseq_length; unfold len; lia). f_equal.
      rewrite combine_nth by (unfold upto; rewrite nseq_length; unfold len; lia). f_equal.
      - apply nth_error_nth. unfold upto. rewrite nseq_nth; [f_equal; lia|unfold len; lia].
      - apply nth_error_nth. exact Ek. }
    clear - Hw Ew Ec. generalize dependent (N.of_nat j). intros q Ec. revert j Ew Ec. induction Hw as [|p w' l l' H _ IH]; intros [|j] Ew Ec; cbn [nth_error] in Ew, Ec; try discriminate; [congruence|apply (IH j); assumption]. }
  assert (Full : forall j, (j < length ks)%nat -> (j < length buf)%nat).
  { intros j L. destruct (nth_error ks j) as [k|] eqn:Ek; [|apply nth_error_None in Ek; lia]. destruct (Cell j k Ek) as (w & _ & R). unfold run_pdc_div in R. rewrite Hx, Hm in R. cbn [bind] in R.
    destruct (at_idx mat _) as [[A B]| | |]; try discriminate R. cbn [bind] in R. unfold at_idx at 1 in R. unfold rd in R. destruct (nth_error buf (N.to_nat (N.of_nat j))) eqn:Eb; [|discriminate R].
    rewrite Nat2N.id in Eb. apply nth_error_Some. congruence. }
  rewrite (recovered (number ctl dat ref) n subc ks wl (fun j => dat (nth j buf 0%N)) hs mat Hn Hs Hd He Hm Hl).
  - f_equal. rewrite <- map_map. f_equal. apply nth_ext with (d := nth 0 buf 0%N) (d' := 0%N).
    + assert (length ks <= length buf)%nat by (destruct (length ks) as [|m] eqn:Em; [lia|specialize (Full m); lia]). rewrite map_length, seq_length, firstn_length. lia.
    + intros j Hj. rewrite map_length, seq_length in Hj. rewrite (map_nth (fun j => nth j buf 0%N)), seq_nth by exact Hj. cbn [Nat.add].
      assert (length ks <= length buf)%nat by (destruct (length ks) as [|m] eqn:Em; [lia|specialize (Full m); lia]).
      rewrite <- (firstn_skipn (length ks) buf) at 1. apply app_nth1. rewrite firstn_length. lia.
  - intros j k Ek. destruct (Cell j k Ek) as (w & Ew & R). unfold run_pdc_div in R. rewrite Hx, Hm in R. cbn [bind] in R.
    destruct (at_idx mat (((subc + N.of_nat j) / 2) mod get_modulo n)%N) as [[A B]| | |]; try discriminate R. cbn [bind] in R.
    destruct (at_idx buf (N.of_nat j)) as [v| | |] eqn:Ev; try discriminate R. cbn [bind] in R. destruct (at_idx buf (partner (N.of_nat j))) as [v'| | |] eqn:Ev'; try discriminate R. cbn [bind] in R. injection R as <-.
    exists A, B, (Data v), (DataConj (N.of_nat j mod 2 =? 0)%N v'). split; [exact Ew|]. split; [reflexivity|].
    assert (Rd : forall i z, at_idx buf (N.of_nat i) = Ok z -> nth i buf 0%N = z).
    { clear. intros i z E. unfold at_idx, rd in E. rewrite Nat2N.id in E. destruct (nth_error buf i) as [q|] eqn:Q; [|discriminate]. injection E as ->. apply nth_error_nth. exact Q. }
    cbn [number]. split; [rewrite (Rd j v Ev); reflexivity|]. unfold partner in Ev'. destruct (Nat.even j) eqn:Evn.
    + assert (Em : (N.of_nat j mod 2 =? 0)%N = true) by (apply Nat.even_spec in Evn as [m ->]; apply N.eqb_eq; lia). rewrite Em in *. replace (N.of_nat j + 1)%N with (N.of_nat (S j)) in Ev' by lia. rewrite (Rd _ _ Ev'). reflexivity.
    + assert (Em : (N.of_nat j mod 2 =? 0)%N = false) by (rewrite <- Nat.negb_odd, negb_false_iff in Evn; apply Nat.odd_spec in Evn as [m ->]; apply N.eqb_neq; lia). rewrite Em in *.
      replace (N.of_nat j - 1)%N with (N.of_nat (pred j)) in Ev' by lia. rewrite (Rd _ _ Ev'). reflexivity.
  - exact Hf.
  - exact Ha.
Qed.

(** Control field with several streams. *)
Theorem C70_control_diversity : forall ctl dat ref n idx ks hs ws idx', In n [2; 4; 8]%N -> (idx mod 2 = 0)%N -> NoDup ks -> Nat.even (length ks) = true ->
  run_pcc n idx ks = Ok (ws, idx') -> flat_pairs hs ks -> audible hs n ks ->
  collect_pcc n idx (listen hs (carried (number ctl dat ref) ws) n) ks = Ok (map ctl (nseq idx (length ks))).
Proof.
  intros ctl dat ref n idx ks hs ws idx' Hn Hs Hd He Hw Hf Ha. unfold collect_pcc.
  assert (N1 : (n =? 1)%N = false) by (destruct Hn as [<-|[<-|[<-|[]]]]; reflexivity). rewrite N1.
  destruct (table n Hn) as (mat & Hm & _).
  assert (Split : exists wl, ws = concat wl /\ length wl = length ks /\ forall j k, nth_error ks j = Some k -> exists w, nth_error wl j = Some w /\ run_pcc_cell n (idx + N.of_nat j) k = Ok w).
  { clear - Hw. revert idx ws idx' Hw. induction ks as [|k ks IH]; intros idx ws idx' H; cbn [run_pcc] in H.
    - injection H as <- <-. exists []. split; [reflexivity|]. split; [reflexivity|]. intros [|j] k E; discriminate E.
    - destruct (run_pcc_cell n idx k) as [w| | |] eqn:Ew; try discriminate H. cbn [bind] in H. destruct (run_pcc n (idx + 1) ks) as [[ws' i']| | |] eqn:Er; try discriminate H. cbn [bind] in H. injection H as <- <-.
      destruct (IH _ _ _ Er) as (wl & -> & L & C). exists (w :: wl). split; [reflexivity|]. split; [cbn; lia|]. intros [|j] k' E; cbn in E |- *.
      + injection E as <-. exists w. split; [reflexivity|]. rewrite N.add_0_r. exact Ew.
      + destruct (C j k' E) as (w' & E1 & E2). exists w'. split; [exact E1|]. rewrite <- E2. f_equal. lia. }
  destruct Split as (wl & -> & Hl & Cell).
  rewrite (recovered (number ctl dat ref) n idx ks wl (fun j => ctl (idx + N.of_nat j)%N) hs mat Hn Hs Hd He Hm Hl).
  - f_equal. rewrite <- (map_map (fun j => (idx + N.of_nat j)%N) ctl). f_equal. apply nth_ext with (d := (idx + N.of_nat 0)%N) (d' := 0%N); [rewrite map_length, seq_length, nseq_length; reflexivity|].
    intros j Hj. rewrite map_length, seq_length in Hj. rewrite (map_nth (fun j => (idx + N.of_nat j)%N)), seq_nth by exact Hj. symmetry. apply nth_error_nth. rewrite nseq_nth by exact Hj. reflexivity.
  - intros j k Ek. destruct (Cell j k Ek) as (w & Ew & R). unfold run_pcc_cell in R. destruct (negb (idx + N.of_nat j <? 98)%N); [discriminate R|]. rewrite N1, Hm in R. cbn [bind] in R.
    destruct (at_idx mat (((idx + N.of_nat j) / 2) mod get_modulo n)%N) as [[A B]| | |]; try discriminate R. cbn [bind] in R. injection R as <-.
    eexists A, B, _, _. split; [exact Ew|]. split; [reflexivity|]. cbn [number]. split; [reflexivity|]. unfold partner. destruct (Nat.even j) eqn:Evn.
    + assert (Em : ((idx + N.of_nat j) mod 2 =? 0)%N = true) by (apply Nat.even_spec in Evn as [m ->]; apply N.eqb_eq; lia). rewrite Em. do 3 f_equal. lia.
    + assert (Em : ((idx + N.of_nat j) mod 2 =? 0)%N = false) by (rewrite <- Nat.negb_odd, negb_false_iff in Evn; apply Nat.odd_spec in Evn as [m ->]; apply N.eqb_neq; lia). rewrite Em. do 2 f_equal.
      destruct j as [|j]; [discriminate Evn|]. cbn [pred]. lia.
  - exact Hf.
  - exact Ha.
Qed.

(** One stream: the control field, and the data field in both ways it is processed. *)
Lemma heard_listen hs x n k : heard hs 0 k -> exists a, In a (listen hs x n) /\ chestim a 0 k <> c0.
Proof. intros (h & I & NZ). exists (mkAnt (received h x n) h). split; [apply in_map_iff; exists h; split; [reflexivity|exact I]|exact NZ]. Qed.
Lemma received_one h x k : received h x 1 k = cmul (h 0%N k) (x 0%N k).
Proof. unfold received. change (upto 1) with [0%N]. cbn. apply cadd_0_r. Qed.
Theorem C70_single_stream : forall (x : N -> N -> C) hs occ subc idx ks, (occ mod 2 = 0)%N -> cells_ok occ ks -> (forall k, (k <= occ)%N -> heard hs 0 k) -> forall n_ss,
  collect_pdc 1 n_ss occ subc (listen hs x 1) ks = Ok (map (x 0%N) ks) /\ collect_pcc 1 idx (listen hs x 1) ks = Ok (map (x 0%N) ks).
Proof.
  intros x hs occ subc idx ks Ho [Hi Hc] Hh n_ss. unfold collect_pdc, collect_pcc. change (1 =? 1)%N with true. cbv iota.
  assert (M : forall l, (forall k, In k l -> (k <= occ)%N) -> mrc (listen hs x 1) l = Ok (map (x 0%N) l)).
  { intros l B. apply mrc_ok.
    - intros a k Ia Ik. apply in_map_iff in Ia as (h & <- & _). cbn [y chestim]. apply received_one.
    - intros k Ik. apply heard_listen, Hh, B, Ik. }
  split; [|apply M; intros k Ik; apply Hc, Ik]. unfold single_antenna, run. destruct (N.eqb_spec (len ks) occ) as [E|E].
  - rewrite !M by (intros k Ik; apply nseq_in in Ik; lia). cbn [bind]. rewrite <- map_app. f_equal. f_equal.
    (* strictly increasing, within occ + 1 positions, without the centre: all the others *)
    assert (Low : forall i k, nth_error ks i = Some k -> (N.of_nat i <= k)%N).
    { induction i as [|i IH]; intros k Ek; [lia|]. destruct (nth_error ks i) as [k0|] eqn:E0; [|apply nth_error_None in E0; assert (S i < length ks)%nat by (apply nth_error_Some; congruence); lia].
      specialize (IH k0 eq_refl). specialize (Hi i (S i) k0 k ltac:(lia) E0 Ek). lia. }
    assert (High : forall m i k, (i + m + 1)%nat = length ks -> nth_error ks i = Some k -> (k + N.of_nat m <= occ)%N).
    { induction m as [|m IH]; intros i k Lm Ek; [destruct (Hc k (nth_error_In _ _ Ek)); lia|]. destruct (nth_error ks (S i)) as [k1|] eqn:E1; [|apply nth_error_None in E1; lia].
      specialize (IH (S i) k1 ltac:(lia) E1). specialize (Hi i (S i) k k1 ltac:(lia) Ek E1). lia. }
    assert (EL : length ks = N.to_nat occ) by (unfold len in E; lia).
    assert (Gap : forall i k, nth_error ks i = Some k -> k = if (N.of_nat i <? occ / 2)%N then N.of_nat i else (N.of_nat i + 1)%N).
    { assert (Near : forall i k, nth_error ks i = Some k -> (N.of_nat i <= k <= N.of_nat i + 1)%N).
      { intros i k Ek. assert (i < length ks)%nat by (apply nth_error_Some; congruence). specialize (Low i k Ek). specialize (High (length ks - i - 1)%nat i k ltac:(lia) Ek). lia. }
      assert (Below : forall i k, (N.of_nat i < occ / 2)%N -> nth_error ks i = Some k -> k = N.of_nat i).
      { intros i k L Ek. destruct (N.eq_dec k (N.of_nat i)) as [|NE]; [assumption|]. exfalso. pose proof (Near i k Ek).
        (* once one ahead, always one ahead: the centre would be hit *)
        assert (Run : forall d k', nth_error ks (i + d) = Some k' -> k' = (N.of_nat (i + d) + 1)%N).
        { induction d as [|d IH]; intros k' Ek'; [rewrite Nat.add_0_r in *; assert (k' = k) by congruence; lia|].
          destruct (nth_error ks (i + d)) as [k0|] eqn:E0; [|apply nth_error_None in E0; assert (i + S d < length ks)%nat by (apply nth_error_Some; congruence); lia].
          specialize (IH k0 eq_refl). pose proof (Hi (i + d)%nat (i + S d)%nat k0 k' ltac:(lia) E0 Ek'). pose proof (Near (i + S d)%nat k' Ek'). lia. }
        assert (P2 : (i + (N.to_nat (occ / 2) - 1 - i) < length ks)%nat) by (clear - EL L; lia).
        destruct (nth_error ks (i + (N.to_nat (occ / 2) - 1 - i))) as [kc|] eqn:Kc; [|apply nth_error_None in Kc; lia].
        specialize (Run _ kc Kc). destruct (Hc kc (nth_error_In _ _ Kc)) as [_ NC]. apply NC. clear - Run L. lia. }
      assert (Above : forall i k, (occ / 2 <= N.of_nat i)%N -> nth_error ks i = Some k -> k = (N.of_nat i + 1)%N).
      { assert (G : forall d i k, i = (N.to_nat (occ / 2) + d)%nat -> nth_error ks i = Some k -> k = (N.of_nat i + 1)%N).
        { induction d as [|d IH]; intros i k Ei Ek; pose proof (Near i k Ek).
          - destruct (Hc k (nth_error_In _ _ Ek)) as [_ NC]. lia.
          - destruct i as [|i]; [lia|]. destruct (nth_error ks i) as [k0|] eqn:E0; [|apply nth_error_None in E0; assert (S i < length ks)%nat by (apply nth_error_Some; congruence); lia].
            specialize (IH i k0 ltac:(lia) E0). pose proof (Hi i (S i) k0 k ltac:(lia) E0 Ek). lia. }
        intros i k L Ek. apply (G (i - N.to_nat (occ / 2))%nat i k); [lia|exact Ek]. }
      intros i k Ek. destruct (N.ltb_spec (N.of_nat i) (occ / 2)); [apply Below|apply Above]; assumption. }
    apply nth_ext with (d := 0%N) (d' := 0%N); [rewrite app_length, !nseq_length; lia|]. intros i Hl.
    assert (Li : (i < length ks)%nat) by (rewrite app_length, !nseq_length in Hl; lia). rewrite (Gap i (nth i ks 0%N)) by (apply nth_error_nth'; exact Li).
    destruct (N.ltb_spec (N.of_nat i) (occ / 2)) as [L|L].
    + rewrite app_nth1 by (rewrite nseq_length; lia). apply nth_error_nth. rewrite nseq_nth by lia. f_equal; lia.
    + rewrite app_nth2 by (rewrite nseq_length; lia). rewrite nseq_length. apply nth_error_nth. rewrite nseq_nth by lia. f_equal; lia.
  - rewrite M by (intros k Ik; apply nseq_in in Ik; lia). cbn [bind]. apply mapM_map. intros k Ik. destruct (Hc k Ik) as [Lk _]. unfold at_idx.
    rewrite (rd_ok _ _ (x 0%N 0%N)) by (rewrite map_length, nseq_length; lia). f_equal. rewrite (map_nth (x 0%N)). f_equal. apply nth_error_nth. rewrite nseq_nth by lia. f_equal; lia.
Qed.

(** Spatial multiplexing: no soft value is ever computed, so no packet with several spatial streams is received: one of the checks at its end fails. The
    whole reception is that of RxSymbols. *)
Ltac steps := repeat match goal with
  | H : Abort = Ok _ |- _ => discriminate H
  | H : Oob = Ok _ |- _ => discriminate H
  | H : bind ?e _ = Ok _ |- _ => let E := fresh "E" in destruct e eqn:E; cbn [bind] in H; try discriminate H
  | H : guard ?b _ = Ok _ |- _ => unfold guard in H; destruct b; [|discriminate H]
  | H : Ok _ = Ok _ |- _ => injection H as <-
  | H : (let '(_, _) := ?p in _) = Ok _ |- _ => destruct p
  | H : match ?o with Some _ => _ | None => _ end = Ok _ |- _ => destruct o
  | H : (if ?b then _ else _) = Ok _ |- _ => destruct b
  end.
Definition keeps (f : rx -> res rx) : Prop := forall s s', f s = Ok s' -> rx_bits s' = rx_bits s.
Lemma keeps_point r : keeps (point r). Proof. intros s s' H. unfold point in H. steps. reflexivity. Qed.
Lemma keeps_collect : keeps collect. Proof. intros s s' H. unfold collect in H. steps. cbn. eapply keeps_point. eassumption. Qed.
Lemma keeps_zf e r : keeps (chestim_zf e r). Proof. intros s s' H. unfold chestim_zf in H. cbv zeta in H. steps. reflexivity. Qed.
Lemma keeps_interp : keeps ch_interpolation. Proof. intros s s' H. unfold ch_interpolation in H. cbv zeta in H. steps. reflexivity. Qed.
Lemma keeps_references i e l : keeps (references i e l).
Proof.
  intros s s' H. unfold references in H. cbv zeta in H. steps.
  - apply keeps_interp in H. rewrite H. match goal with E : chestim_zf _ _ _ = _ |- _ => apply keeps_zf in E; exact E end.
  - match goal with E : chestim_zf _ _ _ = _ |- _ => apply keeps_zf in E; exact E end.
  - reflexivity.
Qed.
Lemma keeps_fold {A} (f : rx -> A -> res rx) : (forall x, keeps (fun s => f s x)) -> forall l, keeps (fun s => foldM f s l).
Proof. intros K. induction l as [|x l IH]; intros s s' H; cbn [foldM] in H; [injection H as <-; reflexivity|]. steps. rewrite (IH _ _ H). eapply K. eassumption. Qed.
Section Multiplexing.
  Variable c : rcfg.
  Hypotheses (He : c_e c <> 1%N) (Hs : c_ss c <> 1%N).
  Lemma keeps_data l : keeps (data_cells_of c l).
  Proof using He Hs.
    intros s s' H. unfold data_cells_of, RxSymbols.run_pdc in H. apply N.eqb_neq in He, Hs. rewrite He, Hs in H. cbn [orb] in H. steps; reflexivity.
  Qed.
  Lemma keeps_control l : keeps (fun s => control_symbol c s l).
  Proof using Type.
    intros s s' H. unfold control_symbol, pcc_collection in H. cbv zeta in H. steps; cbn;
      repeat match goal with E : references _ _ _ _ = _ |- _ => apply keeps_references in E | E : collect _ = _ |- _ => apply keeps_collect in E end; congruence.
  Qed.
  Lemma keeps_gather l : keeps (fun s => gather c s l).
  Proof using Type.
    intros s s' H. unfold gather in H. steps; cbn;
      repeat match goal with E : references _ _ _ _ = _ |- _ => apply keeps_references in E | E : collect _ = _ |- _ => apply keeps_collect in E end; congruence.
  Qed.
  Lemma keeps_revisit f st r : keeps (fun s => revisit c f st s r).
  Proof using He Hs.
    intros s s' H. unfold revisit in H. steps; apply keeps_data in H; rewrite H;
      repeat match goal with E : ch_interpolation _ = _ |- _ => apply keeps_interp in E | E : point _ _ = _ |- _ => apply keeps_point in E; cbn in E end; congruence.
  Qed.
  Lemma keeps_stage n step : keeps (full_stage c n step).
  Proof using He Hs.
    intros s s' H. unfold full_stage in H. cbv zeta in H. steps. cbn.
    match goal with E : foldM (revisit _ _ _) _ _ = _ |- _ => apply (keeps_fold _ (keeps_revisit _ _)) in E; rewrite E end.
    match goal with E : foldM (gather _) _ _ = _ |- _ => apply (keeps_fold _ keeps_gather) in E; rewrite E end. destruct (0 <? rx_ps s)%N; reflexivity.
  Qed.
  Lemma keeps_stages n step m : keeps (full_stages c n step m).
  Proof using He Hs.
    induction m as [|m IH]; intros s s' H; cbn [full_stages] in H; [injection H as <-; reflexivity|]. steps. apply IH in H. match goal with E : full_stage _ _ _ _ = _ |- _ => apply keeps_stage in E end. congruence.
  Qed.
  Lemma keeps_again l : keeps (fun s => again c s l).
  Proof using He Hs. intros s s' H. unfold again in H. steps. cbn. match goal with E : data_cells_of _ _ _ = _ |- _ => apply keeps_data in E; exact E end. Qed.
  Lemma keeps_last l : keeps (fun s => last_symbols c s l).
  Proof using He Hs.
    intros s s' H. unfold last_symbols in H. cbv zeta in H. steps.
    repeat match goal with E : references _ _ _ _ = _ |- _ => apply keeps_references in E | E : collect _ = _ |- _ => apply keeps_collect in E | E : data_cells_of _ _ _ = _ |- _ => apply keeps_data in E end.
    destruct (_ =? _)%N; cbn; congruence.
  Qed.
  Lemma keeps_lr_f df : keeps (mode_lr_f c df).
  Proof using He Hs.
    intros s s' H. unfold mode_lr_f in H. cbv zeta in H. steps; apply (keeps_fold _ keeps_last) in H; rewrite H; [|reflexivity].
    match goal with E : foldM (again _) _ _ = _ |- _ => apply (keeps_fold _ keeps_again) in E; rewrite E end. reflexivity.
  Qed.
  Lemma keeps_lr_t df : keeps (mode_lr_t c df).
  Proof using He Hs. intros s s' H. unfold mode_lr_t in H. cbv zeta in H. steps; [reflexivity|]. apply keeps_stages in H. exact H. Qed.
End Multiplexing.
Theorem C70_multiplexing_refuted : forall k ts_max stride lr q, N_TS (q_tm q) <> 1%N -> N_SS (q_tm q) <> 1%N -> q_G q <> 0%N -> forall s, receive k ts_max stride lr q <> Ok s.
Proof.
  intros k ts_max stride lr q He Hs HG s H. unfold receive in H. cbv zeta in H. steps. unfold rx_data_field in H.
  match goal with E : rx_begin _ _ _ _ = Ok ?x |- _ => assert (B0 : rx_bits x = 0%N) end.
  { match goal with E : rx_begin _ _ _ _ = Ok _ |- _ => unfold rx_begin in E; cbv zeta in E; rename E into EB end. clear H. steps. cbn.
    match goal with E : collect _ = Ok _ |- _ => apply keeps_collect in E; rewrite E end. reflexivity. }
  match goal with E : rx_control_field ?c _ = Ok ?x |- _ => assert (B1 : rx_bits x = 0%N); [|set (cc := c) in *] end.
  { match goal with E : rx_control_field ?c _ = Ok _ |- _ => unfold rx_control_field in E; rename E into EC end. clear H. steps;
      match goal with E : foldM (control_symbol _) _ _ = Ok _ |- _ => apply (keeps_fold _ (keeps_control _)) in E; congruence end. }
  assert (Hc : c_e cc <> 1%N /\ c_ss cc <> 1%N) by (split; assumption). destruct Hc as [Hc1 Hc2]. clearbody cc.
  unfold guard at 1 in H. destruct (_ <=? _)%N in H; [|discriminate H].
  match type of H with bind ?e _ = _ => destruct e as [s1| | |] eqn:F1; cbn [bind] in H; try discriminate H end.
  match type of H with bind ?e _ = _ => destruct e as [s2| | |] eqn:F2; cbn [bind] in H; try discriminate H end.
  assert (B2 : rx_bits s1 = 0%N) by (destruct lr; [apply (keeps_lr_t cc Hc1 Hc2) in F1; congruence|injection F1 as <-; assumption]).
  apply (keeps_lr_f cc Hc1 Hc2) in F2. rewrite B2 in F2. rewrite F2 in H. unfold guard in H. destruct (rx_pcc s2 =? 98)%N; [|discriminate H]. destruct (rx_drs s2 =? q_N_DRS_subc q)%N; [|discriminate H].
  destruct (N.eqb_spec 0 (q_G q)) as [EG|EG]; [congruence|discriminate H].
Qed.
Print Assumptions C70_data_diversity.
Print Assumptions C70_control_diversity.
Print Assumptions C70_single_stream.
Print Assumptions C70_multiplexing_refuted.

(** ** Cases *)
(** Four streams, four cells from number 2 on, two antennas with different channels. *)
Definition ex_hs : list (N -> N -> C) := [fun t k => (Q2Qc (Z.of_N t + 1 # 1), Q2Qc (Z.of_N k - 4 # 1)); fun t k => (Q2Qc (1 # 2), Q2Qc (- Z.of_N t # 3))].
Definition ex_hs2 : list (N -> N -> C) := map (fun h t k => h t (k / 2)%N) ex_hs.
Definition ex_dat (b : N) : C := (Q2Qc (Z.of_N b # 7), Q2Qc (3 # 5)).
Example C70_nonvacuous : NoDup [4; 5; 8; 9]%N /\ flat_pairs ex_hs2 [4; 5; 8; 9]%N /\ audible ex_hs2 4 [4; 5; 8; 9]%N /\
  exists wl, mapM (run_pdc_div (mkCfg 4 1 true 2 100 100) 2 [10; 20; 30; 40]%N) (combine (upto 4) [4; 5; 8; 9])%N = Ok wl /\
    concat wl = [(2, 4, Data 10); (3, 4, DataConj true 20); (2, 5, Data 20); (3, 5, DataConj false 10); (0, 8, Data 30); (2, 8, DataConj true 40); (0, 9, Data 40); (2, 9, DataConj false 30)]%N /\
    collect_pdc 4 1 56 2 (listen ex_hs2 (carried (number ex_dat ex_dat ex_dat) (concat wl)) 4) [4; 5; 8; 9]%N = Ok (map ex_dat [10; 20; 30; 40]%N).
Proof.
  assert (ND : NoDup [4; 5; 8; 9]%N) by (repeat constructor; cbn; intuition discriminate).
  assert (F : flat_pairs ex_hs2 [4; 5; 8; 9]%N).
  { intros h t i k k' I E E'. unfold ex_hs2 in I. apply in_map_iff in I as (g & <- & _). f_equal. destruct i as [|[|i]]; cbn in E, E'; [injection E as <-; injection E' as <-; reflexivity|injection E as <-; injection E' as <-; reflexivity|].
    replace (i + S (S (i + 0)))%nat with (S (S (2 * i))) in E by lia. cbn in E. destruct (i + (i + 0))%nat; discriminate E. }
  assert (A : audible ex_hs2 4 [4; 5; 8; 9]%N).
  { intros t t' k _ _ _ _. left. eexists. split; [right; left; reflexivity|]. cbn beta. intros E. injection E. discriminate. }
  split; [exact ND|]. split; [exact F|]. split; [exact A|]. eexists. split; [vm_compute; reflexivity|]. split; [reflexivity|].
  apply (C70_data_diversity ex_dat ex_dat ex_dat (mkCfg 4 1 true 2 100 100) 4 2 [10; 20; 30; 40]%N [4; 5; 8; 9]%N ex_hs2); [reflexivity|cbn; tauto|reflexivity|exact ND|reflexivity|vm_compute; reflexivity|exact F|exact A].
Qed.
(** One stream, bandwidth of four cells and the centre: both ways of processing. *)
Example C70_single_case : cells_ok 4 [0; 1; 3; 4]%N /\ cells_ok 4 [1; 4]%N /\ (forall k, (k <= 4)%N -> heard ex_hs 0 k).
Proof.
  assert (G : forall l, forallb (fun k => (k <=? 4) && negb (k =? 2))%N l = true -> forallb (fun i => forallb (fun j => negb (i <? j)%nat || (nth i l 0 <? nth j l 0)%N) (seq 0 (length l))) (seq 0 (length l)) = true -> cells_ok 4 l).
  { intros l F1 F2. rewrite forallb_forall in F1, F2. split.
    - intros i j k k' L E E'. assert (Li : (i < length l)%nat) by (apply nth_error_Some; congruence). assert (Lj : (j < length l)%nat) by (apply nth_error_Some; congruence).
      specialize (F2 i ltac:(apply in_seq; lia)). rewrite forallb_forall in F2. specialize (F2 j ltac:(apply in_seq; lia)).
      apply nth_error_nth with (d := 0%N) in E, E'. rewrite E, E' in F2. assert (Q : (i <? j)%nat = true) by (apply Nat.ltb_lt; exact L). rewrite Q in F2. cbn in F2. apply N.ltb_lt. exact F2.
    - intros k I. specialize (F1 k I). apply andb_true_iff in F1 as [F1 F1']. apply negb_true_iff, N.eqb_neq in F1'. apply N.leb_le in F1. split; [exact F1|exact F1']. }
  split; [apply G; reflexivity|]. split; [apply G; reflexivity|]. intros k _. eexists. split; [right; left; reflexivity|]. cbn beta. intros E. injection E. discriminate.
Qed.
(** Mode 2 sends two spatial streams on two antennas. *)
Example C70_multiplexing_case : exists t, get_tm_mode 2 = Ok t /\ N_TS t = 2%N /\ N_SS t = 2%N.
Proof. eexists. split; [reflexivity|]. split; reflexivity. Qed.
