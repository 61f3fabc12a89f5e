(** Proofs about the tables for channel interpolation. *)
From Coq Require Import QArith Qabs Lqa.
From Verif Require Import Base PacketSizes Cells CellsSpec CellsCheck CellsFacts RxSymbols RxSymbolsSpec RxSymbolsFacts ChannelLut ChannelLutSpec.
Open Scope N_scope.

(** ** Outcomes: a result with [P], or an assertion fails *)
Definition sure {A} (r : res A) (P : A -> Prop) : Prop := match r with Ok x => P x | Abort => True | _ => False end.
Lemma sure_bind {A B} (r : res A) (k : A -> res B) (P : A -> Prop) Q : sure r P -> (forall x, P x -> sure (k x) Q) -> sure (bind r k) Q.
Proof. destruct r; cbn; auto. Qed.
Lemma sure_guard {A} c (k : res A) Q : (c = true -> sure k Q) -> sure (guard c k) Q.
Proof. destruct c; cbn; auto. Qed.
Lemma sure_imp {A} (r : res A) (P Q : A -> Prop) : sure r P -> (forall x, P x -> Q x) -> sure r Q.
Proof. destruct r; cbn; auto. Qed.
Lemma sure_fold {A S} (f : S -> A -> res S) (P : list A -> S -> Prop) l : forall pre s,
  P pre s -> (forall d a s, In a l -> P d s -> sure (f s a) (P (d ++ [a]))) -> sure (foldM f s l) (P (pre ++ l)).
Proof.
  induction l as [|a l IH]; intros pre s H0 HS; cbn [foldM]; [rewrite app_nil_r; exact H0|].
  apply (sure_bind _ _ (P (pre ++ [a]))); [apply HS; [left; reflexivity|exact H0]|]. intros s' H'.
  replace (pre ++ a :: l) with ((pre ++ [a]) ++ l) by (rewrite <- app_assoc; reflexivity). apply IH; [exact H'|].
  intros d x s2 I. apply HS. right. exact I.
Qed.

(** ** Windows *)
Lemma at_nth {A} (l : list A) i x : at_idx l i = Ok x <-> nth_error l (N.to_nat i) = Some x.
Proof.
  unfold at_idx, rd. destruct (nth_error l (N.to_nat i)) as [y|]; split; intros H; try discriminate; injection H as ->; reflexivity.
Qed.
Definition cut {A} (l : list A) (i n : N) : list A := firstn (N.to_nat n) (skipn (N.to_nat i) l).
Lemma window_cut {A} (l : list A) i n : i + n <= len l -> window l i n = Ok (cut l i n).
Proof.
  unfold window, cut, len. intros H. rewrite <- (N2Nat.id n) in H. generalize dependent i. induction (N.to_nat n) as [|m IH]; intros i H; [reflexivity|].
  cbn [nseq mapM]. assert (X : (N.to_nat i < length l)%nat) by lia. destruct (nth_error l (N.to_nat i)) as [x|] eqn:E; [|apply nth_error_None in E; lia].
  rewrite (proj2 (at_nth l i x) E). cbn [bind]. rewrite IH by lia. cbn [bind].
  replace (N.to_nat (i + 1)) with (S (N.to_nat i)) by lia. f_equal. clear - E. revert E. generalize (N.to_nat i). clear i.
  induction l as [|y l IH]; intros i E; [destruct i; discriminate|]. destruct i; cbn in *; [injection E as ->; reflexivity|]. rewrite (IH _ E). reflexivity.
Qed.
Lemma window_beyond {A} (l : list A) i n : len l < i + n -> 0 < n -> window l i n = Oob.
Proof.
  unfold window, len. intros H P. rewrite <- (N2Nat.id n) in H, P. generalize dependent i. induction (N.to_nat n) as [|m IH]; intros i H; [lia|].
  cbn [nseq mapM]. destruct (nth_error l (N.to_nat i)) as [x|] eqn:E; [|unfold at_idx, rd; rewrite E; reflexivity].
  rewrite (proj2 (at_nth l i x) E). cbn [bind]. destruct m; [apply nth_error_Some_bound in E || (assert (nth_error l (N.to_nat i) <> None) as X by congruence; apply nth_error_Some in X); lia|].
  rewrite IH by lia. reflexivity.
Qed.
Lemma cut_len {A} (l : list A) i n : i + n <= len l -> len (cut l i n) = n.
Proof. unfold cut, len. intros H. rewrite firstn_length, skipn_length. lia. Qed.
Lemma cut_map {A B} (g : A -> B) l i n : cut (map g l) i n = map g (cut l i n).
Proof. unfold cut. rewrite skipn_map, firstn_map. reflexivity. Qed.
Lemma cut_stretch {A} (l : list A) i n : stretch (cut l i n) l.
Proof.
  exists (firstn (N.to_nat i) l), (skipn (N.to_nat n) (skipn (N.to_nat i) l)). unfold cut. rewrite !firstn_skipn. reflexivity.
Qed.
Lemma block_at {A} (vs : list (list A)) n j v : Forall (fun v => len v = n) vs -> nth_error vs (N.to_nat j) = Some v -> window (concat vs) (j * n) n = Ok v.
Proof.
  intros F E. assert (H : skipn (N.to_nat (j * n)) (concat vs) = v ++ concat (skipn (S (N.to_nat j)) vs) /\ (N.to_nat (j * n) <= length (concat vs))%nat).
  { rewrite N2Nat.inj_mul. revert E. generalize (N.to_nat j). clear j. induction F as [|x vs L F IH]; intros j E; [destruct j; discriminate|].
    unfold len in L. destruct j as [|j]; cbn [nth_error] in E.
    - injection E as ->. cbn [Nat.mul skipn concat]. split; [reflexivity|lia].
    - cbn [concat skipn]. destruct (IH _ E) as (H1 & H2). rewrite app_length. split; [|nia].
      replace (S j * N.to_nat n)%nat with (length x + j * N.to_nat n)%nat by lia. rewrite <- skipn_skipn_swap || rewrite skipn_app.
      rewrite skipn_all2 by lia. replace (length x + j * N.to_nat n - length x)%nat with (j * N.to_nat n)%nat by lia. exact H1. }
  destruct H as (H1 & H2). assert (Lv : len v = n) by (rewrite Forall_forall in F; apply F; eapply nth_error_In; exact E).
  rewrite window_cut.
  - unfold cut. rewrite H1. unfold len in Lv. replace (N.to_nat n) with (length v) by lia. rewrite firstn_app, Nat.sub_diag, firstn_all, firstn_O, app_nil_r. reflexivity.
  - unfold len in *. assert (length (skipn (N.to_nat (j * n)) (concat vs)) = length (concat vs) - N.to_nat (j * n))%nat as X by apply skipn_length.
    rewrite H1, app_length in X. lia.
Qed.

(** ** Reference cells *)
Definition cls (b c : N) : list N := filter (fun k => rank b k mod 4 =? c) (occupied b).
Definition single_ok (ib : N * N) (c : N) : bool :=
  match drs_k_i_single (fst ib) c 0 with Ok l => if list_eq_dec N.eq_dec l (cls (snd ib) c) then true else false | _ => false end.
Definition merged (b c : N) : list (N * bool) :=
  flat_map (fun k => if rank b k mod 4 =? c then [(k, true)] else if rank b k mod 4 =? c + 2 then [(k, false)] else []) (occupied b).
Definition pair_dec (x y : N * bool) : {x = y} + {x <> y}.
Proof. decide equality; [apply Bool.bool_dec|apply N.eq_dec]. Defined.
Definition merge_ok (b c : N) : bool :=
  let l := cls b c in let r := cls b (c + 2) in
  (len l =? 14 * b) && (len r =? 14 * b) && increasing (interlace l r) && increasing l && increasing r &&
  (if list_eq_dec pair_dec (merged b c) (interlace (map (fun k => (k, true)) l) (map (fun k => (k, false)) r)) then true else false).
Lemma all_checked : forallb (fun ib => forallb (single_ok ib) [0; 1; 2; 3] && forallb (merge_ok (snd ib)) [0; 1]) bandwidths = true.
Proof. vm_compute. reflexivity. Qed.
Lemma checked i b : In (i, b) bandwidths -> (forall c, c < 4 -> single_ok (i, b) c = true) /\ merge_ok b 0 = true /\ merge_ok b 1 = true.
Proof.
  intros I. pose proof (proj1 (forallb_forall _ _) all_checked _ I) as H. cbn beta in H. apply andb_prop in H as (H1 & H2). cbn [snd] in H2.
  rewrite forallb_forall in H1, H2. split; [|split; apply H2; cbn; auto]. intros c C. apply H1. cbn [In]. lia.
Qed.
Lemma single_class i b t n : In (i, b) bandwidths -> drs_k_i_single i t n = Ok (cls b ((t + (n mod 2) * 2) mod 4)).
Proof.
  intros I. destruct (checked i b I) as (H & _). set (c := (t + (n mod 2) * 2) mod 4). assert (C : c < 4) by (unfold c; lia).
  specialize (H c C). unfold single_ok in H. cbn [fst snd] in H. unfold drs_k_i_single in *.
  fold c. replace ((c + (0 mod 2) * 2) mod 4) with c in H by (change (0 mod 2) with 0; lia).
  match type of H with match ?X with _ => _ end = true => destruct X as [l| | |] end; try discriminate.
  destruct (list_eq_dec N.eq_dec l (cls b c)) as [->|]; [reflexivity|discriminate].
Qed.
Record merges (b c : N) : Prop := {
  mg_l : len (cls b c) = 14 * b; mg_r : len (cls b (c + 2)) = 14 * b;
  mg_inc : increasing (interlace (cls b c) (cls b (c + 2))) = true;
  mg_il : increasing (cls b c) = true; mg_ir : increasing (cls b (c + 2)) = true;
  mg_eq : merged b c = interlace (map (fun k => (k, true)) (cls b c)) (map (fun k => (k, false)) (cls b (c + 2))) }.
Lemma merge_all i b c : In (i, b) bandwidths -> c <= 1 -> merges b c.
Proof.
  intros I C. destruct (checked i b I) as (_ & H0 & H1). assert (H : merge_ok b c = true) by (assert (c = 0 \/ c = 1) as [->| ->] by lia; assumption).
  unfold merge_ok in H. cbv zeta in H. repeat (apply andb_prop in H as (H & ?)). 
  destruct (list_eq_dec _ _ _) as [E|]; [|discriminate]. constructor; try assumption; lia.
Qed.
Lemma reference_class b e t n : reference b e t (ref_symbol e t n) = cls b ((t + 2 * n) mod 4).
Proof.
  unfold reference, cls. apply filter_ext. intros k. unfold is_reference, active, ref_symbol.
  assert (S : spacing e <> 0) by (unfold spacing; destruct (e <=? 2); discriminate).
  replace (first_symbol t + n * spacing e - first_symbol t) with (n * spacing e) by lia.
  rewrite N.mod_mul, N.div_mul by exact S. replace (first_symbol t <=? first_symbol t + n * spacing e) with true by lia. reflexivity.
Qed.
Lemma is_ref_class b e t n k : is_reference b e t (ref_symbol e t n) k = (rank b k mod 4 =? (t + 2 * n) mod 4).
Proof.
  unfold is_reference, active, ref_symbol.
  assert (S : spacing e <> 0) by (unfold spacing; destruct (e <=? 2); discriminate).
  replace (first_symbol t + n * spacing e - first_symbol t) with (n * spacing e) by lia.
  rewrite N.mod_mul, N.div_mul by exact S. replace (first_symbol t <=? first_symbol t + n * spacing e) with true by lia. reflexivity.
Qed.
Lemma stored_class i b e t n : In (i, b) bandwidths -> t < 4 -> stored i e t (ref_symbol e t n) = Ok (map (fun k => (k, ref_symbol e t n)) (cls b ((t + 2 * n) mod 4))).
Proof.
  intros I T. unfold stored, ref_symbol, first_symbol. replace (t <? 4) with true by lia. cbv zeta.
  assert (S : drs_N_step e = spacing e) by reflexivity. assert (S0 : spacing e <> 0) by (unfold spacing; destruct (e <=? 2); discriminate).
  rewrite S. replace (1 + n * spacing e - 1) with (n * spacing e) by lia. rewrite N.div_mul by exact S0.
  rewrite (single_class i b _ _ I). cbn [bind]. do 3 f_equal. clear - T. lia.
Qed.
Lemma interlace_map {A B} (g : A -> B) x y : interlace (map g x) (map g y) = map g (interlace x y).
Proof. revert y. induction x as [|a x IH]; intros [|c y]; try reflexivity. cbn [map]. unfold interlace in *. cbn. rewrite IH. reflexivity. Qed.
Lemma interlace_maps {A B} (f g : A -> B) x y : interlace (map f x) (map g y) = flat_map (fun p => [f (fst p); g (snd p)]) (combine x y).
Proof. revert y. induction x as [|a x IH]; intros [|c y]; try reflexivity. cbn [map]. unfold interlace in *. cbn. rewrite IH. reflexivity. Qed.
Lemma interlace_len {A} (x y : list A) : length x = length y -> length (interlace x y) = (2 * length x)%nat.
Proof. revert y. induction x as [|a x IH]; intros [|c y] H; try discriminate; [reflexivity|]. unfold interlace in *. cbn in *. rewrite IH by lia. lia. Qed.

(** The coordinates the tables are made for. *)
Definition coords (b r step : N) : list coord :=
  if 0 <? step
  then if r <=? 1 then interlace (map (fun k => mkCoord k 1) (cls b r)) (map (fun k => mkCoord k (1 + step)) (cls b (r + 2)))
       else interlace (map (fun k => mkCoord k (1 + step)) (cls b (r - 2))) (map (fun k => mkCoord k 1) (cls b r))
  else map (fun k => mkCoord k 1) (cls b r).
Lemma mapM_pairs {A B C} (g : A -> B -> C) l : forall r pl pr, length l = length r -> length pl = length pr ->
  mapM (fun p => do x <- at_idx (pl ++ l) p ; do y <- at_idx (pr ++ r) p ; Ok (g x y)) (nseq (len pl) (length l)) = Ok (map (fun p => g (fst p) (snd p)) (combine l r)).
Proof.
  induction l as [|a l IH]; intros [|c r] pl pr H1 H2; try discriminate; [reflexivity|]. cbn [length nseq mapM combine map].
  rewrite (proj2 (at_nth (pl ++ a :: l) (len pl) a)) by (unfold len; rewrite Nat2N.id, nth_error_app2, Nat.sub_diag by lia; reflexivity).
  cbn [bind]. rewrite (proj2 (at_nth (pr ++ c :: r) (len pl) c)) by (unfold len; rewrite Nat2N.id, H2, nth_error_app2, Nat.sub_diag by lia; reflexivity).
  cbn [bind fst snd]. cbn in H1. specialize (IH r (pl ++ [a]) (pr ++ [c])). rewrite <- !app_assoc in IH. cbn [app] in IH.
  replace (len pl + 1) with (len (pl ++ [a])) by (rewrite len_app; reflexivity). rewrite IH; [reflexivity|lia|rewrite !app_length, H2; reflexivity].
Qed.
Lemma concat_pairs {A B C} (g h : A -> B -> C) x y : concat (map (fun p => [g (fst p) (snd p); h (fst p) (snd p)]) (combine x y)) = flat_map (fun p => [g (fst p) (snd p); h (fst p) (snd p)]) (combine x y).
Proof. symmetry. apply flat_map_concat_map. Qed.
Lemma combine_swap {A B C} (h : A -> B -> list C) x y : flat_map (fun p => h (fst p) (snd p)) (combine x y) = flat_map (fun p => h (snd p) (fst p)) (combine y x).
Proof. revert y. induction x as [|a x IH]; intros [|c y]; try reflexivity. cbn. rewrite IH. reflexivity. Qed.
Lemma cls_len i b c : In (i, b) bandwidths -> c < 4 -> len (cls b c) = 14 * b.
Proof.
  intros I C. destruct (N.leb_spec c 1) as [L|L]; [apply (mg_l _ _ (merge_all i b c I L))|].
  replace c with (c - 2 + 2) by lia. apply (mg_r _ _ (merge_all i b (c - 2) I ltac:(lia))).
Qed.
Lemma cls_inc i b c : In (i, b) bandwidths -> c < 4 -> increasing (cls b c) = true.
Proof.
  intros I C. destruct (N.leb_spec c 1) as [L|L]; [apply (mg_il _ _ (merge_all i b c I L))|].
  replace c with (c - 2 + 2) by lia. apply (mg_ir _ _ (merge_all i b (c - 2) I ltac:(lia))).
Qed.
Lemma row_at i b r n ts : In (i, b) bandwidths -> mapM (fun t => drs_k_i_single i t n) (upto 4) = Ok r -> ts < 4 -> at_idx r ts = Ok (cls b ((ts + (n mod 2) * 2) mod 4)).
Proof.
  intros I M T. rewrite (mapM_map _ (fun t => cls b ((t + (n mod 2) * 2) mod 4))) in M by (intros; apply single_class; exact I).
  match type of M with Ok ?x = Ok ?y => assert (E : y = x) by congruence end. rewrite E. clear E. apply at_nth. rewrite nth_error_map.
  unfold upto. rewrite nseq_nth by lia. cbn [option_map]. do 4 f_equal. lia.
Qed.
Lemma drs_row_4 i b : In (i, b) bandwidths -> exists tab, drs_row 4 i = Ok tab /\
  (forall ts, ts < 4 -> at_idx (k_12 tab) ts = Ok (cls b ts)) /\ (forall ts, ts < 4 -> at_idx (k_6 tab) ts = Ok (cls b ((ts + 2) mod 4))).
Proof.
  intros I. unfold drs_row. change (N.min 4 4) with 4.
  destruct (mapM_all (fun t => drs_k_i_single i t 0) (upto 4)) as (a & A & _). { intros; eexists; apply single_class; exact I. }
  destruct (mapM_all (fun t => drs_k_i_single i t 1) (upto 4)) as (c & C & _). { intros; eexists; apply single_class; exact I. }
  assert (O : exists occ, N_b_OCC_lut i = Ok occ).
  { cbn [In bandwidths] in I. decompose [or] I; try contradiction; match goal with E : (_, _) = (_, _) |- _ => injection E as <- <- end; eexists; reflexivity. }
  destruct O as (occ & O).
  destruct (mapM_all (drs_y_single i) (upto 4)) as (y & Y & _). { intros; unfold drs_y_single; rewrite O; eexists; reflexivity. }
  rewrite A. cbn [bind]. rewrite C. cbn [bind]. rewrite Y. cbn [bind]. change (nseq 4 (N.to_nat (4 - 4))) with (@nil N). cbn [mapM bind].
  eexists. split; [reflexivity|]. cbn [k_12 k_6]. split; intros ts T.
  - rewrite (row_at i b a 0 ts I A T). do 2 f_equal. change (0 mod 2) with 0. lia.
  - rewrite (row_at i b c 1 ts I C T). do 2 f_equal.
Qed.
Lemma s0_coords i b tab r step : In (i, b) bandwidths ->
  (forall ts, ts < 4 -> at_idx (k_12 tab) ts = Ok (cls b ts)) -> (forall ts, ts < 4 -> at_idx (k_6 tab) ts = Ok (cls b ((ts + 2) mod 4))) ->
  r < 4 -> s0_pilots (k_12 tab) (k_6 tab) r step = Ok (coords b r step) /\ len (coords b r step) = (if 0 <? step then 2 * (b * 14) else b * 14).
Proof.
  intros I K1 K2 R. unfold s0_pilots, coords. rewrite (K1 r R). cbn [bind]. destruct (N.ltb_spec 0 step) as [S|S].
  - rewrite (K2 r R). cbn [bind]. unfold upto, len at 1. rewrite Nat2N.id.
    pose proof (cls_len i b r I R) as L1. pose proof (cls_len i b ((r + 2) mod 4) I ltac:(lia)) as L2. unfold len in L1, L2.
    destruct (N.leb_spec r 1) as [L|L].
    + replace ((r + 2) mod 4) with (r + 2) in * by lia.
      pose proof (mapM_pairs (fun x y => [mkCoord x 1; mkCoord y (1 + step)]) (cls b r) (cls b (r + 2)) [] [] ltac:(lia) eq_refl) as MP. cbn [app] in MP. change (len (@nil N)) with 0 in MP. rewrite MP. clear MP.
      cbn [bind]. rewrite (concat_pairs (fun x _ => mkCoord x 1) (fun _ y => mkCoord y (1 + step))).
      rewrite (interlace_maps (fun k => mkCoord k 1) (fun k => mkCoord k (1 + step))). split.
      * assert (E : map c_f (flat_map (fun p => [mkCoord (fst p) 1; mkCoord (snd p) (1 + step)]) (combine (cls b r) (cls b (r + 2)))) = interlace (cls b r) (cls b (r + 2))).
        { unfold interlace. generalize (combine (cls b r) (cls b (r + 2))). intros q. induction q as [|p q IHq]; [reflexivity|]. cbn. rewrite IHq. reflexivity. }
        rewrite E, (mg_inc _ _ (merge_all i b r I L)). reflexivity.
      * rewrite <- (interlace_maps (fun k => mkCoord k 1) (fun k => mkCoord k (1 + step))). unfold len. rewrite interlace_len by (rewrite !map_length; lia). rewrite map_length. lia.
    + replace ((r + 2) mod 4) with (r - 2) in * by lia.
      pose proof (mapM_pairs (fun x y => [mkCoord y (1 + step); mkCoord x 1]) (cls b r) (cls b (r - 2)) [] [] ltac:(lia) eq_refl) as MP. cbn [app] in MP. change (len (@nil N)) with 0 in MP. rewrite MP. clear MP.
      cbn [bind]. rewrite (concat_pairs (fun _ y => mkCoord y (1 + step)) (fun x _ => mkCoord x 1)).
      rewrite (combine_swap (fun x y => [mkCoord y (1 + step); mkCoord x 1])).
      rewrite (interlace_maps (fun k => mkCoord k (1 + step)) (fun k => mkCoord k 1)). split.
      * assert (E : map c_f (flat_map (fun p => [mkCoord (fst p) (1 + step); mkCoord (snd p) 1]) (combine (cls b (r - 2)) (cls b r))) = interlace (cls b (r - 2)) (cls b (r - 2 + 2))).
        { replace (r - 2 + 2) with r by lia. unfold interlace. generalize (combine (cls b (r - 2)) (cls b r)). intros q. induction q as [|p q IHq]; [reflexivity|]. cbn. rewrite IHq. reflexivity. }
        rewrite E, (mg_inc _ _ (merge_all i b (r - 2) I ltac:(lia))). reflexivity.
      * rewrite <- (interlace_maps (fun k => mkCoord k (1 + step)) (fun k => mkCoord k 1)). unfold len. rewrite interlace_len by (rewrite !map_length; lia). rewrite map_length. lia.
  - pose proof (cls_len i b r I R) as L1. split.
    + cbn [bind]. rewrite map_map. cbn [c_f]. rewrite map_id, (cls_inc i b r I R). reflexivity.
    + unfold len in *. rewrite map_length. lia.
Qed.
