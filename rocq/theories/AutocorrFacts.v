(** Lemmas on the autocorrelators. *)
From Coq Require Import Ring.
From Verif Require Import Base MovSum MovSumSpec MovSumFacts Autocorr AutocorrSpec.

(** * The two concrete kinds of arithmetic are exact *)
Lemma Z_ring : ring_theory (zero Zops) 1%Z (add Zops) Z.mul (sub Zops) Z.opp eq.
Proof. cbn. constructor; intros; ring. Qed.

Lemma fold_right_sumf {V} (O : ops V) (one : V) mul opp :
  ring_theory (zero O) one (add O) mul (sub O) opp eq ->
  forall l, fold_right (add O) (zero O) l = sumf O (length l) (fun i => nth i l (zero O)).
Proof.
  intros RT. induction l as [|v l IH]; [reflexivity|]. cbn [fold_right length]. rewrite (sumf_head O one mul opp RT). cbn [nth].
  rewrite IH. reflexivity.
Qed.

Lemma Z_acc : forall l, acc Zops l = sumf Zops (length l) (fun i => nth i l (zero Zops)).
Proof. intros l. apply (fold_right_sumf Zops 1%Z Z.mul Z.opp Z_ring). Qed.

Lemma Z_one v : scale Zops 1 v = v. Proof. cbn. ring. Qed.
Lemma Z_neg v : scale Zops (-1) v = sub Zops (zero Zops) v. Proof. cbn. ring. Qed.
Lemma Z_two v : scale Zops 2 v = add Zops v v. Proof. cbn. ring. Qed.

Lemma Z_exact : exact Zops.
Proof.
  constructor; [exists 1%Z, Z.mul, Z.opp; exact Z_ring|exact Z_one|exact Z_neg|exact Z_two|exact Z_acc].
Qed.

Definition copp (a : C) : C := (- fst a, - snd a)%Z.
Ltac csimp := unfold cadd, csub, cscale, cmul, conj, copp, norm2 in *; cbn [fst snd] in *.
Ltac cring := intros; csimp; repeat match goal with a : C |- _ => destruct a end; cbn [fst snd]; try (f_equal; ring).

Lemma C_ring : ring_theory (zero Cops) (1, 0)%Z (add Cops) cmul (sub Cops) copp eq.
Proof. cbn. constructor; cring. Qed.

Lemma C_acc : forall l, acc Cops l = sumf Cops (length l) (fun i => nth i l (zero Cops)).
Proof. intros l. apply (fold_right_sumf Cops (1, 0)%Z cmul copp C_ring). Qed.

Lemma C_one v : scale Cops 1 v = v. Proof. cbn. cring. Qed.
Lemma C_neg v : scale Cops (-1) v = sub Cops (zero Cops) v. Proof. cbn. cring. Qed.
Lemma C_two v : scale Cops 2 v = add Cops v v. Proof. cbn. cring. Qed.

Lemma C_exact : exact Cops.
Proof.
  constructor; [exists (1, 0)%Z, cmul, copp; exact C_ring|exact C_one|exact C_neg|exact C_two|exact C_acc].
Qed.

(** * Sums *)
Lemma sumf_blocks {V} (O : ops V) one mul opp (RT : ring_theory (zero O) one (add O) mul (sub O) opp eq) d s f :
  sumf O d (fun t => sumf O s (fun q => f (t * s + q))) = sumf O (d * s) f.
Proof.
  induction d as [|d IH]; [reflexivity|]. cbn [sumf]. rewrite IH. replace (S d * s) with (d * s + s) by lia.
  rewrite (sumf_plus O one mul opp RT). reflexivity.
Qed.

Definition prod (x : list C) (a b : nat) : C := cmul (smp x a) (conj (smp x b)).

Lemma products_ok x a b n : a + n <= length x -> b + n <= length x ->
  products x a b n = Ok (map (fun i => prod x (a + i) (b + i)) (seq 0 n)).
Proof.
  intros Ha Hb. unfold products. rewrite !slice_ok by lia. cbn [bind]. f_equal.
  set (la := firstn n (skipn a x)). set (lb := firstn n (skipn b x)).
  assert (La : length la = n) by (unfold la; rewrite firstn_length, skipn_length; lia).
  assert (Lb : length lb = n) by (unfold lb; rewrite firstn_length, skipn_length; lia).
  set (z := (0, 0)%Z : C). apply (nth_ext _ _ (cmul z (conj z)) (cmul z (conj z))).
  - rewrite !map_length, combine_length, seq_length. lia.
  - rewrite map_length, combine_length. intros i Hi.
    change (cmul z (conj z)) with ((fun p => cmul (fst p) (conj (snd p))) (z, z)) at 1. rewrite map_nth.
    rewrite combine_nth by lia. cbn [fst snd]. rewrite nth_map_seq by lia. unfold prod, smp.
    unfold la, lb. rewrite !nth_firstn_skipn by lia. reflexivity.
Qed.

Lemma dotprod_ok x a b n : a + n <= length x -> b + n <= length x ->
  dotprod x a b n = Ok (sumf Cops n (fun i => prod x (a + i) (b + i))).
Proof.
  intros Ha Hb. unfold dotprod. rewrite products_ok by assumption. cbn [bind]. f_equal. rewrite C_acc, map_length, seq_length.
  apply (sumf_ext _). intros i Hi. rewrite nth_map_seq by exact Hi. reflexivity.
Qed.

Lemma fst_sumf n f : fst (sumf Cops n f) = sumf Zops n (fun i => fst (f i)).
Proof. induction n as [|n IH]; [reflexivity|]. cbn [sumf]. cbn [add Cops Zops]. unfold cadd. cbn [fst]. rewrite IH. reflexivity. Qed.

Lemma prod_self x a : fst (prod x a a) = norm2 (smp x a).
Proof. unfold prod, norm2. destruct (smp x a). csimp. ring. Qed.

(** * The cover sequence *)
Definition pp (N : nat) : list Z := map (fun j => cover j * cover (j + 1))%Z (seq 0 (N - 1)).

Lemma pairwise_product_ok N : N = 7 \/ N = 9 -> pairwise_product (equivalent_u N) = Ok (pp N).
Proof. intros [-> | ->]; reflexivity. Qed.

Lemma pp_signs N : N = 7 \/ N = 9 -> signs (pp N).
Proof.
  intros [-> | ->]; (split; [discriminate|split; [|reflexivity]]); repeat constructor; cbn; lia.
Qed.

Lemma pp_length N : length (pp N) = N - 1.
Proof. unfold pp. rewrite map_length, seq_length. reflexivity. Qed.

Lemma pp_nth N j : j < N - 1 -> nth j (pp N) 0%Z = (cover j * cover (j + 1))%Z.
Proof. intros H. unfold pp. rewrite nth_map_seq by exact H. reflexivity. Qed.

(** * Windows of a mapped history *)
Lemma recent_map {V} (O : ops V) n (f : nat -> V) k p : n <= k -> p < n ->
  recent O n (map f (seq 0 k)) p = f (k - n + p).
Proof.
  intros H P. unfold recent. rewrite map_length, seq_length. rewrite app_nth2 by (rewrite repeat_length; lia).
  rewrite repeat_length, nth_map_seq by lia. f_equal. lia.
Qed.

Lemma map_seq_snoc {A} (f : nat -> A) k : map f (seq 0 (S k)) = map f (seq 0 k) ++ [f k].
Proof. rewrite seq_S, map_app. reflexivity. Qed.

(** * Detection *)
Section Detection.
Variable c : acfg.
Hypothesis HN : aN c = 7 \/ aN c = 9.
Variable s : nat.
Hypothesis Hs : 0 < s.
Hypothesis Hd : 0 < adiv c.
Hypothesis HP : aP c = adiv c * s.
Variable x : list C.

Let N := aN c.
Let P := aP c.
Let d := adiv c.
Let u := Ucfg (pp N) d (changes_of (pp N) d (-1) 1) (changes_of (pp N) d 1 (-1)).
Let nc := length (pp N) * d.
Let np := N * d.

Definition cblk (i : nat) : C := sumf Cops s (fun q => prod x (i * s + q) (P + i * s + q)).
Definition pblk (i : nat) : Z := sumf Zops s (fun q => norm2 (smp x (i * s + q))).

Lemma step_s : astep c = s.
Proof. unfold astep. rewrite HP, Nat.mul_comm. apply Nat.div_mul. lia. Qed.

Definition dinv (k : nat) (st : det) : Prop :=
  d_r st = P + k * s /\
  invw Cops (pp N) d (d_corr st) (map cblk (seq 0 k)) /\
  inv Zops np (d_pow st) (map pblk (seq 0 (d + k))).

Lemma np_pos : 0 < np. Proof. unfold np, N. destruct HN as [-> | ->]; unfold d; lia. Qed.

Lemma det_make_ok : det_make c = Ok (u, Det 0 (make Cops nc) (make Zops np) 0).
Proof.
  unfold det_make. fold N d. rewrite (pairwise_product_ok N HN). cbn [bind].
  rewrite (make_uw_ok Cops (1, 0)%Z cmul copp C_ring C_one C_neg C_two C_acc (pp N) d (pp_signs N HN) Hd). cbn [bind fst snd]. reflexivity.
Qed.

Lemma first_loop_ok : forall k i m, i * s + k * s <= length x -> inv Zops np m (map pblk (seq 0 i)) ->
  exists m', first_loop c x k i m = Ok m' /\ inv Zops np m' (map pblk (seq 0 (i + k))).
Proof.
  induction k as [|k IH]; intros i m B I; [exists m; split; [reflexivity|rewrite Nat.add_0_r; exact I]|].
  cbn [first_loop]. rewrite step_s. rewrite dotprod_ok by lia. cbn [bind].
  destruct (inv_step Zops 1%Z Z.mul Z.opp Z_ring Z_one Z_neg Z_two Z_acc np m _ (Push (pblk i)) I np_pos) as (m' & S' & I').
  cbn [step] in S'. rewrite fst_sumf.
  rewrite (sumf_ext Zops s _ (fun q => norm2 (smp x (i * s + q)))) by (intros q _; apply prod_self).
  fold (pblk i). rewrite S'. cbn [bind]. rewrite <- map_seq_snoc in I'.
  destruct (IH (S i) m' ltac:(lia) I') as (m2 & E2 & I2). exists m2. split; [exact E2|].
  replace (i + S k) with (S i + k) by lia. exact I2.
Qed.

Lemma first_ok cnt_w : P <= cnt_w -> P <= length x ->
  exists d1, first_pattern c x cnt_w (Det 0 (make Cops nc) (make Zops np) 0) = Ok d1 /\ dinv 0 d1.
Proof.
  intros W L. unfold first_pattern. cbn [d_r Nat.eqb guard]. fold P. destruct (Nat.leb_spec P cnt_w); [|lia]. cbn [guard d_pow d_corr d_cnt].
  destruct (first_loop_ok d 0 (make Zops np)) as (m' & E & I).
  - unfold P in L. rewrite HP in L. unfold d. lia.
  - apply (inv_make Zops 1%Z Z.mul Z.opp Z_ring Z_one Z_neg Z_two Z_acc); [exact np_pos|reflexivity].
  - fold d. rewrite E. cbn [bind]. eexists. split; [reflexivity|]. split; [cbn [d_r]; lia|]. split.
    + cbn [d_corr]. apply (invw_make Cops (1, 0)%Z cmul copp C_ring C_one C_neg C_two C_acc (pp N) d (pp_signs N HN) Hd). reflexivity.
    + cbn [d_pow]. rewrite Nat.add_0_r. exact I.
Qed.

Lemma step_ok k st : dinv k st -> P + (k + 1) * s <= length x -> exists st', det_step c u x st = Ok st' /\ dinv (k + 1) st'.
Proof.
  intros (R & IC & IP) L. unfold det_step. rewrite R, step_s. fold P. replace (P + k * s - P) with (k * s) by lia.
  rewrite dotprod_ok by lia. cbn [bind]. fold (cblk k).
  destruct (invw_push Cops (1, 0)%Z cmul copp C_ring C_one C_neg C_two C_acc (pp N) d (pp_signs N HN) Hd _ _ (cblk k) IC) as (mc & EC & IC').
  fold u in EC. rewrite EC. cbn [bind]. rewrite dotprod_ok by lia. cbn [bind].
  destruct (inv_step Zops 1%Z Z.mul Z.opp Z_ring Z_one Z_neg Z_two Z_acc np _ _ (Push (pblk (d + k))) IP np_pos) as (mp & EP & IP'). cbn [step] in EP.
  assert (PB : fst (sumf Cops s (fun i => prod x (P + k * s + i) (P + k * s + i))) = pblk (d + k)).
  { rewrite fst_sumf. unfold pblk. apply (sumf_ext _). intros q _. rewrite prod_self. f_equal. f_equal. unfold P. rewrite HP. unfold d. lia. }
  rewrite PB, EP. cbn [bind]. rewrite <- map_seq_snoc in IC'. cbv beta iota in IP'. rewrite <- map_seq_snoc in IP'.
  replace (S (d + k)) with (d + (k + 1)) in IP' by lia. replace (S k) with (k + 1) in IC' by lia.
  destruct (Nat.eqb_spec (d_cnt st) 16) as [E|E].
  - destruct (resum_uw_ok Cops (1, 0)%Z cmul copp C_ring C_one C_neg C_two C_acc (pp N) d (pp_signs N HN) Hd mc _ (proj1 IC')) as (mc' & ER & IR).
    fold u in ER. rewrite ER. cbn [bind]. eexists. split; [reflexivity|]. split; [cbn [d_r]; lia|]. cbn [d_corr d_pow]. split; [exact IR|].
    destruct (inv_step Zops 1%Z Z.mul Z.opp Z_ring Z_one Z_neg Z_two Z_acc np _ _ Resum IP' np_pos) as (mp' & EP' & IP2). cbn [step] in EP'. injection EP' as <-. exact IP2.
  - eexists. split; [reflexivity|]. split; [cbn [d_r]; lia|]. cbn [d_corr d_pow]. split; assumption.
Qed.

Lemma steps_ok : forall k j st, dinv j st -> P + (j + k) * s <= length x -> exists st', det_steps c u x k st = Ok st' /\ dinv (j + k) st'.
Proof.
  induction k as [|k IH]; intros j st I L; [exists st; split; [reflexivity|rewrite Nat.add_0_r; exact I]|].
  destruct (step_ok j st I) as (st1 & E1 & I1); [nia|]. destruct (IH (j + 1) st1 I1) as (st2 & E2 & I2); [nia|].
  exists st2. cbn [det_steps]. rewrite E1. cbn [bind]. split; [exact E2|]. replace (j + S k) with (j + 1 + k) by lia. exact I2.
Qed.

Lemma NP_steps k : N * P <= P + k * s -> nc <= k /\ np <= d + k /\ P + k * s - N * P = (k - nc) * s /\ d + k - np = k - nc.
Proof.
  intros H. assert (N1 : 1 <= N) by (unfold N; destruct HN as [-> | ->]; lia).
  assert (PS : P = d * s) by exact HP. assert (X : nc = (N - 1) * d) by (unfold nc; rewrite pp_length; reflexivity).
  assert (Y : np = nc + d) by (rewrite X; unfold np; nia).
  assert (Z1 : N * P = (nc + d) * s) by (rewrite X, PS; nia).
  assert (A : nc <= k) by (rewrite Z1, PS in H; nia). repeat split; try lia. rewrite Z1, PS. nia.
Qed.

Lemma dinv_corr k st : dinv k st -> N * P <= d_r st -> sum (d_corr st) = stf_corr x (d_r st - N * P) N P.
Proof.
  intros (R & [HC SC] & _) L. rewrite R in *. destruct (NP_steps k L) as (A & B & D & _). rewrite SC, D. unfold stf_corr, weighted.
  rewrite pp_length. apply (sumf_ext _). intros j Hj. rewrite pp_nth by exact Hj. cbn [scale Cops]. f_equal.
  assert (X : nc = (N - 1) * d) by (unfold nc; rewrite pp_length; reflexivity).
  rewrite (sumf_ext Cops d _ (fun t => sumf Cops s (fun q => (fun i => prod x ((k - nc) * s + j * P + i) ((k - nc) * s + (j + 1) * P + i)) (t * s + q)))).
  - rewrite (sumf_blocks Cops _ _ _ C_ring d s (fun i => prod x ((k - nc) * s + j * P + i) ((k - nc) * s + (j + 1) * P + i))).
    replace (d * s) with P by exact HP. reflexivity.
  - intros t Ht. assert (j * d + t < nc) by (rewrite X; nia). rewrite recent_map by (fold nc; lia). fold nc. unfold cblk.
    apply (sumf_ext _). intros q _. unfold P. rewrite HP. fold d. f_equal; nia.
Qed.

Lemma dinv_pow k st : dinv k st -> N * P <= d_r st -> sum (d_pow st) = stf_power x (d_r st - N * P) N P.
Proof.
  intros (R & _ & [HC SC]) L. rewrite R in *. destruct (NP_steps k L) as (A & B & D & E). rewrite SC, D. unfold stf_power.
  assert (Z1 : N * P = np * s) by (unfold np, P; rewrite HP; unfold d; nia).
  rewrite Z1, <- (sumf_blocks Zops _ _ _ Z_ring np s). apply (sumf_ext _). intros i Hi. rewrite recent_map by lia. rewrite E. unfold pblk.
  apply (sumf_ext _). intros q _. f_equal. f_equal. lia.
Qed.
End Detection.

(** * Peak search *)
Section Peak.
Variable c : acfg.
Hypothesis HN : aN c = 7 \/ aN c = 9.
Hypothesis HP : 0 < aP c.
Variable x : list C.
Let N := aN c.
Let P := aP c.
Let u := Ucfg (pp N) P (changes_of (pp N) P (-1) 1) (changes_of (pp N) P 1 (-1)).
Let nc := length (pp N) * P.
Let np := N * P.

Variable a : nat.
Definition c1 (i : nat) : C := prod x (a + i) (a + P + i).
Definition p1 (i : nat) : Z := norm2 (smp x (a + i)).

Definition pinv (k : nat) (st : pk) : Prop :=
  invw Cops (pp N) P (p_corr st) (map c1 (seq 0 (nc + k))) /\ inv Zops np (p_pow st) (map p1 (seq 0 (np + k))).

Lemma pnp_pos : 0 < np. Proof. unfold np, N. destruct HN as [-> | ->]; unfold P; lia. Qed.
Lemma nc_np : nc + P = np. Proof. unfold nc, np. rewrite pp_length. unfold N. destruct HN as [-> | ->]; lia. Qed.

Lemma pk_make_ok : pk_make c = Ok (u, Pk (make Cops nc) (make Zops np)).
Proof.
  unfold pk_make. fold N P. rewrite (pairwise_product_ok N HN). cbn [bind].
  rewrite (make_uw_ok Cops (1, 0)%Z cmul copp C_ring C_one C_neg C_two C_acc (pp N) P (pp_signs N HN) HP). cbn [bind fst snd]. reflexivity.
Qed.

Lemma initial_ok st : len (p_corr st) = nc -> a + np <= length x ->
  exists st', pk_initial c u x a st = Ok st' /\ pinv 0 st'.
Proof.
  intros L B. pose proof nc_np as NC. unfold pk_initial. rewrite L. fold P N np. rewrite products_ok by lia. cbn [bind].
  set (l := map (fun i => prod x (a + i) (a + P + i)) (seq 0 nc)).
  assert (Ll : length l = nc) by (unfold l; rewrite map_length, seq_length; reflexivity).
  destruct (resum_uw_ok Cops (1, 0)%Z cmul copp C_ring C_one C_neg C_two C_acc (pp N) P (pp_signs N HN) HP (fill l (p_corr st)) l) as (mc & EC & IC).
  { apply (fill_holds Cops (1, 0)%Z cmul copp C_ring C_one C_neg C_two C_acc (pp N) P (pp_signs N HN) HP). exact Ll. }
  fold u in EC. rewrite EC. cbn [bind]. rewrite products_ok by lia. cbn [bind]. eexists. split; [reflexivity|].
  rewrite map_map. rewrite (map_ext (fun i => fst (prod x (a + i) (a + i))) p1) by (intros i; apply prod_self).
  unfold pinv. rewrite !Nat.add_0_r. cbn [p_corr p_pow]. split; [exact IC|].
  set (l2 := map p1 (seq 0 np)). assert (L2 : length l2 = np) by (unfold l2; rewrite map_length, seq_length; reflexivity).
  assert (H2 : holds Zops np (fill l2 (p_pow st)) l2).
  { pose proof pnp_pos. split; [split; [exact L2|cbn [ptr fill]; lia]|]. unfold win. cbn [reg ptr fill skipn firstn]. rewrite app_nil_r.
    apply (list_ext _ _ 0%Z); rewrite ?map_length, ?seq_length; [exact L2|]. intros i Hi. rewrite nth_map_seq by lia.
    unfold recent. rewrite app_nth2 by (rewrite repeat_length; lia). rewrite repeat_length. f_equal. lia. }
  split; [destruct H2 as [G W]; split; [exact G|exact W]|]. cbn [sum resum]. rewrite (acc_rot Zops 1%Z Z.mul Z.opp Z_ring Z_one Z_neg Z_two Z_acc), (proj2 H2).
  apply (acc_map Zops 1%Z Z.mul Z.opp Z_ring Z_one Z_neg Z_two Z_acc).
Qed.

Lemma pstep_ok k st again : pinv k st -> a + np + k + 1 <= length x ->
  exists st', pk_step c u x (a + np + k) again st = Ok st' /\ pinv (k + 1) st'.
Proof.
  intros (IC & IP) L. pose proof nc_np as NC. unfold pk_step. fold P. rewrite products_ok by lia. cbn [bind seq map hd].
  replace (prod x (a + np + k - P + 0) (a + np + k + 0)) with (c1 (nc + k)) by (unfold c1; f_equal; lia).
  destruct (invw_push Cops (1, 0)%Z cmul copp C_ring C_one C_neg C_two C_acc (pp N) P (pp_signs N HN) HP _ _ (c1 (nc + k)) IC) as (mc & EC & IC').
  fold u in EC. rewrite EC. cbn [bind]. rewrite products_ok by lia. cbn [bind seq map hd].
  rewrite prod_self. replace (norm2 (smp x (a + np + k + 0))) with (p1 (np + k)) by (unfold p1; f_equal; f_equal; lia).
  destruct (inv_step Zops 1%Z Z.mul Z.opp Z_ring Z_one Z_neg Z_two Z_acc np _ _ (Push (p1 (np + k))) IP pnp_pos) as (mp & EP & IP'). cbn [step] in EP.
  rewrite EP. cbn [bind]. rewrite <- map_seq_snoc in IC'. cbv beta iota in IP'. rewrite <- map_seq_snoc in IP'.
  replace (S (nc + k)) with (nc + (k + 1)) in IC' by lia. replace (S (np + k)) with (np + (k + 1)) in IP' by lia.
  destruct again.
  - destruct (resum_uw_ok Cops (1, 0)%Z cmul copp C_ring C_one C_neg C_two C_acc (pp N) P (pp_signs N HN) HP mc _ (proj1 IC')) as (mc' & ER & IR).
    fold u in ER. rewrite ER. cbn [bind]. eexists. split; [reflexivity|]. split; [exact IR|].
    destruct (inv_step Zops 1%Z Z.mul Z.opp Z_ring Z_one Z_neg Z_two Z_acc np _ _ Resum IP' pnp_pos) as (mp' & EP' & IP2). cbn [step] in EP'. injection EP' as <-. exact IP2.
  - eexists. split; [reflexivity|]. split; assumption.
Qed.

Lemma psteps_ok : forall bs k st, pinv k st -> a + np + k + length bs <= length x ->
  exists st', pk_steps c u x (a + np + k) bs st = Ok st' /\ pinv (k + length bs) st'.
Proof.
  induction bs as [|b bs IH]; intros k st I L; [exists st; split; [reflexivity|cbn [length]; rewrite Nat.add_0_r; exact I]|].
  cbn [length] in L. destruct (pstep_ok k st b I) as (st1 & E1 & I1); [lia|]. destruct (IH (k + 1) st1 I1) as (st2 & E2 & I2); [lia|].
  exists st2. cbn [pk_steps]. rewrite E1. cbn [bind]. replace (S (a + np + k)) with (a + np + (k + 1)) by lia.
  split; [exact E2|]. cbn [length]. replace (k + S (length bs)) with (k + 1 + length bs) by lia. exact I2.
Qed.

Lemma pinv_corr k st : pinv k st -> sum (p_corr st) = stf_corr x (a + k) N P.
Proof.
  intros ([HC SC] & _). rewrite SC. unfold stf_corr, weighted. rewrite pp_length. apply (sumf_ext _). intros j Hj.
  rewrite pp_nth by exact Hj. cbn [scale Cops]. f_equal. apply (sumf_ext _). intros t Ht.
  assert (X : nc = (N - 1) * P) by (unfold nc; rewrite pp_length; reflexivity). assert (j * P + t < nc) by (rewrite X; nia).
  fold nc. rewrite recent_map by lia. unfold c1, prod. f_equal; [|f_equal]; f_equal; lia.
Qed.

Lemma pinv_pow k st : pinv k st -> sum (p_pow st) = stf_power x (a + k) N P.
Proof.
  intros (_ & [HC SC]). rewrite SC. unfold stf_power. fold np. apply (sumf_ext _). intros i Hi. rewrite recent_map by lia. unfold p1.
  f_equal. f_equal. lia.
Qed.
End Peak.

(** * Bounds of the metric *)
Lemma norm2_nonneg z : (0 <= norm2 z)%Z. Proof. unfold norm2. nia. Qed.

Lemma sumZ_nonneg n f : (forall i, i < n -> (0 <= f i)%Z) -> (0 <= sumf Zops n f)%Z.
Proof. induction n as [|n IH]; intros H; cbn [sumf]; [cbn; lia|]. cbn [add Zops]. pose proof (H n ltac:(lia)). pose proof (IH ltac:(intros; apply H; lia)). lia. Qed.

Lemma cs_step (A B p q X m2 : Z) :
  (0 <= A -> 0 <= B -> 0 <= p -> 0 <= q -> m2 <= A * B -> X * X <= m2 * (p * q) -> 2 * X <= A * q + B * p)%Z.
Proof.
  intros HA HB Hp Hq Hm HX.
  assert (K : (X * X <= (A * q) * (B * p))%Z).
  { assert (0 <= p * q)%Z by (apply Z.mul_nonneg_nonneg; assumption).
    assert (m2 * (p * q) <= (A * B) * (p * q))%Z by (apply Z.mul_le_mono_nonneg_r; assumption).
    replace ((A * q) * (B * p))%Z with ((A * B) * (p * q))%Z by ring. lia. }
  assert (HAq : (0 <= A * q)%Z) by (apply Z.mul_nonneg_nonneg; assumption).
  assert (HBp : (0 <= B * p)%Z) by (apply Z.mul_nonneg_nonneg; assumption).
  set (Y := (A * q)%Z) in *. set (W := (B * p)%Z) in *. clearbody Y W. clear - K HAq HBp.
  destruct (Z.le_gt_cases (2 * X) (Y + W)) as [|G]; [assumption|exfalso].
  assert ((Y + W) * (Y + W) < (2 * X) * (2 * X))%Z by (apply Z.mul_lt_mono_nonneg; lia).
  pose proof (Z.square_nonneg (Y - W)). nia.
Qed.

Lemma cauchy_schwarz n f g :
  (norm2 (sumf Cops n (fun i : nat => cmul (f i) (conj (g i)))) <=
   sumf Zops n (fun i => norm2 (f i)) * sumf Zops n (fun i => norm2 (g i)))%Z.
Proof.
  induction n as [|n IH]; [vm_compute; discriminate|]. cbn [sumf]. cbn [add Zops Cops].
  set (S := sumf Cops n _) in *. set (A := sumf Zops n (fun i => norm2 (f i))) in *. set (B := sumf Zops n (fun i => norm2 (g i))) in *.
  assert (HA : (0 <= A)%Z) by (apply sumZ_nonneg; intros; apply norm2_nonneg).
  assert (HB : (0 <= B)%Z) by (apply sumZ_nonneg; intros; apply norm2_nonneg).
  pose proof (norm2_nonneg (f n)) as Hp. pose proof (norm2_nonneg (g n)) as Hq.
  set (z := cmul (f n) (conj (g n))).
  assert (Nz : norm2 z = (norm2 (f n) * norm2 (g n))%Z).
  { unfold z. destruct (f n), (g n). csimp. ring. }
  set (X := (fst S * fst z + snd S * snd z)%Z).
  assert (E : norm2 (cadd S z) = (norm2 S + 2 * X + norm2 z)%Z) by (unfold X; destruct S, z; csimp; ring).
  assert (HX : (X * X <= norm2 S * norm2 z)%Z).
  { pose proof (Z.square_nonneg (fst S * snd z - snd S * fst z)) as SQ.
    assert (LG : (norm2 S * norm2 z = X * X + (fst S * snd z - snd S * fst z) * (fst S * snd z - snd S * fst z))%Z) by (unfold X, norm2; ring).
    lia. }
  rewrite Nz in HX. pose proof (cs_step A B (norm2 (f n)) (norm2 (g n)) X (norm2 S) HA HB Hp Hq IH HX).
  rewrite E, Nz. nia.
Qed.

Lemma sumZ_le_plus n k f : (forall i : nat, (0 <= f i)%Z) -> (sumf Zops n f <= sumf Zops (n + k)%nat f)%Z.
Proof.
  intros H. rewrite (sumf_plus Zops _ _ _ Z_ring). cbn [add Zops].
  pose proof (sumZ_nonneg k (fun i => f (n + i)) ltac:(intros; apply H)). lia.
Qed.

Lemma sumZ_le_shift n k f : (forall i : nat, (0 <= f i)%Z) -> (sumf Zops n (fun i => f (k + i)%nat) <= sumf Zops (k + n)%nat f)%Z.
Proof.
  intros H. rewrite (sumf_plus Zops _ _ _ Z_ring). cbn [add Zops].
  pose proof (sumZ_nonneg k f ltac:(intros; apply H)). lia.
Qed.

Lemma cscale_sumf k n f : cscale k (sumf Cops n f) = sumf Cops n (fun i => cscale k (f i)).
Proof. induction n as [|n IH]; cbn [sumf]; [cbn; unfold cscale; cbn [fst snd]; f_equal; ring|]. rewrite <- IH. cbn [add Cops]. cring. Qed.

Lemma cover_sq j : j < 9 -> (cover j * cover j = 1)%Z.
Proof. intros H. do 9 (destruct j as [|j]; [reflexivity|]). lia. Qed.

Lemma corr_flat x a N P : 1 <= N <= 9 -> 0 < P -> stf_corr x a N P =
  sumf Cops ((N - 1) * P) (fun i => cmul (cscale (cover (i / P) * cover (i / P + 1)) (smp x (a + i))) (conj (smp x (a + (P + i))))).
Proof.
  intros HN HP. unfold stf_corr. rewrite <- (sumf_blocks Cops _ _ _ C_ring (N - 1) P). apply (sumf_ext _). intros j Hj.
  rewrite cscale_sumf. apply (sumf_ext _). intros t Ht.
  replace ((j * P + t) / P) with j by (apply (Nat.div_unique _ P j t); lia).
  replace (a + j * P + t) with (a + (j * P + t)) by lia. replace (a + (j + 1) * P + t) with (a + (P + (j * P + t))) by lia.
  cring.
Qed.

Lemma stf_corr_bound x a N P : 1 <= N <= 9 -> 0 < P -> (norm2 (stf_corr x a N P) <= stf_power x a N P * stf_power x a N P)%Z.
Proof.
  intros HN HP. rewrite corr_flat by assumption. etransitivity; [apply cauchy_schwarz|].
  assert (A : (sumf Zops ((N - 1) * P)%nat (fun i : nat => norm2 (cscale (cover (i / P)%nat * cover (i / P + 1)%nat) (smp x (a + i)%nat))) <= stf_power x a N P)%Z).
  { rewrite (sumf_ext Zops _ _ (fun i => norm2 (smp x (a + i)))).
    - unfold stf_power. replace (N * P) with ((N - 1) * P + P) by nia. apply sumZ_le_plus. intros; apply norm2_nonneg.
    - intros i Hi. assert (i / P < N - 1) by (apply Nat.div_lt_upper_bound; lia).
      pose proof (cover_sq (i / P) ltac:(lia)) as C1. pose proof (cover_sq (i / P + 1) ltac:(lia)) as C2.
      set (k1 := cover (i / P)) in *. set (k2 := cover (i / P + 1)) in *. destruct (smp x (a + i)) as [p q]. csimp.
      replace (k1 * k2 * p * (k1 * k2 * p) + k1 * k2 * q * (k1 * k2 * q))%Z with ((k1 * k1) * (k2 * k2) * (p * p + q * q))%Z by ring.
      rewrite C1, C2. ring. }
  assert (B : (sumf Zops ((N - 1) * P)%nat (fun i : nat => norm2 (smp x (a + (P + i))%nat)) <= stf_power x a N P)%Z).
  { unfold stf_power. replace (N * P) with (P + (N - 1) * P) by nia. apply (sumZ_le_shift _ P (fun i => norm2 (smp x (a + i)))). intros; apply norm2_nonneg. }
  set (U := sumf Zops _ _) in *. set (W := sumf Zops ((N - 1) * P) (fun i => norm2 (smp x (a + (P + i))))) in *.
  assert (0 <= U)%Z by (apply sumZ_nonneg; intros; apply norm2_nonneg).
  assert (0 <= W)%Z by (apply sumZ_nonneg; intros; apply norm2_nonneg).
  nia.
Qed.

(** * A clean STF *)
Lemma cpow_norm w n : norm2 w = 1%Z -> norm2 (cpow w n) = 1%Z.
Proof.
  intros H. induction n as [|n IH]; [reflexivity|]. cbn [cpow].
  assert (E : norm2 (cmul w (cpow w n)) = (norm2 w * norm2 (cpow w n))%Z) by (generalize (cpow w n); intros z; destruct w, z; csimp; ring).
  rewrite E, H, IH. reflexivity.
Qed.


Lemma sumZ_const n k : sumf Zops n (fun _ => k) = (Z.of_nat n * k)%Z.
Proof. induction n as [|n IH]; [reflexivity|]. cbn [sumf]. rewrite IH. cbn [add Zops]. lia. Qed.

Lemma clean_power x a N P p w : N <= 9 -> norm2 w = 1%Z -> is_stf x a N P p w ->
  stf_power x a N P = (Z.of_nat N * energy p P)%Z.
Proof.
  intros HN Hw H. unfold stf_power. rewrite <- (sumf_blocks Zops _ _ _ Z_ring N P), <- sumZ_const. apply (sumf_ext _). intros j Hj.
  unfold energy. apply (sumf_ext _). intros t Ht. rewrite Nat.add_assoc, (H j t Hj Ht).
  pose proof (cover_sq j ltac:(lia)) as CS. pose proof (cpow_norm w j Hw) as CN.
  set (k := cover j) in *. set (z := cpow w j) in *. destruct (p t) as [a1 a2]. destruct z as [b1 b2]. csimp.
  replace (k * (b1 * a1 - b2 * a2) * (k * (b1 * a1 - b2 * a2)) + k * (b1 * a2 + b2 * a1) * (k * (b1 * a2 + b2 * a1)))%Z
    with ((k * k) * (b1 * b1 + b2 * b2) * (a1 * a1 + a2 * a2))%Z by ring.
  rewrite CS, CN. ring.
Qed.

Lemma clean_corr x a N P p w : 1 <= N <= 9 -> norm2 w = 1%Z -> is_stf x a N P p w ->
  stf_corr x a N P = cscale (Z.of_nat (N - 1) * energy p P) (conj w).
Proof.
  intros HN Hw H. unfold stf_corr.
  assert (S : forall n, n <= N - 1 ->
    sumf Cops n (fun j => cscale (cover j * cover (j + 1)) (sumf Cops P (fun t => cmul (smp x (a + j * P + t)) (conj (smp x (a + (j + 1) * P + t)))))) =
    cscale (Z.of_nat n * energy p P) (conj w)).
  { induction n as [|n IH]; intros Hn; [cbn [sumf]; cbn; unfold cscale; cbn [fst snd]; f_equal; ring|].
    cbn [sumf]. rewrite IH by lia.
    assert (T : forall m, m <= P -> cscale (cover n * cover (n + 1)) (sumf Cops m (fun t => cmul (smp x (a + n * P + t)) (conj (smp x (a + (n + 1) * P + t))))) =
                cscale (energy p m) (conj w)).
    { induction m as [|m IHm]; intros Hm; [cbn; unfold cscale; cbn [fst snd]; f_equal; ring|]. unfold energy. cbn [sumf]. fold (energy p m).
      cbn [add Cops Zops].
      assert (D : forall k y z, cscale k (cadd y z) = cadd (cscale k y) (cscale k z)) by cring. rewrite D, IHm by lia.
      rewrite (H n m) by lia. rewrite (H (n + 1) m) by lia. rewrite (Nat.add_1_r n). cbn [cpow].
      pose proof (cover_sq n ltac:(lia)) as C1. pose proof (cover_sq (S n) ltac:(lia)) as C2. pose proof (cpow_norm w n Hw) as CN.
      set (k1 := cover n) in *. set (k2 := cover (S n)) in *. set (z := cpow w n) in *.
      destruct (p m) as [a1 a2]. destruct z as [b1 b2]. destruct w as [w1 w2]. csimp. f_equal.
      - transitivity (energy p m * w1 + (k1 * k1) * (k2 * k2) * (b1 * b1 + b2 * b2) * (a1 * a1 + a2 * a2) * w1)%Z; [ring|rewrite C1, C2, CN; ring].
      - transitivity (energy p m * - w2 + (k1 * k1) * (k2 * k2) * (b1 * b1 + b2 * b2) * (a1 * a1 + a2 * a2) * - w2)%Z; [ring|rewrite C1, C2, CN; ring]. }
    rewrite (T P (le_n P)). cbn [add Cops]. destruct w as [w1 w2]. csimp. f_equal; lia. }
  apply S. lia.
Qed.
