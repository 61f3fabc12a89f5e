(** Lemmas on the moving sums. *)
From Coq Require Import Ring Permutation.
From Verif Require Import Base MovSum MovSumSpec.

(** * The register as a window; any arithmetic *)
Section Window.
Context {V : Type} (O : ops V).
Implicit Types m : ms V.

Definition win m : list V := skipn (ptr m) (reg m) ++ firstn (ptr m) (reg m).
Definition good (n : nat) m : Prop := len m = n /\ ptr m < n.

Lemma win_length m : length (win m) = len m.
Proof. unfold win, len. rewrite app_length, skipn_length, firstn_length. lia. Qed.

Lemma mod_small_add a n : n <= a -> a < 2 * n -> a mod n = a - n.
Proof. intros. symmetry. apply (Nat.mod_unique a n 1); lia. Qed.

Lemma nth_skipn_ (l : list V) b i d : nth i (skipn b l) d = nth (b + i) l d.
Proof. revert b; induction l as [|x l IH]; intros [|b]; cbn [skipn Nat.add nth]; auto. destruct i; reflexivity. Qed.

Lemma nth_firstn_ (l : list V) k i d : i < k -> nth i (firstn k l) d = nth i l d.
Proof.
  revert k i; induction l as [|x l IH]; intros [|k] i H; cbn [firstn nth]; try lia; auto. destruct i; [reflexivity|]. apply IH. lia.
Qed.

Lemma win_nth n m i d : good n m -> i < n -> nth i (win m) d = nth ((ptr m + i) mod n) (reg m) d.
Proof.
  intros [L P] H. unfold win, len in *.
  destruct (Nat.lt_ge_cases i (n - ptr m)).
  - rewrite app_nth1 by (rewrite skipn_length; lia). rewrite Nat.mod_small by lia. apply nth_skipn_.
  - rewrite app_nth2 by (rewrite skipn_length; lia). rewrite skipn_length, mod_small_add by lia.
    rewrite nth_firstn_ by lia. f_equal. lia.
Qed.

Lemma slice_ok (l : list V) b k : (b + k <= length l) -> slice l b k = Ok (firstn k (skipn b l)).
Proof. intros H. unfold slice. destruct (Nat.leb_spec (b + k) (length l)); [reflexivity|lia]. Qed.

Lemma nth_firstn_skipn (l : list V) b k i d : (i < k) -> nth i (firstn k (skipn b l)) d = nth (b + i) l d.
Proof. intros H. rewrite nth_firstn_ by exact H. apply nth_skipn_. Qed.

Lemma upd_split (l : list V) i x : i < length l -> upd l i x = firstn i l ++ x :: skipn (S i) l.
Proof.
  revert i; induction l as [|h t IH]; intros [|i] H; cbn [length] in H; try lia; cbn; [reflexivity|].
  rewrite IH by lia. reflexivity.
Qed.

Lemma skipn_S_nth (l : list V) i d : i < length l -> skipn i l = nth i l d :: skipn (S i) l.
Proof.
  revert i; induction l as [|h t IH]; intros [|i] H; cbn [length] in H; try lia; [reflexivity|].
  cbn [skipn nth]. rewrite (IH i) by lia. reflexivity.
Qed.

Lemma win_push n m v s : good n m ->
  let m' := Ms (upd (reg m) (ptr m) v) ((ptr m + 1) mod len m) s in
  good n m' /\ win m' = tl (win m) ++ [v].
Proof.
  intros [L P] m'. unfold m', good, win, len in *. cbn [reg ptr]. rewrite upd_length, L.
  split; [split; [reflexivity|apply Nat.mod_upper_bound; lia]|].
  rewrite upd_split by lia. rewrite (skipn_S_nth (reg m) (ptr m) v) by lia. cbn [tl app].
  assert (F : length (firstn (ptr m) (reg m)) = ptr m) by (rewrite firstn_length; lia).
  destruct (Nat.eq_dec (ptr m + 1) n) as [E|E].
  - rewrite E, Nat.mod_same by lia. rewrite skipn_O, firstn_O, app_nil_r.
    rewrite (skipn_all2 (n := S (ptr m)) (reg m)) by lia. reflexivity.
  - rewrite Nat.mod_small by lia. set (f := firstn (ptr m) (reg m)) in *. replace (ptr m + 1) with (length f + 1) by lia.
    rewrite skipn_app, firstn_app. rewrite skipn_all2 by lia. rewrite (firstn_all2 f) by lia.
    replace (length f + 1 - length f) with 1 by lia.
    cbn [skipn firstn app]. rewrite <- app_assoc. reflexivity.
Qed.

Lemma front_idx_ok n m b : good n m -> b <= n -> front_idx m b = Ok ((ptr m + (n - b)) mod n).
Proof.
  intros [L P] H. unfold front_idx. rewrite L. destruct (Nat.eqb_spec n 0); [lia|].
  f_equal. destruct (Nat.eq_dec b n) as [->|].
  - rewrite Nat.mod_same by lia. rewrite Nat.sub_diag, Nat.add_0_r, (Nat.mod_small (ptr m)) by lia.
    destruct (Nat.ltb_spec (ptr m) 0); lia.
  - rewrite (Nat.mod_small b) by lia. destruct (Nat.ltb_spec (ptr m) b).
    + rewrite (Nat.mod_small (ptr m + (n - b))) by lia. lia.
    + rewrite mod_small_add by lia. lia.
Qed.

Lemma back_idx_ok n m i : good n m -> back_idx m i = Ok ((ptr m + 1 + i) mod n).
Proof. intros [L P]. unfold back_idx. rewrite L. destruct (Nat.eqb_spec n 0); [lia|]. reflexivity. Qed.

Lemma recent_win_nil n i : i < n -> recent O n [] i = nth i (repeat (zero O) n) (zero O).
Proof. intros H. unfold recent. rewrite app_nil_r. reflexivity. Qed.

Lemma recent_snoc n h v i : i < n ->
  recent O n (h ++ [v]) i = if Nat.eqb (i + 1) n then v else recent O n h (i + 1).
Proof.
  intros H. unfold recent. rewrite app_length. cbn [length]. rewrite app_assoc.
  destruct (Nat.eqb_spec (i + 1) n) as [E|E].
  - rewrite app_nth2 by (rewrite app_length, repeat_length; lia).
    rewrite app_length, repeat_length. replace (length h + 1 + i - (n + length h)) with 0 by lia. reflexivity.
  - rewrite app_nth1 by (rewrite app_length, repeat_length; lia). f_equal. lia.
Qed.

Lemma app_inj_length {A} (a b c d : list A) : length a = length c -> a ++ b = c ++ d -> a = c /\ b = d.
Proof.
  revert c. induction a as [|x a IH]; intros [|y c] L E; cbn [length] in L; try lia; [split; [reflexivity|exact E]|].
  cbn [app] in E. injection E as -> E. destruct (IH c ltac:(lia) E) as [-> ->]. split; reflexivity.
Qed.

(** the window of a state is the window of a history *)
Definition holds (n : nat) m (h : list V) : Prop :=
  good n m /\ win m = map (recent O n h) (seq 0 n).

Lemma nth_map_seq {A} (f : nat -> A) n i d : i < n -> nth i (map f (seq 0 n)) d = f i.
Proof. intros H. rewrite (nth_indep _ d (f 0)) by (rewrite map_length, seq_length; lia). rewrite map_nth, seq_nth by lia. reflexivity. Qed.

Lemma list_ext (l1 l2 : list V) d : length l1 = length l2 -> (forall i, i < length l1 -> nth i l1 d = nth i l2 d) -> l1 = l2.
Proof. intros. apply (nth_ext l1 l2 d d); assumption. Qed.

Lemma holds_zero n s : 0 < n -> holds n (Ms (repeat (zero O) n) 0 s) [].
Proof.
  intros H. split; [split; [apply repeat_length|exact H]|]. unfold win. cbn [reg ptr skipn firstn]. rewrite app_nil_r.
  apply (list_ext _ _ (zero O)); rewrite ?map_length, ?seq_length, repeat_length; [reflexivity|].
  intros i Hi. rewrite nth_map_seq by lia. symmetry. apply recent_win_nil. lia.
Qed.

Lemma holds_push n m h v s : holds n m h ->
  holds n (Ms (upd (reg m) (ptr m) v) ((ptr m + 1) mod len m) s) (h ++ [v]).
Proof.
  intros [G W]. destruct (win_push n m v s G) as [G' W']. split; [exact G'|]. rewrite W', W.
  destruct G as [L P].
  apply (list_ext _ _ (zero O)).
  - rewrite app_length. cbn [length]. destruct n; [lia|]. cbn [seq map tl length]. rewrite !map_length, !seq_length. lia.
  - intros i. destruct n as [|n]; [lia|]. rewrite app_length. cbn [seq map tl length]. rewrite map_length, seq_length. intros Hi.
    change (recent O (S n) (h ++ [v]) 0 :: map (recent O (S n) (h ++ [v])) (seq 1 n)) with (map (recent O (S n) (h ++ [v])) (seq 0 (S n))).
    rewrite nth_map_seq by lia. rewrite recent_snoc by lia. destruct (Nat.eqb_spec (i + 1) (S n)).
    + rewrite app_nth2 by (rewrite map_length, seq_length; lia). rewrite map_length, seq_length. replace (i - n) with 0 by lia. reflexivity.
    + rewrite app_nth1 by (rewrite map_length, seq_length; lia). rewrite <- seq_shift, map_map.
      rewrite nth_map_seq by lia. f_equal. lia.
Qed.

Lemma holds_nth n m h i : holds n m h -> i < n -> nth ((ptr m + i) mod n) (reg m) (zero O) = recent O n h i.
Proof. intros [G W] H. rewrite <- (win_nth n m i _ G H), W. apply nth_map_seq. exact H. Qed.

Lemma holds_rd n m h i : holds n m h -> i < n -> rd (reg m) ((ptr m + i) mod n) = Ok (recent O n h i).
Proof.
  intros Hh H. rewrite <- (holds_nth n m h i Hh H). apply rd_ok. destruct Hh as [[L P] _]. unfold len in L. rewrite L.
  apply Nat.mod_upper_bound. lia.
Qed.

Lemma rd_ptr n m h : holds n m h -> rd (reg m) (ptr m) = Ok (recent O n h 0).
Proof.
  intros Hh. assert (0 < n) by (destruct Hh as [[L P] _]; lia). rewrite <- (holds_rd n m h 0 Hh) by lia.
  destruct Hh as [[L P] _]. rewrite Nat.add_0_r, Nat.mod_small by lia. reflexivity.
Qed.

Lemma front_rd n m h b : holds n m h -> 1 <= b <= n -> exists j, front_idx m b = Ok j /\ rd (reg m) j = Ok (recent O n h (n - b)).
Proof.
  intros Hh Hb. eexists. split; [apply (front_idx_ok n); [apply Hh|lia]|]. apply holds_rd; [exact Hh|lia].
Qed.

Lemma sumf_ext n f g : (forall i, i < n -> f i = g i) -> sumf O n f = sumf O n g.
Proof. induction n as [|n IH]; intros H; [reflexivity|]. cbn [sumf]. rewrite IH by (intros; apply H; lia). rewrite H by lia. reflexivity. Qed.

End Window.

(** * What a state keeps of its history, any arithmetic *)
Section Keeps.
Context {V : Type} (O : ops V).
Definition after (h : list V) (o : op (V := V)) : list V := match o with Push v => h ++ [v] | Resum => h | Reset => [] end.
Definition kept (n : nat) (m : ms V) (h : list V) : Prop := holds O n m h /\ ptr m = length h mod n.

Lemma kept_zero n s : 0 < n -> kept n (Ms (repeat (zero O) n) 0 s) [].
Proof. intros H. split; [apply holds_zero; exact H|]. cbn [ptr length]. rewrite Nat.mod_0_l by lia. reflexivity. Qed.

Lemma kept_push n m h v s : kept n m h -> kept n (Ms (upd (reg m) (ptr m) v) ((ptr m + 1) mod len m) s) (h ++ [v]).
Proof.
  intros [H P]. split; [apply holds_push; exact H|]. cbn [ptr]. destruct H as [[L Q] _]. rewrite L, P, app_length. cbn [length].
  apply Nat.add_mod_idemp_l. lia.
Qed.

Lemma kept_sum n m h s : kept n m h -> kept n (Ms (reg m) (ptr m) s) h.
Proof. intros [[G W] P]. split; [split; [exact G|exact W]|exact P]. Qed.

Lemma kept_step n m h o m' : 0 < n -> kept n m h -> step O o m = Ok m' -> kept n m' (after h o).
Proof.
  intros N K. destruct o as [v| |]; cbn [step after].
  - unfold pop_push. rewrite (rd_ptr O n m h (proj1 K)). cbn [bind]. intros [= <-]. apply kept_push. exact K.
  - intros [= <-]. apply kept_sum. exact K.
  - intros [= <-]. unfold reset. replace (len m) with n by (destruct K as [[[L _] _] _]; auto). apply kept_zero. exact N.
Qed.

Lemma kept_step_uw n c m h o m' : 0 < n -> (forall v, scale O (last (uw c) 0%Z) v = v) -> kept n m h -> step_uw O c o m = Ok m' -> kept n m' (after h o).
Proof.
  intros N S1 K. destruct o as [v| |]; cbn [step_uw after].
  - unfold pop_push_uw. rewrite (rd_ptr O n m h (proj1 K)). cbn [bind]. rewrite S1. intros H.
    apply bind_ok_inv in H as (s2 & _ & H). apply bind_ok_inv in H as (s3 & _ & H). injection H as <-. cbn [reg ptr].
    unfold len. cbn [reg]. rewrite upd_length. apply (kept_push n m h v s3 K).
  - intros H. unfold resum_uw in H. apply bind_ok_inv in H as (s & _ & H). injection H as <-. apply kept_sum. exact K.
  - intros [= <-]. unfold reset. replace (len m) with n by (destruct K as [[[L _] _] _]; auto). apply kept_zero. exact N.
Qed.

Lemma kept_run n : 0 < n -> forall os m h m', kept n m h -> run O os m = Ok m' -> kept n m' (fold_left after os h).
Proof.
  intros N. induction os as [|o os IH]; intros m h m' K; cbn [run fold_left]; [intros [= <-]; exact K|].
  intros H. apply bind_ok_inv in H as (m1 & H1 & H2). eapply IH; [|exact H2]. eapply kept_step; eassumption.
Qed.

Lemma kept_run_uw n c : 0 < n -> (forall v, scale O (last (uw c) 0%Z) v = v) -> forall os m h m', kept n m h -> run_uw O c os m = Ok m' -> kept n m' (fold_left after os h).
Proof.
  intros N S1. induction os as [|o os IH]; intros m h m' K; cbn [run_uw fold_left]; [intros [= <-]; exact K|].
  intros H. apply bind_ok_inv in H as (m1 & H1 & H2). eapply IH; [|exact H2]. eapply kept_step_uw; eassumption.
Qed.

Lemma kept_same n m1 m2 h1 h2 : kept n m1 h1 -> kept n m2 h2 -> length h1 mod n = length h2 mod n ->
  (forall i, i < n -> recent O n h1 i = recent O n h2 i) -> reg m1 = reg m2 /\ ptr m1 = ptr m2.
Proof.
  intros [[[L1 Q1] W1] P1] [[[L2 Q2] W2] P2] EL ER. assert (EP : ptr m1 = ptr m2) by congruence. split; [|exact EP].
  assert (EW : win m1 = win m2).
  { rewrite W1, W2. apply map_ext_in. intros i Hi. apply in_seq in Hi. apply ER. lia. }
  unfold win in EW. rewrite EP in EW. unfold len in *.
  assert (X : skipn (ptr m2) (reg m1) = skipn (ptr m2) (reg m2) /\ firstn (ptr m2) (reg m1) = firstn (ptr m2) (reg m2)).
  { apply app_inj_length; [|exact EW]. rewrite !skipn_length. lia. }
  rewrite <- (firstn_skipn (ptr m2) (reg m1)), <- (firstn_skipn (ptr m2) (reg m2)). destruct X as [-> ->]. reflexivity.
Qed.
End Keeps.

(** * Sums in a ring *)
Section Sums.
Context {V : Type} (O : ops V).
Variables (one : V) (mul : V -> V -> V) (opp : V -> V).
Hypothesis RT : ring_theory (zero O) one (add O) mul (sub O) opp eq.
Add Ring VR0 : RT.
Notation "0" := (zero O).
Infix "+" := (add O).
Infix "-" := (sub O).

Lemma sumf_head n f : sumf O (S n) f = f 0%nat + sumf O n (fun i => f (S i)).
Proof. induction n as [|n IH]; [cbn [sumf]; ring|]. cbn [sumf] in *. rewrite IH. ring. Qed.

Lemma sumf_add n f g : sumf O n (fun i => f i + g i) = sumf O n f + sumf O n g.
Proof. induction n as [|n IH]; cbn [sumf]; [ring|]. rewrite IH. ring. Qed.

Lemma sumf_sub n f g : sumf O n (fun i => f i - g i) = sumf O n f - sumf O n g.
Proof. induction n as [|n IH]; cbn [sumf]; [ring|]. rewrite IH. ring. Qed.

Lemma sumf_plus n k f : sumf O (n + k)%nat f = sumf O n f + sumf O k (fun i => f (n + i)%nat).
Proof. induction k as [|k IH]; [rewrite Nat.add_0_r; cbn [sumf]; ring|]. rewrite Nat.add_succ_r. cbn [sumf]. rewrite IH. ring. Qed.

Lemma sumf_zero n : sumf O n (fun _ => 0) = 0.
Proof. induction n as [|n IH]; cbn [sumf]; [reflexivity|rewrite IH; ring]. Qed.

Lemma sumf_nth_app l1 l2 : sumf O (length (l1 ++ l2)) (fun i => nth i (l1 ++ l2) 0) =
  sumf O (length l1) (fun i => nth i l1 0) + sumf O (length l2) (fun i => nth i l2 0).
Proof.
  rewrite app_length, sumf_plus. f_equal; apply sumf_ext; intros i H.
  - apply app_nth1. exact H.
  - rewrite app_nth2 by lia. f_equal. lia.
Qed.

End Sums.

(** * Exact arithmetic *)
Section Exact.
Context {V : Type} (O : ops V).
Variables (one : V) (mul : V -> V -> V) (opp : V -> V).
Hypothesis RT : ring_theory (zero O) one (add O) mul (sub O) opp eq.
Hypothesis E1 : forall v, scale O 1 v = v.
Hypothesis En : forall v, scale O (-1) v = sub O (zero O) v.
Hypothesis E2 : forall v, scale O 2 v = add O v v.
Hypothesis Ea : forall l, acc O l = sumf O (length l) (fun i => nth i l (zero O)).
Add Ring VR : RT.
Set Default Proof Using "All".
Notation SUMF_HEAD_ := (sumf_head O one mul opp RT).
Notation SUMF_ADD_ := (sumf_add O one mul opp RT).
Notation SUMF_SUB_ := (sumf_sub O one mul opp RT).
Notation SUMF_PLUS_ := (sumf_plus O one mul opp RT).
Notation SUMF_ZERO_ := (sumf_zero O one mul opp RT).
Notation SUMF_NTH_APP_ := (sumf_nth_app O one mul opp RT).
Notation "0" := (zero O).
Infix "+" := (add O).
Infix "-" := (sub O).

Lemma acc_app l1 l2 : acc O (l1 ++ l2) = acc O l1 + acc O l2.
Proof. rewrite !Ea. apply SUMF_NTH_APP_. Qed.

Lemma acc_rot m : acc O (reg m) = acc O (win m).
Proof.
  rewrite <- (firstn_skipn (ptr m) (reg m)) at 1. unfold win. rewrite !acc_app. ring.
Qed.

Lemma acc_map n f : acc O (map f (seq 0%nat n)) = sumf O n f.
Proof. rewrite Ea, map_length, seq_length. apply sumf_ext. intros i H. apply nth_map_seq. exact H. Qed.

(** the plain moving sum *)
Definition inv (n : nat) (m : ms V) (h : list V) : Prop := holds O n m h /\ sum m = sumf O n (recent O n h).

Lemma inv_make n s : (0 < n)%nat -> s = 0 -> inv n (Ms (repeat 0 n) 0%nat s) [].
Proof.
  intros H ->. split; [apply holds_zero; exact H|]. cbn [sum]. symmetry. etransitivity; [|apply (SUMF_ZERO_ n)].
  apply sumf_ext. intros i Hi. rewrite recent_win_nil by lia. apply nth_repeat.
Qed.

Lemma recent_shift_sum n h v : (0 < n)%nat ->
  sumf O n (recent O n (h ++ [v])) = sumf O n (recent O n h) - recent O n h 0%nat + v.
Proof.
  destruct n as [|n]; [lia|]. intros _. rewrite (SUMF_HEAD_ n (recent O (S n) h)). cbn [sumf].
  rewrite (recent_snoc O (S n) h v n) by lia. replace (Nat.eqb (n + 1) (S n)) with true by (symmetry; apply Nat.eqb_eq; lia).
  rewrite (sumf_ext O n (recent O (S n) (h ++ [v])) (fun i => recent O (S n) h (S i))); [ring|].
  intros i Hi. rewrite recent_snoc by lia. destruct (Nat.eqb_spec (i + 1) (S n)); [lia|]. f_equal. lia.
Qed.

Lemma inv_step n m h o : inv n m h -> (0 < n)%nat ->
  exists m', step O o m = Ok m' /\ inv n m' (match o with Push v => h ++ [v] | Resum => h | Reset => [] end).
Proof.
  intros [Hh Hs] N. destruct o as [v| |]; cbn [step].
  - unfold pop_push. rewrite (rd_ptr O n m h Hh). cbn [bind]. eexists. split; [reflexivity|].
    split; [apply holds_push; exact Hh|]. cbn [sum]. rewrite Hs, recent_shift_sum by exact N. reflexivity.
  - eexists. split; [reflexivity|]. destruct Hh as [G W]. split; [split; [exact G|exact W]|]. unfold resum. cbn [sum].
    rewrite acc_rot, W. apply acc_map.
  - eexists. split; [reflexivity|]. unfold reset. replace (len m) with n by (destruct Hh as [[L _] _]; auto).
    apply inv_make; auto.
Qed.

Lemma inv_run n : forall os m h, inv n m h -> (0 < n)%nat ->
  exists m', run O os m = Ok m' /\
    inv n m' (fold_left (fun h o => match o with Push v => h ++ [v] | Resum => h | Reset => [] end) os h).
Proof.
  induction os as [|o os IH]; intros m h I N; [eexists; split; [reflexivity|exact I]|].
  destruct (inv_step n m h o I N) as (m1 & S1 & I1). destruct (IH m1 _ I1 N) as (m2 & S2 & I2).
  exists m2. cbn [run fold_left]. rewrite S1. cbn [bind]. split; assumption.
Qed.

(** front and back *)
Lemma front_loop_ok n m h : holds O n m h -> forall k i s, (1 <= i)%nat -> (i + k <= n)%nat ->
  front_loop O m k i s = Ok (s + sumf O k (fun t => recent O n h (n - (i + t))%nat)).
Proof.
  intros Hh. induction k as [|k IH]; intros i s Hi Hk; cbn [front_loop]; [f_equal; cbn [sumf]; ring|].
  destruct (front_rd O n m h i Hh) as (j & Ej & Rj); [lia|]. rewrite Ej. cbn [bind]. rewrite Rj. cbn [bind].
  rewrite IH by lia. f_equal. rewrite SUMF_HEAD_. rewrite Nat.add_0_r.
  rewrite (sumf_ext O k (fun t => recent O n h (n - (S i + t))%nat) (fun t => recent O n h (n - (i + S t))%nat)).
  - ring.
  - intros t _. f_equal. lia.
Qed.

Lemma sum_front_ok n m h k : holds O n m h -> (1 <= k <= n)%nat ->
  sum_front O m k = Ok (recent O n h 0%nat + sumf O (k - 1)%nat (fun t => recent O n h (n - 1 - t)%nat)).
Proof.
  intros Hh Hk. unfold sum_front. destruct k as [|k]; [lia|]. cbn [front_loop].
  assert (N : (0 < n)%nat) by lia.
  assert (F : front_idx m 0%nat = Ok (ptr m)).
  { destruct Hh as [[L P] _]. unfold front_idx. rewrite L. destruct (Nat.eqb_spec n 0%nat); [lia|].
    rewrite Nat.mod_0_l by lia. destruct (Nat.ltb_spec (ptr m) 0%nat); [lia|]. f_equal. lia. }
  rewrite F. cbn [bind]. rewrite (rd_ptr O n m h Hh). cbn [bind]. rewrite (front_loop_ok n m h Hh) by lia.
  f_equal. replace (S k - 1)%nat with k by lia.
  rewrite (sumf_ext O k (fun t => recent O n h (n - (1 + t))%nat) (fun t => recent O n h (n - 1 - t)%nat)).
  - ring.
  - intros t _. f_equal. lia.
Qed.

Lemma back_loop_ok n m h : holds O n m h -> forall k i s, (i + k < n)%nat ->
  back_loop O m k i s = Ok (s + sumf O k (fun t => recent O n h (1 + i + t)%nat)).
Proof.
  intros Hh. induction k as [|k IH]; intros i s Hk; cbn [back_loop]; [f_equal; cbn [sumf]; ring|].
  rewrite (back_idx_ok n) by apply Hh. cbn [bind]. rewrite <- Nat.add_assoc, (holds_rd O n m h) by (assumption || lia). cbn [bind].
  rewrite IH by lia. f_equal. rewrite SUMF_HEAD_. rewrite Nat.add_0_r.
  rewrite (sumf_ext O k (fun t => recent O n h (1 + S i + t)%nat) (fun t => recent O n h (1 + i + S t)%nat)).
  - ring.
  - intros t _. f_equal. lia.
Qed.

Lemma sum_back_ok n m h k : holds O n m h -> (k < n)%nat ->
  sum_back O m k = Ok (sumf O k (fun t => recent O n h (1 + t)%nat)).
Proof.
  intros Hh Hk. unfold sum_back. rewrite (back_loop_ok n m h Hh) by lia. f_equal. cbn [Nat.add]. ring.
Qed.

(** * The weighted moving sum *)
Definition changes_of (u : list Z) (r : nat) (a b : Z) : list nat := changes_loop u (length u * r) r a b (length u - 1) 1.

Section Weighted.
Variables (u : list Z) (r : nat).
Hypothesis Su : signs u.
Hypothesis Hr : (0 < r)%nat.
Let n := (length u * r)%nat.
Let c := Ucfg u r (changes_of u r (-1) 1) (changes_of u r 1 (-1)).

Lemma u_len : (0 < length u)%nat. Proof. destruct Su as [H _]. destruct u; [congruence|]. cbn [length]. lia. Qed.
Lemma n_pos : (0 < n)%nat. Proof. pose proof u_len. unfold n. nia. Qed.
Lemma u_sign i : (i < length u)%nat -> (nth i u 0 = 1 \/ nth i u 0 = -1)%Z.
Proof. intros H. destruct Su as [_ [F _]]. rewrite Forall_forall in F. apply F. apply nth_In. exact H. Qed.
Lemma u_last : nth (length u - 1) u 0%Z = 1%Z.
Proof. destruct Su as [NE [_ L]]. rewrite <- L. symmetry. clear. induction u as [|a [|b t] IH]; [reflexivity|reflexivity|].
  change (last (a :: b :: t) 0%Z) with (last (b :: t) 0%Z). rewrite IH. cbn [length nth].
  replace (S (S (length t)) - 1)%nat with (S (S (length t) - 1)) by lia. reflexivity. Qed.

Lemma scale_sub x y v : (x = 1 \/ x = -1)%Z -> scale O x (v - y) = scale O x v - scale O x y.
Proof. intros [-> | ->]; rewrite ?E1, ?En; ring. Qed.
Lemma scale_add x y v : (x = 1 \/ x = -1)%Z -> scale O x (v + y) = scale O x v + scale O x y.
Proof. intros [-> | ->]; rewrite ?E1, ?En; ring. Qed.
Lemma scale_zero x : (x = 1 \/ x = -1)%Z -> scale O x 0 = 0.
Proof. intros [-> | ->]; rewrite ?E1, ?En; ring. Qed.

(** value at position p of the window extended by the value about to be pushed *)
Definition ext (h : list V) (v : V) (p : nat) : V := if Nat.eqb p n then v else recent O n h p.

Lemma sumf_shift k f : sumf O k (fun t => f (S t)) = sumf O k f - f 0%nat + f k.
Proof. assert (H : sumf O (S k) f = sumf O k f + f k) by reflexivity. rewrite SUMF_HEAD_ in H. transitivity (f 0%nat + sumf O k (fun i => f (S i)) - f 0%nat); [ring|]. rewrite H. ring. Qed.

Lemma block_shift h v i : (i < length u)%nat ->
  sumf O r (fun t => recent O n (h ++ [v]) (i * r + t)%nat) =
  sumf O r (fun t => recent O n h (i * r + t)%nat) - recent O n h (i * r)%nat + ext h v ((i + 1) * r)%nat.
Proof.
  intros Hi. assert (B : (i * r + r <= n)%nat) by (unfold n; nia).
  rewrite (sumf_ext O r (fun t => recent O n (h ++ [v]) (i * r + t)%nat) (fun t => ext h v (i * r + S t)%nat)).
  2:{ intros t Ht. rewrite recent_snoc by lia. unfold ext. replace (i * r + S t)%nat with (i * r + t + 1)%nat by lia. reflexivity. }
  rewrite (sumf_shift r (fun t => ext h v (i * r + t)%nat)).
  rewrite (sumf_ext O r (fun t => ext h v (i * r + t)%nat) (fun t => recent O n h (i * r + t)%nat)).
  2:{ intros t Ht. unfold ext. destruct (Nat.eqb_spec (i * r + t) n); [lia|reflexivity]. }
  replace ((i + 1) * r)%nat with (i * r + r)%nat by lia. rewrite Nat.add_0_r. f_equal. f_equal.
  unfold ext. destruct (Nat.eqb_spec (i * r) n); [lia|reflexivity].
Qed.

Lemma weighted_push h v :
  weighted O u r (recent O n (h ++ [v])) =
  weighted O u r (recent O n h) - scale O (nth 0%nat u 0%Z) (recent O n h 0%nat) + v
  + sumf O (length u - 1) (fun i => scale O (nth i u 0%Z) (recent O n h ((i + 1) * r)%nat)
                                    - scale O (nth (i + 1) u 0%Z) (recent O n h ((i + 1) * r)%nat)).
Proof.
  unfold weighted.
  rewrite (sumf_ext O (length u) (fun i => scale O (nth i u 0%Z) (sumf O r (fun t => recent O n (h ++ [v]) (i * r + t)%nat)))
     (fun i => scale O (nth i u 0%Z) (sumf O r (fun t => recent O n h (i * r + t)%nat))
               - scale O (nth i u 0%Z) (recent O n h (i * r)%nat)
               + scale O (nth i u 0%Z) (ext h v ((i + 1) * r)%nat))).
  2:{ intros i Hi. rewrite block_shift by exact Hi. rewrite scale_add, scale_sub by (apply u_sign; exact Hi). reflexivity. }
  rewrite SUMF_ADD_, SUMF_SUB_. pose proof u_len as UL.
  set (W := sumf O (length u) (fun i => scale O (nth i u 0%Z) (sumf O r (fun t => recent O n h (i * r + t)%nat)))).
  rewrite SUMF_SUB_.
  assert (A : sumf O (length u) (fun i => scale O (nth i u 0%Z) (recent O n h (i * r)%nat)) =
              scale O (nth 0%nat u 0%Z) (recent O n h 0%nat) +
              sumf O (length u - 1) (fun i => scale O (nth (i + 1) u 0%Z) (recent O n h ((i + 1) * r)%nat))).
  { assert (LK : length u = S (length u - 1)) by lia. rewrite LK at 1. rewrite SUMF_HEAD_. cbn [Nat.mul].
    f_equal. apply sumf_ext. intros i _. rewrite Nat.add_1_r. reflexivity. }
  assert (B : sumf O (length u) (fun i => scale O (nth i u 0%Z) (ext h v ((i + 1) * r)%nat)) =
              sumf O (length u - 1) (fun i => scale O (nth i u 0%Z) (recent O n h ((i + 1) * r)%nat)) + v).
  { pose proof u_last as LA. assert (LK : length u = S (length u - 1)) by lia. rewrite LK at 1. cbn [sumf].
    rewrite LA, E1. f_equal.
    - apply sumf_ext. intros i Hi. f_equal. unfold ext. destruct (Nat.eqb_spec ((i + 1) * r) n) as [e|]; [|reflexivity].
      exfalso. unfold n in e. nia.
    - unfold ext. destruct (Nat.eqb_spec ((length u - 1 + 1) * r) n) as [e|ne]; [reflexivity|]. exfalso. apply ne. unfold n. f_equal. lia. }
  rewrite A, B. ring.
Qed.

(** the loop over one list of sign changes *)
Lemma phase_loop_ok m h v (bin : V -> V -> V) a b : holds O n m h -> forall k i s,
  (1 <= i)%nat -> (i + k <= length u)%nat ->
  (* m is the state before the push, m1 the one during the loop *)
  forall m1, m1 = Ms (upd (reg m) (ptr m) v) (ptr m) (sum m1) ->
  phase_loop O m1 bin (changes_loop u n r a b k i) s =
  Ok (fold_left (fun s j => if Z.eqb (nth (j - 1) u 0%Z) a && Z.eqb (nth j u 0%Z) b
                            then bin s (scale O 2 (recent O n h (j * r)%nat)) else s) (seq i k) s).
Proof.
  intros Hh. induction k as [|k IH]; intros i s Hi Hk m1 Hm1; [reflexivity|].
  cbn [changes_loop seq fold_left]. destruct (Z.eqb (nth (i - 1) u 0%Z) a && Z.eqb (nth i u 0%Z) b).
  2:{ apply IH; [lia|lia|exact Hm1]. }
  cbn [app phase_loop]. pose proof Hh as [[L P] W].
  assert (Bi : (i * r < n)%nat) by (unfold n; nia). assert (Ri : (r <= i * r)%nat) by nia.
  assert (G1 : good n m1). { rewrite Hm1. split; [unfold len; cbn [reg]; rewrite upd_length; exact L|exact P]. }
  rewrite (front_idx_ok n m1) by (exact G1 || lia). cbn [bind]. replace (n - (n - i * r))%nat with (i * r)%nat by lia.
  assert (Q : ptr m1 = ptr m) by (rewrite Hm1; reflexivity). rewrite Q.
  assert (NE : ptr m <> ((ptr m + i * r) mod n)).
  { destruct (Nat.lt_ge_cases (ptr m + i * r) n); [rewrite Nat.mod_small by lia; lia|].
    rewrite mod_small_add by lia. lia. }
  assert (R1 : rd (reg m1) ((ptr m + i * r) mod n) = Ok (recent O n h (i * r)%nat)).
  { rewrite Hm1. cbn [reg]. unfold rd. rewrite nth_error_upd_other by exact NE.
    apply (holds_rd O n m h (i * r)%nat Hh Bi). }
  rewrite R1. cbn [bind]. apply IH; [lia|lia|exact Hm1].
Qed.

Lemma fold_add_start (P : nat -> bool) (f : nat -> V) l x :
  fold_left (fun s j => if P j then s + f j else s) l x = x + fold_left (fun s j => if P j then s + f j else s) l 0.
Proof. revert x. induction l as [|j l IH]; intros x; cbn [fold_left]; [ring|]. destruct (P j); [|apply IH]. rewrite IH, (IH (0 + f j)). ring. Qed.

Lemma fold_sub (P : nat -> bool) (f : nat -> V) l s :
  fold_left (fun s j => if P j then s - f j else s) l s = s - fold_left (fun s j => if P j then s + f j else s) l 0.
Proof.
  revert s. induction l as [|j l IH]; intros s; cbn [fold_left]; [ring|]. destruct (P j); [|apply IH].
  rewrite IH. rewrite (fold_add_start P f l (0 + f j)). ring.
Qed.

Lemma fold_add (P : nat -> bool) (f : nat -> V) k i s :
  fold_left (fun s j => if P j then s + f j else s) (seq i k) s =
  s + sumf O k (fun t => if P (i + t)%nat then f (i + t)%nat else 0).
Proof.
  revert i s. induction k as [|k IH]; intros i s; cbn [seq fold_left]; [cbn [sumf]; ring|].
  rewrite IH, SUMF_HEAD_. rewrite Nat.add_0_r.
  rewrite (sumf_ext O k (fun t => if P (S i + t)%nat then f (S i + t)%nat else 0) (fun t => if P (i + S t)%nat then f (i + S t)%nat else 0)).
  - destruct (P i); ring.
  - intros t _. rewrite Nat.add_succ_r. reflexivity.
Qed.

Definition invw (m : ms V) (h : list V) : Prop := holds O n m h /\ sum m = weighted O u r (recent O n h).

Lemma invw_push m h v : invw m h -> exists m', pop_push_uw O c v m = Ok m' /\ invw m' (h ++ [v]).
Proof.
  intros [Hh Hs]. unfold pop_push_uw. cbn [uw c pos_neg neg_pos rep]. rewrite (rd_ptr O n m h Hh). cbn [bind].
  assert (LA : last u 0%Z = 1%Z) by apply Su. rewrite LA, E1. cbn [sum reg ptr].
  set (s1 := sum m - scale O (hd 0%Z u) (recent O n h 0%nat) + v).
  set (m1 := Ms (upd (reg m) (ptr m) v) (ptr m) s1). pose proof u_len as UL. unfold changes_of. fold n.
  rewrite (phase_loop_ok m h v (sub O) (-1) 1 Hh (length u - 1) 1 s1) with (m1 := m1) by (reflexivity || lia). cbn [bind].
  rewrite (phase_loop_ok m h v (add O) 1 (-1) Hh (length u - 1) 1) with (m1 := m1) by (reflexivity || lia). cbn [bind].
  eexists. split; [reflexivity|].
  replace (len m1) with (len m) by (unfold len, m1; cbn [reg]; rewrite upd_length; reflexivity).
  split; [apply holds_push; exact Hh|]. cbn [sum]. rewrite weighted_push.
  rewrite (fold_sub (fun j => Z.eqb (nth (j - 1) u 0%Z) (-1) && Z.eqb (nth j u 0%Z) 1) (fun j => scale O 2 (recent O n h (j * r)%nat))).
  rewrite (fold_add (fun j => Z.eqb (nth (j - 1) u 0%Z) (-1) && Z.eqb (nth j u 0%Z) 1) (fun j => scale O 2 (recent O n h (j * r)%nat))).
  rewrite (fold_add (fun j => Z.eqb (nth (j - 1) u 0%Z) 1 && Z.eqb (nth j u 0%Z) (-1)) (fun j => scale O 2 (recent O n h (j * r)%nat))).
  unfold s1. rewrite Hs. replace (hd 0%Z u) with (nth 0%nat u 0%Z) by (destruct u; reflexivity).
  assert (D : sumf O (length u - 1)
      (fun i => scale O (nth i u 0%Z) (recent O n h ((i + 1) * r)%nat) - scale O (nth (i + 1) u 0%Z) (recent O n h ((i + 1) * r)%nat)) =
    sumf O (length u - 1) (fun t => if Z.eqb (nth (1 + t - 1) u 0%Z) 1 && Z.eqb (nth (1 + t) u 0%Z) (-1) then scale O 2 (recent O n h ((1 + t) * r)%nat) else 0)
    - sumf O (length u - 1) (fun t => if Z.eqb (nth (1 + t - 1) u 0%Z) (-1) && Z.eqb (nth (1 + t) u 0%Z) 1 then scale O 2 (recent O n h ((1 + t) * r)%nat) else 0)).
  { rewrite <- SUMF_SUB_. apply sumf_ext. intros t Ht. replace (1 + t - 1)%nat with t by lia. rewrite (Nat.add_comm 1 t).
    pose proof (u_sign t ltac:(lia)) as At. pose proof (u_sign (t + 1) ltac:(lia)) as Bt.
    destruct At as [A|A], Bt as [B|B]; rewrite A, B; cbn [Z.eqb Pos.eqb andb]; rewrite ?E1, ?En, ?E2; ring. }
  rewrite D. ring.
Qed.

(** resum *)
Lemma slice_sum (l : list V) b k : (b + k <= length l)%nat -> acc O (firstn k (skipn b l)) = sumf O k (fun t => nth (b + t) l 0).
Proof.
  intros H. rewrite Ea. rewrite firstn_length, skipn_length. replace (Nat.min k (length l - b)) with k by lia.
  apply sumf_ext. intros i Hi. apply nth_firstn_skipn. exact Hi.
Qed.

Lemma partial_ok m h i : holds O n m h -> (i < length u)%nat ->
  (do b <- front_idx m (len m - i * r);
   if Nat.leb (b + r) (len m) then do l <- slice (reg m) b r; Ok (acc O l)
   else do l1 <- slice (reg m) b (len m - b); do l2 <- slice (reg m) 0 (r - (len m - b)); Ok (acc O l1 + acc O l2)) =
  Ok (sumf O r (fun t => recent O n h (i * r + t)%nat)).
Proof.
  intros Hh Hi. pose proof Hh as [[L P] W]. rewrite L. assert (Bi : (i * r + r <= n)%nat) by (unfold n; nia).
  rewrite (front_idx_ok n m) by (apply Hh || lia). cbn [bind]. replace (n - (n - i * r))%nat with (i * r)%nat by lia.
  set (b := ((ptr m + i * r) mod n)). assert (Bb : (b < n)%nat) by (apply Nat.mod_upper_bound; lia).
  assert (LR : length (reg m) = n) by exact L.
  assert (Rt : forall t, (t < r)%nat -> recent O n h (i * r + t)%nat = nth ((b + t) mod n) (reg m) 0).
  { intros t Ht. rewrite <- (holds_nth O n m h (i * r + t) Hh) by lia. f_equal. unfold b.
    rewrite Nat.add_mod_idemp_l by lia. f_equal. lia. }
  destruct (Nat.leb_spec (b + r) n).
  - rewrite slice_ok by lia. cbn [bind]. f_equal. rewrite slice_sum by lia. apply sumf_ext. intros t Ht.
    rewrite Rt by exact Ht. rewrite Nat.mod_small by lia. reflexivity.
  - rewrite slice_ok by lia. cbn [bind]. rewrite slice_ok by lia. cbn [bind]. f_equal. rewrite !slice_sum by lia.
    replace r with ((n - b) + (r - (n - b)))%nat at 2 by lia. rewrite SUMF_PLUS_. f_equal; apply sumf_ext; intros t Ht.
    + rewrite Rt by lia. rewrite Nat.mod_small by lia. reflexivity.
    + rewrite Rt by lia. rewrite mod_small_add by lia. f_equal. lia.
Qed.

Lemma resum_loop_ok m h : holds O n m h -> forall k i s, (i + k <= length u)%nat ->
  resum_loop O c m k i s =
  Ok (s + sumf O k (fun j => scale O (nth (i + j) u 0%Z) (sumf O r (fun t => recent O n h ((i + j) * r + t)%nat)))).
Proof.
  intros Hh. induction k as [|k IH]; intros i s Hk; cbn [resum_loop]; [f_equal; cbn [sumf]; ring|].
  pose proof (partial_ok m h i Hh) as PO. cbn [rep c uw]. unfold c in *. cbn [rep uw] in *.
  destruct (front_idx m (len m - i * r)) as [b| | |]; cbn [bind] in *; try (specialize (PO ltac:(lia)); discriminate).
  rewrite PO by lia. cbn [bind]. rewrite IH by lia. f_equal. rewrite SUMF_HEAD_. rewrite Nat.add_0_r.
  rewrite (sumf_ext O k (fun j => scale O (nth (S i + j) u 0%Z) (sumf O r (fun t => recent O n h ((S i + j) * r + t)%nat)))
     (fun j => scale O (nth (i + S j) u 0%Z) (sumf O r (fun t => recent O n h ((i + S j) * r + t)%nat)))).
  - ring.
  - intros j _. rewrite Nat.add_succ_r. reflexivity.
Qed.

Lemma resum_uw_ok m h : holds O n m h -> exists m', resum_uw O c m = Ok m' /\ invw m' h.
Proof.
  intros Hh. unfold resum_uw. cbn [uw c]. rewrite (resum_loop_ok m h Hh) by lia. cbn [bind]. eexists. split; [reflexivity|].
  destruct Hh as [G W]. split; [split; [exact G|exact W]|]. cbn [sum]. unfold weighted. cbn [Nat.add]. ring.
Qed.

Lemma invw_make s : s = 0 -> invw (Ms (repeat 0 n) 0%nat s) [].
Proof.
  intros ->. pose proof n_pos as N. split; [apply holds_zero; exact N|]. cbn [sum]. unfold weighted. symmetry.
  etransitivity; [|apply (SUMF_ZERO_ (length u))]. apply sumf_ext. intros i Hi.
  rewrite (sumf_ext O r _ (fun _ => 0)); [rewrite SUMF_ZERO_; apply scale_zero, u_sign; exact Hi|].
  intros t Ht. assert ((i * r + t < n)%nat) by (unfold n; nia). rewrite recent_win_nil by lia. apply nth_repeat.
Qed.

Lemma invw_step m h o : invw m h ->
  exists m', step_uw O c o m = Ok m' /\ invw m' (match o with Push v => h ++ [v] | Resum => h | Reset => [] end).
Proof.
  intros I. destruct o as [v| |]; cbn [step_uw].
  - apply invw_push. exact I.
  - apply resum_uw_ok. apply I.
  - eexists. split; [reflexivity|]. unfold reset. replace (len m) with n by (destruct I as [[[L _] _] _]; auto).
    apply invw_make. reflexivity.
Qed.

Lemma invw_run : forall os m h, invw m h ->
  exists m', run_uw O c os m = Ok m' /\
    invw m' (fold_left (fun h o => match o with Push v => h ++ [v] | Resum => h | Reset => [] end) os h).
Proof.
  induction os as [|o os IH]; intros m h I; [eexists; split; [reflexivity|exact I]|].
  destruct (invw_step m h o I) as (m1 & S1 & I1). destruct (IH m1 _ I1) as (m2 & S2 & I2).
  exists m2. cbn [run_uw fold_left]. rewrite S1. cbn [bind]. split; assumption.
Qed.

Lemma changes_all_same a k i : (forall j, nth j u 0%Z = a \/ (length u <= j)%nat) -> (1 <= i)%nat -> (i + k <= length u)%nat ->
  forall x y, x <> y -> changes_loop u n r x y k i = [].
Proof.
  intros A. revert i. induction k as [|k IH]; intros i Hi Hk x y N; [reflexivity|]. cbn [changes_loop].
  rewrite IH by (lia || exact N). destruct (A (i - 1)%nat) as [B|]; [|lia]. destruct (A i) as [B2|]; [|lia].
  rewrite B, B2. destruct (Z.eqb_spec a x); [|reflexivity]. destruct (Z.eqb_spec a y); [congruence|reflexivity].
Qed.

Lemma changes_ok pn : changes u r pn = Ok (changes_of u r (- (if pn then 1 else -1)) (if pn then 1 else -1)).
Proof.
  unfold changes, changes_of. cbv zeta. set (s := if pn then 1%Z else (-1)%Z).
  destruct (forallb (fun x => Z.eqb x (hd 0%Z u)) u) eqn:F; [|reflexivity].
  rewrite forallb_forall in F. fold n. rewrite (changes_all_same (hd 0%Z u)); [reflexivity| | | |].
  - intros j. destruct (Nat.lt_ge_cases j (length u)); [left|right; assumption]. apply Z.eqb_eq, F, nth_In. assumption.
  - lia.
  - pose proof u_len. lia.
  - unfold s. destruct pn; lia.
Qed.

Lemma make_uw_ok : make_uw O u r = Ok (c, make O n).
Proof.
  pose proof u_len as UL.
  assert (MU : make_uw O u r = do pn <- changes u r true; do np <- changes u r false;
      guard (Z.eqb (last u 0%Z) 1) (guard (Z.eqb (Z.abs (hd 0%Z u)) 1) (Ok (Ucfg u r pn np, make O (length u * r))))).
  { unfold make_uw. clear -UL. case u as [|x t]; [cbn [length] in UL; lia|reflexivity]. }
  rewrite MU, !changes_ok. cbn [bind]. assert (LA : last u 0%Z = 1%Z) by apply Su. rewrite LA. cbn [Z.eqb Pos.eqb guard].
  assert (HA : Z.abs (hd 0%Z u) = 1%Z).
  { replace (hd 0%Z u) with (nth 0%nat u 0%Z) by (destruct u; reflexivity). destruct (u_sign 0%nat) as [-> | ->]; [lia|reflexivity|reflexivity]. }
  rewrite HA. reflexivity.
Qed.

(** filling the register directly and summing up *)
Lemma fill_holds (l : list V) s : length l = n -> holds O n (Ms l 0%nat s) l.
Proof.
  intros L. pose proof n_pos. split; [split; [exact L|cbn [ptr]; lia]|]. unfold win. cbn [reg ptr skipn firstn]. rewrite app_nil_r.
  apply (list_ext _ _ 0); rewrite ?map_length, ?seq_length; [exact L|]. intros i Hi. rewrite nth_map_seq by lia.
  unfold recent. rewrite app_nth2 by (rewrite repeat_length; lia). rewrite repeat_length. f_equal. lia.
Qed.

End Weighted.
End Exact.
