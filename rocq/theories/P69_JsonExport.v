(** C76: The exported JSON files hold all entries in order, none twice, whatever the threads do; no two threads touch
    the same data; an entry that fills a file while the one before is still being written is refused with an
    exception, and nothing is accepted after it. *)
From Verif Require Import Base JsonExport JsonExportSpec JsonExportFacts.
Open Scope nat_scope.

(** File number [i] holds exactly the entries [i * len] to [i * len + len - 1], in order, under their numbers; its
    name is the number in ten digits. *)
Theorem C76_files {J : Type} len l (s : exporter (J := J)) evs i name c :
  0 < len -> exec len created l = (s, evs) -> nth_error (files evs) i = Some (name, c) ->
  holds (appended evs) (i * len) len c /\
  length name = 10 /\ Forall (fun x => (0 <= x < 10)%Z) name /\ number name = (Z.of_nat i mod 2 ^ 32)%Z.
Proof.
  intros P E N. pose proof (run_good len P _ _ _ E) as G. destruct (files_of len P _ _ G) as (k & F & K1 & K2 & _).
  destruct G as [G _]. rewrite F in N. unfold blocks in N.
  assert (L : i < k). { rewrite <- (seq_length k 0), <- (map_length (fun i => (file_name i, part (appended evs) (i * len) len))). apply nth_error_Some. congruence. }
  rewrite (map_nth_error _ i (seq 0 k) (d := i)) in N.
  2:{ rewrite (nth_error_nth' _ 0) by (rewrite seq_length; exact L). now rewrite seq_nth. }
  injection N as <- <-. split.
  - apply (part_holds len P). rewrite <- (i_count _ _ _ _ _ _ G). pose proof (i_low _ _ _ _ _ _ G).
    assert ((i + 1) * len <= postfix_file s * len) by (apply Nat.mul_le_mono_r; lia). lia.
  - destruct (zeros_ok (Z.of_nat i mod 2 ^ 32) 10) as (A & B & C); [|lia|].
    { pose proof (Z.mod_pos_bound (Z.of_nat i) (2 ^ 32) ltac:(reflexivity)) as M.
      change (2 ^ 32)%Z with 4294967296%Z in *. change (10 ^ 10)%Z with 10000000000%Z. lia. }
    auto.
Qed.

(** Sorted by name the files are in the order they were written. *)
Theorem C76_sorted {J : Type} len l (s : exporter (J := J)) evs i j a b c d :
  0 < len -> exec len created l = (s, evs) -> (Z.of_nat j < 2 ^ 32)%Z -> i < j ->
  nth_error (files evs) i = Some (a, c) -> nth_error (files evs) j = Some (b, d) -> before a b.
Proof.
  intros P E B L N1 N2. destruct (C76_files _ _ _ _ _ _ _ P E N1) as (_ & A1 & A2 & A3).
  destruct (C76_files _ _ _ _ _ _ _ P E N2) as (_ & B1 & B2 & B3). apply before_ok; auto; [congruence|].
  rewrite A3, B3, !Z.mod_small by lia. lia.
Qed.

(** At most two files' worth of entries is in memory, and if no thread is in a call, exactly the entries that do not
    fill a file. *)
Theorem C76_counts {J : Type} len l (s : exporter (J := J)) evs :
  0 < len -> exec len created l = (s, evs) ->
  length (files evs) * len <= length (appended evs) <= (length (files evs) + 2) * len /\
  ((forall t, at_place s t = Out) -> length (files evs) = length (appended evs) / len).
Proof.
  intros P E. pose proof (run_good len P _ _ _ E) as G. destruct (files_of len P _ _ G) as (k & F & K1 & K2 & K3).
  destruct G as [G _]. assert (L : length (files evs) = k) by (rewrite F; unfold blocks; now rewrite map_length, seq_length).
  rewrite L. pose proof (i_low _ _ _ _ _ _ G) as Lo. pose proof (i_high _ _ _ _ _ _ G) as Hi. rewrite (i_count _ _ _ _ _ _ G) in *.
  assert (k * len <= postfix_file s * len) by (apply Nat.mul_le_mono_r; lia).
  assert ((postfix_file s + 1) * len <= (k + 2) * len) by (apply Nat.mul_le_mono_r; lia).
  split; [lia|]. intros O. assert (D : lockv_disk s = None).
  { destruct (lockv_disk s) as [t|] eqn:X; auto. apply (i_ld _ _ _ _ _ _ G) in X. rewrite O in X. discriminate. }
  rewrite (K3 D) in *. apply Nat.div_unique with (r := length (appended evs) - postfix_file s * len); [|lia].
  destruct (Nat.eq_dec (length (appended evs)) ((postfix_file s + 1) * len)) as [X|X]; [|lia].
  rewrite <- (i_count _ _ _ _ _ _ G) in X. destruct (i_room _ _ _ _ _ _ G X) as [[t Y]|Y]; [now rewrite O in Y|].
  destruct (i_thrown _ _ _ _ _ _ G Y) as (_ & t & _ & Z). now rewrite O in Z.
Qed.

(** Two threads never read or change the same JSON at the same time, and an empty one is never written. *)
Theorem C76_race_free {J : Type} len l (s : exporter (J := J)) evs t u b b' :
  0 < len -> exec len created l = (s, evs) -> t <> u -> touches s t = Some b -> touches s u = Some b' -> b <> b'.
Proof.
  intros P E N T U. destruct (run_good len P _ _ _ E) as [G _]. unfold touches in *.
  assert (I1 : forall v, inside (at_place s v) = true -> lockv_json s = Some v) by apply (i_lj' _ _ _ _ _ _ G).
  assert (I2 : forall v, writing (at_place s v) = true -> lockv_disk s = Some v) by apply (i_ld' _ _ _ _ _ _ G).
  assert (W : forall v c, writing (at_place s v) = true -> (match at_place s v with Export x _ => Some x | Wipe x => Some x | _ => None end) = Some c -> c = negb (json_arr_write s)).
  { intros v c _ X. destruct (at_place s v) eqn:Y; try discriminate; injection X as <-.
    - apply (i_job _ _ _ _ _ _ G v b0 name). now rewrite Y.
    - apply (i_wipe _ _ _ _ _ _ G v b0 Y). }
  pose proof (I1 t) as A1. pose proof (I1 u) as A2. pose proof (I2 t) as B1. pose proof (I2 u) as B2.
  pose proof (W t b) as C1. pose proof (W u b') as C2.
  destruct (at_place s t) as [|j| |[[? ?]|]|b0 n|b0| |]; try discriminate T; destruct (at_place s u) as [|j'| |[[? ?]|]|b1 n1|b1| |]; try discriminate U;
    cbn in *; try (specialize (A1 eq_refl)); try (specialize (A2 eq_refl)); try (specialize (B1 eq_refl)); try (specialize (B2 eq_refl));
    try congruence;
    try (specialize (C1 eq_refl T)); try (specialize (C2 eq_refl U)); injection T as <-; injection U as <-; subst; destruct (json_arr_write s); discriminate.
Qed.

Theorem C76_no_abort {J : Type} len l (s : exporter (J := J)) evs :
  0 < len -> exec len created l = (s, evs) -> ~ In Aborted evs.
Proof. intros P E. apply (run_good len P _ _ _ E). Qed.

(** Once a call has the lock, it ends after at most six steps of its own thread: it needs no other thread. *)
Theorem C76_finish {J : Type} len l (s : exporter (J := J)) evs t s' e :
  0 < len -> exec len created l = (s, evs) -> at_place s t <> Out -> at_place s t <> Dead ->
  exec len s (repeat (t, Go) 6) = (s', e) -> In Returned e \/ In Done e \/ In Thrown e.
Proof.
  intros P E N D X. pose proof (run_good len P _ _ _ E) as G.
  assert (R : forall k (s : exporter (J := J)) evs s' e, good len s evs -> at_place s t <> Out -> at_place s t <> Dead ->
     (match at_place s t with Insert _ => 6 | Check => 5 | Release None => 1 | Release _ => 4 | Export _ _ => 3 | Wipe _ => 2 | _ => 1 end) <= k ->
     exec len s (repeat (t, Go) k) = (s', e) -> In Returned e \/ In Done e \/ In Thrown e).
  { clear s evs s' e E N D X G. induction k as [|k IH]; intros s evs s' e G N D K X.
    - destruct (at_place s t) as [|j| |[[? ?]|]|b0 n|b0| |]; lia.
    - cbn [repeat exec] in X. destruct (step len s t Go) as [[s1 e1]|] eqn:S1.
      + destruct (exec len s1 (repeat (t, Go) k)) as [s2 e2] eqn:S2. injection X as <- <-.
        assert (G1 : good len s1 (evs ++ e1)) by (apply (good_step len P s evs t Go); auto).
        assert (V : In Returned e1 \/ In Done e1 \/ In Thrown e1 \/
                    at_place s1 t <> Out /\ at_place s1 t <> Dead /\
                    (match at_place s1 t with Insert _ => 6 | Check => 5 | Release None => 1 | Release _ => 4 | Export _ _ => 3 | Wipe _ => 2 | _ => 1 end) <= k).
        { pose proof (proj2 G1) as NA. destruct s as [arr w lj ld pf pe ap]. cbn [at_place] in *. unfold step in S1. cbn [at_place] in S1.
          destruct (ap t) as [|j| |[[b n]|]|b n|b| |] eqn:Q; try congruence.
          - injection S1 as <- <-. right; right; right. cbn. unfold goes, set_at. rewrite Nat.eqb_refl. repeat split; try discriminate. lia.
          - destruct (pe mod len =? 0).
            + destruct ld; injection S1 as <- <-; [cbn; tauto|]. right; right; right. cbn. unfold goes, set_at. rewrite Nat.eqb_refl. repeat split; try discriminate. lia.
            + injection S1 as <- <-. right; right; right. cbn. unfold goes, set_at. rewrite Nat.eqb_refl. repeat split; try discriminate. lia.
          - injection S1 as <- <-. right; right; right. cbn. unfold goes, set_at. rewrite Nat.eqb_refl. repeat split; try discriminate. lia.
          - injection S1 as <- <-. cbn. tauto.
          - destruct (arr b); injection S1 as <- <-.
            + exfalso. apply NA, in_or_app. right. now left.
            + right; right; right. cbn. unfold goes, set_at. rewrite Nat.eqb_refl. repeat split; try discriminate. lia.
          - injection S1 as <- <-. right; right; right. cbn. unfold goes, set_at. rewrite Nat.eqb_refl. repeat split; try discriminate. lia.
          - injection S1 as <- <-. cbn. tauto. }
        rewrite !in_app_iff. destruct V as [V|[V|[V|(V1 & V2 & V3)]]]; try tauto.
        destruct (IH s1 (evs ++ e1) s2 e2 G1 V1 V2 V3 S2) as [Y|[Y|Y]]; tauto.
      + exfalso. destruct s as [arr w lj ld pf pe ap]. cbn [at_place] in *. unfold step in S1. cbn [at_place] in S1.
        destruct (ap t) as [|j| |[[b n]|]|b n|b| |]; try congruence; try discriminate.
        * destruct (pe mod len =? 0); [destruct ld|]; discriminate.
        * destruct (arr b); discriminate. }
  apply (R 6 s evs s' e G N D); [|exact X].
  destruct (at_place s t) as [|j| |[[? ?]|]|b0 n|b0| |]; lia.
Qed.

(** A call throws only if its entry fills a file while the file before has not been finished; from then on no entry is
    accepted, whoever calls. *)
Theorem C76_thrown {J : Type} len l (s : exporter (J := J)) a b :
  0 < len -> exec len created l = (s, a ++ Thrown :: b) ->
  (exists k, length (appended a) = (k + 2) * len /\ done a = k) /\ appended b = [] /\ ~ In Thrown b.
Proof.
  intros P E. destruct (exec_split len _ _ _ _ _ _ E) as (l1 & t & act & l2 & s1 & s2 & A & B & C).
  pose proof (run_good len P _ _ _ A) as G1. destruct (thrown_from len _ _ _ _ B) as (T1 & T2 & T3).
  pose proof (good_step len P _ _ _ _ _ _ G1 B) as G2.
  split.
  - destruct G1 as [G _]. destruct (i_pf _ _ _ _ _ _ G T3) as [Q1 Q2]. exists (postfix_file s1 - 1). split; [|exact Q2].
    pose proof (i_check _ _ _ _ _ _ G t T1) as Lo. pose proof (i_high _ _ _ _ _ _ G) as Hi. rewrite (i_count _ _ _ _ _ _ G) in *.
    apply Nat.mod_divide in T2; [|lia]. destruct T2 as [k M]. rewrite M in *.
    assert (postfix_file s1 < k) by nia. assert (k <= postfix_file s1 + 1) by nia. f_equal. lia.
  - destruct (stuck len P l2 s2 (a ++ [Thrown]) s b G2) as [X Y]; [rewrite threw_app; cbn; apply orb_true_r|exact C|].
    split; [exact X|]. intros Z. apply threw_in in Z. congruence.
Qed.

(** As long as entries are accepted, all files but the two last are complete and their calls have returned. *)
Theorem C76_pressure {J : Type} len l (s : exporter (J := J)) evs k :
  0 < len -> exec len created l = (s, evs) -> (k + 2) * len < length (appended evs) -> k + 1 <= done evs.
Proof.
  intros P E L. destruct (run_good len P _ _ _ E) as [G _]. pose proof (i_high _ _ _ _ _ _ G) as Hi. rewrite (i_count _ _ _ _ _ _ G) in Hi.
  assert (k + 2 < postfix_file s + 1) by nia.
  destruct (lockv_disk s) eqn:X; [destruct (i_pf _ _ _ _ _ _ G); [congruence|lia]|destruct (i_none _ _ _ _ _ _ G X); lia].
Qed.

(** Two threads, two entries per file: a file is written while the other thread goes on. *)
Definition two_threads : list (nat * action (J := nat)) :=
  [(0, Call 7); (1, Call 9); (0, Go); (0, Go); (0, Go); (1, Call 8); (1, Go); (1, Go); (1, Go);
   (0, Call 5); (0, Go); (1, Go); (0, Go); (0, Go); (1, Go); (1, Go); (0, Call 6); (0, Go); (0, Go); (0, Go); (0, Go); (0, Go); (0, Go)].
Example C76_nonvacuous :
  appended (snd (exec 2 created two_threads)) = [7; 8; 5; 6] /\
  files (snd (exec 2 created two_threads)) =
    [([0;0;0;0;0;0;0;0;0;0]%Z, [(0, 7); (1, 8)]); ([0;0;0;0;0;0;0;0;0;1]%Z, [(2, 5); (3, 6)])] /\
  done (snd (exec 2 created two_threads)) = 2.
Proof. repeat split; reflexivity. Qed.

Example C76_races_nonvacuous :
  touches (fst (exec 2 created (firstn 10 two_threads))) 0 = Some true /\
  touches (fst (exec 2 created (firstn 10 two_threads))) 1 = Some false.
Proof. split; reflexivity. Qed.

(** "If another thread is still writing, the JSON is discarded and appending goes on" (json_export.cpp 64): false. The
    call throws, and the lock is never released: no later call can append. *)
Definition late_writer : list (nat * action (J := nat)) :=
  [(0, Call 1); (0, Go); (0, Go); (0, Go); (0, Call 2); (0, Go); (0, Go); (0, Go);
   (1, Call 3); (1, Go); (1, Go); (1, Go); (1, Call 4); (1, Go); (1, Go)].
Theorem C76_discard_refuted :
  In Thrown (snd (exec 2 created late_writer)) /\
  forall l, appended (snd (exec 2 created (late_writer ++ l))) = [1; 2; 3; 4].
Proof.
  assert (T : snd (exec 2 created late_writer) = [Appended 1; Returned; Appended 2; Appended 3; Returned; Appended 4; Thrown]) by reflexivity.
  split; [rewrite T; cbn; tauto|]. intros l.
  assert (A : forall (l1 l2 : list (nat * action (J := nat))) s, exec 2 s (l1 ++ l2) = (fst (exec 2 (fst (exec 2 s l1)) l2), snd (exec 2 s l1) ++ snd (exec 2 (fst (exec 2 s l1)) l2))).
  { induction l1 as [|[t a] l1 IH]; intros l2 s; cbn; [now destruct (exec 2 s l2)|]. destruct (step 2 s t a) as [[s1 e1]|]; [|apply IH].
    rewrite IH. destruct (exec 2 s1 l1). cbn. now rewrite app_assoc. }
  specialize (A late_writer l created). rewrite T in A.
  destruct (C76_thrown 2 (late_writer ++ l) _ [Appended 1; Returned; Appended 2; Appended 3; Returned; Appended 4] _ ltac:(lia) A) as (_ & B & _).
  rewrite A. cbn [snd]. rewrite appended_app, B. reflexivity.
Qed.

(** "Every entry ends up in a file": false. Entries after the last full file are in memory only and the exporter has no
    way to write them when the program stops. *)
Theorem C76_tail_refuted : exists l (s : exporter (J := nat)) evs,
  exec 2 created l = (s, evs) /\ (forall t, at_place s t = Out) /\ appended evs = [7] /\ files evs = [].
Proof.
  exists [(0, Call 7); (0, Go); (0, Go); (0, Go)]. eexists. eexists. split; [reflexivity|]. split; [|split; reflexivity].
  intros [|t]; reflexivity.
Qed.

Print Assumptions C76_files.
Print Assumptions C76_sorted.
Print Assumptions C76_counts.
Print Assumptions C76_race_free.
Print Assumptions C76_no_abort.
Print Assumptions C76_finish.
Print Assumptions C76_thrown.
Print Assumptions C76_pressure.
Print Assumptions C76_discard_refuted.
Print Assumptions C76_tail_refuted.
