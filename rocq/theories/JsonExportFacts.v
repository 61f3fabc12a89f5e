(** Invariant of the JSON exporter over all schedules. *)
From Verif Require Import Base JsonExport JsonExportSpec.
Open Scope nat_scope.

Section Facts.
Context {J : Type}.
Variable len : nat.
Hypothesis len_pos : 0 < len.
Notation exporter := (exporter (J := J)).
Notation event := (event (J := J)).
Notation place := (place (J := J)).

Lemma appended_app (a b : list event) : appended (a ++ b) = appended a ++ appended b.
Proof. induction a as [|[] a IH]; cbn; congruence. Qed.
Lemma files_app (a b : list event) : files (a ++ b) = files a ++ files b.
Proof. induction a as [|[] a IH]; cbn; congruence. Qed.
Lemma done_app (a b : list event) : done (a ++ b) = done a + done b.
Proof. induction a as [|[] a IH]; cbn; lia. Qed.

Definition numbered (h : list J) : list (nat * J) := combine (seq 0 (length h)) h.
Definition part (h : list J) (a n : nat) : list (nat * J) := firstn n (skipn a (numbered h)).

Lemma numbered_len h : length (numbered h) = length h.
Proof. unfold numbered. rewrite combine_length, seq_length. lia. Qed.
Lemma numbered_snoc h j : numbered (h ++ [j]) = numbered h ++ [(length h, j)].
Proof.
  unfold numbered. rewrite app_length, seq_app. cbn.
  assert (G : forall (a b : list nat) (c d : list J), length a = length c -> combine (a ++ b) (c ++ d) = combine a c ++ combine b d).
  { induction a as [|x a IH]; intros b [|y c] d E; cbn in *; try discriminate; auto. rewrite IH by lia. reflexivity. }
  rewrite G by (rewrite seq_length; reflexivity). reflexivity.
Qed.
Lemma part_snoc_tail h j a n : a <= length h -> length h < a + n ->
  part (h ++ [j]) a n = part h a n ++ [(length h, j)].
Proof.
  intros L1 L2. unfold part. rewrite numbered_snoc, skipn_app, firstn_app, numbered_len.
  replace (a - length h) with 0 by lia. cbn [skipn]. rewrite skipn_length, numbered_len.
  f_equal. rewrite firstn_all2; [reflexivity|cbn; lia].
Qed.
Lemma part_snoc_old h j a n : a + n <= length h -> part (h ++ [j]) a n = part h a n.
Proof.
  intros L. unfold part. rewrite numbered_snoc, skipn_app, firstn_app, numbered_len, skipn_length, numbered_len.
  replace (n - (length h - a)) with 0 by lia. now rewrite firstn_O, app_nil_r.
Qed.
Lemma part_nil h n : part h (length h) n = [].
Proof. unfold part. rewrite skipn_all2 by (rewrite numbered_len; lia). apply firstn_nil. Qed.
Lemma part_len h a n : a + n <= length h -> length (part h a n) = n.
Proof. intros L. unfold part. rewrite firstn_length, skipn_length, numbered_len. lia. Qed.
Lemma nth_error_skipn' {A} (l : list A) : forall a i, nth_error (skipn a l) i = nth_error l (a + i).
Proof. induction l as [|x l IH]; intros [|a] i; cbn; auto. now destruct i. Qed.
Lemma nth_error_firstn' {A} (l : list A) : forall n i, i < n -> nth_error (firstn n l) i = nth_error l i.
Proof. induction l as [|x l IH]; intros [|n] [|i] L; cbn; auto; try lia. apply IH. lia. Qed.
Lemma numbered_nth h : forall i, nth_error (numbered h) i = option_map (pair i) (nth_error h i).
Proof.
  unfold numbered. assert (G : forall (h : list J) k i, nth_error (combine (seq k (length h)) h) i = option_map (pair (k + i)) (nth_error h i)).
  { clear h. induction h as [|x h IH]; intros k [|i]; cbn; auto.
    - now rewrite Nat.add_0_r.
    - rewrite IH. now replace (S k + i) with (k + S i) by lia. }
  intros i. apply (G h 0 i).
Qed.
Lemma part_holds h a n : a + n <= length h -> holds h a n (part h a n).
Proof.
  intros L. split; [now apply part_len|]. intros i Li.
  unfold part. rewrite nth_error_firstn' by exact Li. rewrite nth_error_skipn', numbered_nth.
  destruct (nth_error h (a + i)) as [j|] eqn:E; [exists j; split; reflexivity|].
  apply nth_error_None in E. lia.
Qed.

(** A thread between lock() and unlock() of lockv_json. *)
Definition inside (p : place) : bool :=
  match p with Insert _ | Check | Release _ => true | _ => false end.
(** A thread that has lockv_disk. *)
Definition writing (p : place) : bool :=
  match p with Release (Some _) | Export _ _ | Wipe _ | Free => true | _ => false end.
(** A thread whose file has not been written yet. *)
Definition before_file (p : place) : bool :=
  match p with Release (Some _) | Export _ _ => true | _ => false end.
Definition job (p : place) : option (bool * list Z) :=
  match p with Release w => w | Export b n => Some (b, n) | _ => None end.

(** The files of the first [k] blocks. *)
Definition blocks (h : list J) (k : nat) : list (list Z * list (nat * J)) :=
  map (fun i => (file_name i, part h (i * len) len)) (seq 0 k).

Lemma blocks_S h k : blocks h (k + 1) = blocks h k ++ [(file_name k, part h (k * len) len)].
Proof. unfold blocks. now rewrite seq_app, map_app. Qed.
Lemma blocks_old h j k : k * len <= length h -> blocks (h ++ [j]) k = blocks h k.
Proof.
  intros L. unfold blocks. apply map_ext_in. intros i Hi. apply in_seq in Hi. f_equal. apply part_snoc_old.
  assert ((i + 1) * len <= k * len) by (apply Nat.mul_le_mono_r; lia). lia.
Qed.


Record inv (s : exporter) (h : list J) (fs : list (list Z * list (nat * J))) (dn : nat) (th : bool) : Prop := {
  i_count : postfix_entry s = length h;
  i_low : postfix_file s * len <= postfix_entry s;
  i_high : postfix_entry s <= (postfix_file s + 1) * len;
  i_lj : forall t, lockv_json s = Some t -> inside (at_place s t) = true \/ at_place s t = Dead /\ th = true;
  i_lj' : forall t, inside (at_place s t) = true -> lockv_json s = Some t;
  i_ld : forall t, lockv_disk s = Some t -> writing (at_place s t) = true;
  i_ld' : forall t, writing (at_place s t) = true -> lockv_disk s = Some t;
  i_check : forall t, at_place s t = Check -> postfix_file s * len < postfix_entry s;
  i_room : postfix_entry s = (postfix_file s + 1) * len -> (exists t, at_place s t = Check) \/ th = true;
  i_cur : json_arr s (json_arr_write s) = part h (postfix_file s * len) len;
  i_pf : lockv_disk s <> None -> 1 <= postfix_file s /\ dn = postfix_file s - 1;
  i_job : forall t b n, job (at_place s t) = Some (b, n) ->
          b = negb (json_arr_write s) /\ n = file_name (postfix_file s - 1) /\
          json_arr s b = part h ((postfix_file s - 1) * len) len /\ fs = blocks h (postfix_file s - 1);
  i_wipe : forall t b, at_place s t = Wipe b -> b = negb (json_arr_write s);
  i_after : forall t, before_file (at_place s t) = false -> writing (at_place s t) = true ->
            fs = blocks h (postfix_file s);
  i_free : forall t, at_place s t = Free -> json_arr s (negb (json_arr_write s)) = [];
  i_none : lockv_disk s = None -> json_arr s (negb (json_arr_write s)) = [] /\
           fs = blocks h (postfix_file s) /\ dn = postfix_file s;
  i_thrown : th = true -> postfix_entry s = (postfix_file s + 1) * len /\
             exists t, lockv_json s = Some t /\ at_place s t = Dead;
  i_dead : forall t, at_place s t = Dead -> th = true
}.

Lemma inv_created : inv created [] [] 0 false.
Proof.
  constructor; cbn; try tauto; try discriminate; try lia.
  unfold part, numbered. cbn. now rewrite firstn_nil.
Qed.

Fixpoint threw (l : list event) : bool :=
  match l with [] => false | Thrown :: _ => true | _ :: l' => threw l' end.
Lemma threw_app a b : threw (a ++ b) = threw a || threw b.
Proof. induction a as [|[] a IH]; cbn; auto. Qed.
Lemma threw_in l : threw l = true <-> In Thrown l.
Proof.
  induction l as [|[] l IH]; cbn; rewrite ?IH; split; try tauto; try discriminate; intros [|]; try discriminate; tauto.
Qed.

Ltac look := unfold goes, set_at in *; cbn [at_place json_arr json_arr_write lockv_json lockv_disk postfix_file postfix_entry] in *;
  repeat match goal with |- context [?u =? ?t] => destruct (Nat.eqb_spec u t); try subst u
                       | H : context [?u =? ?t] |- _ => destruct (Nat.eqb_spec u t); try subst u end.


Lemma inside_live s h fs dn th t : inv s h fs dn th -> inside (at_place s t) = true -> th = false.
Proof.
  intros I X. destruct th; auto. destruct (i_thrown _ _ _ _ _ I eq_refl) as (_ & u & A & B).
  pose proof (i_lj' _ _ _ _ _ I _ X) as Y. rewrite Y in A. injection A as <-. rewrite B in X. discriminate.
Qed.

Lemma step_inv s t a s' e h fs dn th : inv s h fs dn th -> step len s t a = Some (s', e) ->
  inv s' (h ++ appended e) (fs ++ files e) (dn + done e) (th || threw e) /\ ~ In Aborted e.
Proof.
  intros I E. pose proof (inside_live _ _ _ _ _ t I) as Lv. destruct s as [arr w lj ld pf pe ap].
  destruct I as [I1 I2 I3 I4 I5 I6 I7 I8 I9 I10 I11 I12 I13 I14 I15 I16 I17 I18].
  cbn [at_place json_arr json_arr_write lockv_json lockv_disk postfix_file postfix_entry] in *.
  unfold step in E. cbn [at_place] in E.
  pose proof (I5 t) as U1. pose proof (I7 t) as U2.
  assert (O1 : forall u, inside (ap u) = true -> inside (ap t) = true -> u = t).
  { intros u A B. apply I5 in A. apply I5 in B. congruence. }
  assert (O2 : forall u, writing (ap u) = true -> writing (ap t) = true -> u = t).
  { intros u A B. apply I7 in A. apply I7 in B. congruence. }
  destruct (ap t) as [|j| |[[b n]|]|b n|b| |] eqn:P; destruct a as [j'|]; try discriminate E;
    cbn [inside writing] in U1, U2, Lv, O1, O2.
  - (* Call *) destruct lj as [u|]; [discriminate|]. injection E as <- <-. cbn [appended files done threw].
    rewrite !app_nil_r, Nat.add_0_r, orb_false_r. split; [|tauto].
    assert (NI : forall u, inside (ap u) = true -> False) by (intros u A; apply I5 in A; discriminate).
    assert (Th : th = false).
    { destruct th; auto. destruct (I17 eq_refl) as (_ & u & A & _). discriminate. }
    constructor; look; auto.
    + intros u X. injection X as <-. look; [now left|congruence].
    + intros u X. look; auto. destruct (NI u X).
    + intros u X. look; auto. specialize (I6 _ X). rewrite P in I6. discriminate.
    + intros u X. look; [discriminate|auto].
    + intros u X. look; [discriminate|eauto].
    + intros X. destruct (I9 X) as [[u Y]|Y]; [|now right]. destruct (NI u). now rewrite Y.
    + intros u b n X. look; [discriminate|eauto].
    + intros u b X. look; [discriminate|eauto].
    + intros u X Y. look; [discriminate|eauto].
    + intros u X. look; [discriminate|eauto].
    + intros X. congruence.
    + intros u X. look; [discriminate|eauto].
  - (* Insert *) injection E as <- <-. cbn [appended files done threw].
    rewrite !app_nil_r, Nat.add_0_r, orb_false_r. split; [|cbn; intros [X|X]; [discriminate|tauto]].
    specialize (U1 eq_refl). specialize (Lv eq_refl). subst th.
    assert (Lt : pe < (pf + 1) * len).
    { destruct (Nat.eq_dec pe ((pf + 1) * len)) as [X|X]; [|lia]. destruct (I9 X) as [[u Y]|Y]; [|discriminate].
      assert (u = t) by (apply O1; [now rewrite Y|reflexivity]). subst u. congruence. }
    assert (B1 : Bool.eqb (negb w) w = false) by (now destruct w).
    constructor; look; rewrite ?eqb_reflx, ?B1.
    + rewrite app_length, I1. reflexivity.
    + lia.
    + lia.
    + intros u X. look; [now left|]. congruence.
    + intros u X. look; auto.
    + intros u X. look; auto. specialize (I6 _ X). rewrite P in I6. discriminate.
    + intros u X. look; [discriminate|auto].
    + intros u X. lia.
    + intros X. left. exists t. look; congruence.
    + rewrite I10, I1. symmetry. apply part_snoc_tail; lia.
    + auto.
    + intros u b n X. look; [discriminate|]. destruct (I12 _ _ _ X) as (A & B & C & D). subst b. rewrite B1.
      assert (1 <= pf) by (apply I11; specialize (I7 u); destruct (ap u) as [| | |[]| | | |]; try discriminate X; rewrite I7; auto; discriminate).
      assert ((pf - 1) * len + len = pf * len) by (replace pf with (pf - 1 + 1) at 2 by lia; lia).
      rewrite part_snoc_old, blocks_old by lia. auto.
    + intros u b X. look; [discriminate|eauto].
    + intros u X Y. look; [discriminate|]. rewrite blocks_old by lia. eauto.
    + intros u X. look; [discriminate|eauto].
    + intros X. rewrite blocks_old by lia. auto.
    + discriminate.
    + intros u X. look; [discriminate|eauto].
  - (* Check *) specialize (U1 eq_refl). specialize (Lv eq_refl). subst th. specialize (I8 _ P) as Lt.
    destruct (Nat.eqb_spec (pe mod len) 0) as [M|M].
    + assert (Full : pe = (pf + 1) * len).
      { apply Nat.mod_divide in M; [|lia]. destruct M as [k M].
        assert (pf < k) by nia. assert (k <= pf + 1) by nia. replace (pf + 1) with k by lia. exact M. }
      destruct ld as [u0|] eqn:Ld; injection E as <- <-; cbn [appended files done threw];
        rewrite !app_nil_r, Nat.add_0_r, ?orb_false_r, ?orb_true_r.
      * (* thrown *) split; [|cbn; intros [X|X]; [discriminate|tauto]]. constructor; look; auto.
        -- intros u X. look; [now right|]. congruence.
        -- intros u X. look; [discriminate|auto].
        -- intros u X. look; auto. specialize (I6 _ X). rewrite P in I6. discriminate.
        -- intros u X. look; [discriminate|auto].
        -- intros u b n X. look; [discriminate|eauto].
        -- intros u b X. look; [discriminate|eauto].
        -- intros u X Y. look; [discriminate|eauto].
        -- intros u X. look; [discriminate|eauto].
        -- intros _. split; auto. exists t. look; auto. congruence.
      * (* swap *) split; [|tauto]. destruct (I16 eq_refl) as (A & B & C).
        assert (NW : forall u, writing (ap u) = true -> False) by (intros u X; apply I7 in X; discriminate).
        constructor; look; rewrite ?negb_involutive; auto; try lia.
        -- intros u X. look; [now left|]. congruence.
        -- intros u X. look; auto.
        -- intros u X. injection X as <-. look; [reflexivity|congruence].
        -- intros u X. look; auto. destruct (NW u X).
        -- intros u X. look; [discriminate|]. assert (u = t) by (apply O1; [now rewrite X|reflexivity]). congruence.
        -- rewrite A, <- Full, I1. symmetry. apply part_nil.
        -- intros u b n X. look.
           ++ cbn [job] in X. injection X as <- <-. replace (pf + 1 - 1) with pf by lia. auto.
           ++ destruct (NW u). destruct (ap u) as [| | |[]| | | |]; try discriminate X; auto.
        -- intros u b X. look; [discriminate|]. destruct (NW u). now rewrite X.
        -- intros u X Y. look; [discriminate|]. destruct (NW u Y).
        -- intros u X. look; [discriminate|]. destruct (NW u). now rewrite X.
        -- discriminate.
        -- intros u X. look; [discriminate|eauto].
    + injection E as <- <-. cbn [appended files done threw]. rewrite !app_nil_r, Nat.add_0_r, orb_false_r. split; [|tauto].
      constructor; look; auto.
      * intros u X. look; [now left|congruence].
      * intros u X. look; auto.
      * intros u X. look; auto. specialize (I6 _ X). rewrite P in I6. discriminate.
      * intros u X. look; [discriminate|auto].
      * intros X. exfalso. apply M. rewrite X. apply Nat.mod_mul. lia.
      * intros u b n X. look; [discriminate|eauto].
      * intros u b X. look; [discriminate|eauto].
      * intros u X Y. look; [discriminate|eauto].
      * intros u X. look; [discriminate|eauto].
      * discriminate.
      * intros u X. look; [discriminate|eauto].
  - (* Release with a file *) injection E as <- <-. cbn [appended files done threw].
    rewrite !app_nil_r, Nat.add_0_r, orb_false_r. split; [|tauto].
    specialize (U1 eq_refl). specialize (U2 eq_refl). specialize (Lv eq_refl). subst th.
    assert (NC : forall u, ap u = Check -> False).
    { intros u X. assert (u = t) by (apply O1; [now rewrite X|reflexivity]). congruence. }
    constructor; look; auto; try discriminate.
    + intros u X. look; [discriminate|]. exfalso. apply n0, O1; auto.
    + intros u X. look; auto.
    + intros u X. look; auto.
    + intros u X. look; [discriminate|eauto].
    + intros X. destruct (I9 X) as [[u Y]|Y]; [|now right]. destruct (NC u Y).
    + intros u b' n' X. look; [apply (I12 t); rewrite P; exact X|eauto].
    + intros u b' X. look; [discriminate|eauto].
    + intros u X Y. look; [discriminate|eauto].
    + intros u X. look; [discriminate|eauto].
    + intros u X. look; [discriminate|eauto].
  - (* Release without *) injection E as <- <-. cbn [appended files done threw].
    rewrite !app_nil_r, Nat.add_0_r, orb_false_r. split; [|cbn; intros [X|X]; [discriminate|tauto]].
    specialize (U1 eq_refl). specialize (Lv eq_refl). subst th.
    assert (NC : forall u, ap u = Check -> False).
    { intros u X. assert (u = t) by (apply O1; [now rewrite X|reflexivity]). congruence. }
    constructor; look; auto; try discriminate.
    + intros u X. look; [discriminate|]. exfalso. apply n, O1; auto.
    + intros u X. look; auto. specialize (I6 _ X). rewrite P in I6. discriminate.
    + intros u X. look; [discriminate|auto].
    + intros u X. look; [discriminate|eauto].
    + intros X. destruct (I9 X) as [[u Y]|Y]; [|now right]. destruct (NC u Y).
    + intros u b' n' X. look; [discriminate|eauto].
    + intros u b' X. look; [discriminate|eauto].
    + intros u X Y. look; [discriminate|eauto].
    + intros u X. look; [discriminate|eauto].
    + intros u X. look; [discriminate|eauto].
  - (* Export *) specialize (U2 eq_refl). destruct (I12 t b n) as (A & B & C & D); [now rewrite P|].
    destruct (I11 ltac:(congruence)) as (Pf & Dn).
    assert (Bl : (pf - 1) * len + len = pf * len) by (replace pf with (pf - 1 + 1) at 2 by lia; lia).
    assert (Ln : length (arr b) = len) by (rewrite C; apply part_len; lia).
    destruct (arr b) as [|x r] eqn:Ab; [cbn in Ln; lia|]. injection E as <- <-. cbn [appended files done threw].
    rewrite app_nil_r, Nat.add_0_r, orb_false_r. split; [|cbn; intros [X|X]; [discriminate|tauto]].
    assert (Fs : fs ++ [(n, x :: r)] = blocks h pf).
    { replace pf with (pf - 1 + 1) by lia. rewrite blocks_S, <- D, <- B, <- C. reflexivity. }
    constructor; look; auto.
    + intros u X. look; [apply I4 in X; rewrite P in X; destruct X as [X|[X _]]; discriminate X|auto].
    + intros u X. look; [discriminate|auto].
    + intros u X. look; [reflexivity|auto].
    + intros u X. look; auto.
    + intros u X. look; [discriminate|eauto].
    + intros X. destruct (I9 X) as [[u Y]|Y]; [|now right]. left. exists u. look; congruence.
    + intros u b' n' X. look; [discriminate|]. exfalso. apply n0, O2; auto. destruct (ap u) as [| | |[]| | | |]; try discriminate X; auto.
    + intros u b' X. look; [congruence|eauto].
    + intros u X. look; [discriminate|eauto].
    + congruence.
    + intros X. destruct (I17 X) as (Y & u & Z1 & Z2). split; auto. exists u. look; [congruence|auto].
    + intros u X. look; [discriminate|eauto].
  - (* Wipe *) injection E as <- <-. cbn [appended files done threw].
    rewrite !app_nil_r, Nat.add_0_r, orb_false_r. split; [|tauto]. specialize (U2 eq_refl).
    specialize (I13 _ _ P) as Bw. subst b.
    assert (B1 : Bool.eqb w (negb w) = false) by (now destruct w).
    constructor; look; rewrite ?eqb_reflx, ?B1; auto.
    + intros u X. look; [apply I4 in X; rewrite P in X; destruct X as [X|[X _]]; discriminate X|auto].
    + intros u X. look; [discriminate|auto].
    + intros u X. look; [reflexivity|auto].
    + intros u X. look; auto.
    + intros u X. look; [discriminate|eauto].
    + intros X. destruct (I9 X) as [[u Y]|Y]; [|now right]. left. exists u. look; congruence.
    + intros u b' n' X. look; [discriminate|]. exfalso. apply n, O2; auto. destruct (ap u) as [| | |[]| | | |]; try discriminate X; auto.
    + intros u b' X. look; [discriminate|eauto].
    + intros u X Y. look; [apply (I14 t); now rewrite P|eauto].
    + congruence.
    + intros X. destruct (I17 X) as (Y & u & Z1 & Z2). split; auto. exists u. look; [congruence|auto].
    + intros u X. look; [discriminate|eauto].
  - (* Free *) injection E as <- <-. cbn [appended files done threw].
    rewrite !app_nil_r, orb_false_r. split; [|cbn; intros [X|X]; [discriminate|tauto]]. specialize (U2 eq_refl).
    destruct (I11 ltac:(congruence)) as (Pf & Dn).
    constructor; look; auto; try discriminate; try congruence.
    + intros u X. look; [apply I4 in X; rewrite P in X; destruct X as [X|[X _]]; discriminate X|auto].
    + intros u X. look; [discriminate|auto].
    + intros u X. look; [discriminate|]. exfalso. apply n, O2; auto.
    + intros u X. look; [discriminate|eauto].
    + intros X. destruct (I9 X) as [[u Y]|Y]; [|now right]. left. exists u. look; congruence.
    + intros u b' n' X. look; [discriminate|eauto].
    + intros u b' X. look; [discriminate|eauto].
    + intros u X Y. look; [discriminate|eauto].
    + intros u X. look; [discriminate|eauto].
    + intros _. split; [now apply (I15 t)|]. split; [apply (I14 t); now rewrite P|lia].
    + intros X. destruct (I17 X) as (Y & u & Z1 & Z2). split; auto. exists u. look; [congruence|auto].
    + intros u X. look; [discriminate|eauto].
Qed.

Definition good (s : exporter) (evs : list event) : Prop :=
  inv s (appended evs) (files evs) (done evs) (threw evs) /\ ~ In Aborted evs.

Lemma exec_good : forall l s evs s' e, good s evs -> exec len s l = (s', e) -> good s' (evs ++ e).
Proof.
  induction l as [|[t a] l IH]; intros s evs s' e G E; cbn in E.
  - injection E as <- <-. now rewrite app_nil_r.
  - destruct (step len s t a) as [[s1 e1]|] eqn:S1; [|eauto].
    destruct (exec len s1 l) as [s2 e2] eqn:S2. injection E as <- <-. rewrite app_assoc. eapply IH; [|exact S2].
    destruct G as [G1 G2]. destruct (step_inv _ _ _ _ _ _ _ _ _ G1 S1) as [H1 H2]. split.
    + now rewrite appended_app, files_app, done_app, threw_app.
    + rewrite in_app_iff. tauto.
Qed.
Lemma run_good l s evs : exec len created l = (s, evs) -> good s evs.
Proof. intros E. apply (exec_good l created [] s evs); auto. split; [apply inv_created|tauto]. Qed.

Lemma good_step s evs t a s' e : good s evs -> step len s t a = Some (s', e) -> good s' (evs ++ e).
Proof. intros G S. apply (exec_good [(t, a)] s evs s' e G). cbn. rewrite S. now rewrite app_nil_r. Qed.

Lemma step_one (s : exporter) t a s' e : step len s t a = Some (s', e) -> e = [] \/ exists x, e = [x].
Proof.
  destruct s as [arr w lj ld pf pe ap]. unfold step.
  destruct (at_place _ t) as [|j| |[[b n]|]|b n|b| |]; destruct a; try discriminate;
    repeat match goal with |- context [match ?x with _ => _ end] => destruct x; try discriminate end;
    intros X; injection X as <- <-; eauto.
Qed.

Lemma exec_split : forall l (s s' : exporter) a x b, exec len s l = (s', a ++ x :: b) ->
  exists l1 t act l2 s1 s2, exec len s l1 = (s1, a) /\ step len s1 t act = Some (s2, [x]) /\ exec len s2 l2 = (s', b).
Proof.
  induction l as [|[t act] l IH]; intros s s' a x b E; cbn in E.
  - injection E as <- E. destruct a; discriminate.
  - destruct (step len s t act) as [[s1 e1]|] eqn:S1; [|eauto].
    destruct (exec len s1 l) as [s2 e2] eqn:S2. injection E as <- E.
    destruct (step_one _ _ _ _ _ S1) as [->|(y & ->)].
    + cbn in E. subst e2. destruct (IH _ _ _ _ _ S2) as (l1 & u & c & l2 & q1 & q2 & A & B & C).
      exists ((t, act) :: l1), u, c, l2, q1, q2. cbn. rewrite S1, A. auto.
    + destruct a as [|z a]; cbn in E; injection E as <- E; subst.
      * exists [], t, act, l, s, s1. auto.
      * destruct (IH _ _ _ _ _ S2) as (l1 & u & c & l2 & q1 & q2 & A & B & C).
        exists ((t, act) :: l1), u, c, l2, q1, q2. cbn. rewrite S1, A. auto.
Qed.

Lemma thrown_from (s : exporter) t act s2 : step len s t act = Some (s2, [Thrown]) ->
  at_place s t = Check /\ postfix_entry s mod len = 0 /\ lockv_disk s <> None.
Proof.
  destruct s as [arr w lj ld pf pe ap]. unfold step.
  destruct (at_place _ t) as [|j| |[[b n]|]|b n|b| |]; destruct act; try discriminate.
  - destruct lj; discriminate.
  - destruct (Nat.eqb_spec (pe mod len) 0); [|discriminate]. destruct ld; [|discriminate]. cbn. intros _. repeat split; auto. discriminate.
  - destruct (arr b); discriminate.
Qed.

(** After an exception nothing is appended any more. *)
Lemma stuck : forall l (s : exporter) evs s' b, good s evs -> threw evs = true -> exec len s l = (s', b) -> appended b = [] /\ threw b = false.
Proof.
  induction l as [|[t a] l IH]; intros s evs s' b G T E; cbn in E.
  - injection E as _ <-. auto.
  - destruct (step len s t a) as [[s1 e1]|] eqn:S1; [|eauto].
    destruct (exec len s1 l) as [s2 e2] eqn:S2. injection E as _ <-.
    pose proof (good_step _ _ _ _ _ _ G S1) as G1.
    destruct (IH s1 (evs ++ e1) s2 e2 G1) as [A B]; [rewrite threw_app, T; reflexivity|exact S2|].
    rewrite appended_app, threw_app, A, B, app_nil_r, orb_false_r.
    destruct G as [G _]. destruct (i_thrown _ _ _ _ _ G T) as (_ & u & L & D).
    assert (N : inside (at_place s t) = false).
    { destruct (inside (at_place s t)) eqn:X; auto. pose proof (inside_live _ _ _ _ _ t G X). congruence. }
    destruct s as [arr w lj ld pf pe ap]. cbn in L. subst lj. cbn [at_place] in N. unfold step in S1. cbn [at_place] in S1.
    destruct (ap t) as [|j| |[[c n]|]|c n|c| |]; destruct a; try discriminate; try discriminate N.
    + destruct (arr c); injection S1 as <- <-; auto.
    + injection S1 as <- <-. auto.
    + injection S1 as <- <-. auto.
Qed.

Lemma files_of s evs : good s evs -> exists k, files evs = blocks (appended evs) k /\ k <= postfix_file s /\
  postfix_file s <= k + 1 /\ (lockv_disk s = None -> k = postfix_file s).
Proof.
  intros [G _]. destruct (lockv_disk s) as [t|] eqn:L.
  - pose proof (i_ld _ _ _ _ _ G t L) as W. destruct (i_pf _ _ _ _ _ G) as [P1 P2]; [congruence|].
    destruct (before_file (at_place s t)) eqn:B.
    + exists (postfix_file s - 1). split; [|split; [lia|split; [lia|discriminate]]].
      destruct (at_place s t) as [|j| |[[b n]|]|b n|b| |] eqn:P; try discriminate.
      * apply (i_job _ _ _ _ _ G t b n). now rewrite P.
      * apply (i_job _ _ _ _ _ G t b n). now rewrite P.
    + exists (postfix_file s). split; [|split; [lia|split; [lia|auto]]]. exact (i_after _ _ _ _ _ G t B W).
  - exists (postfix_file s). split; [apply (i_none _ _ _ _ _ G L)|split; [lia|split; [lia|auto]]].
Qed.

End Facts.

Section Names.
Local Open Scope Z_scope.
Definition is_digit (x : Z) : Prop := 0 <= x < 10.

Lemma number_app a b : number (a ++ b) = number a * 10 ^ Z.of_nat (length b) + number b.
Proof.
  induction a as [|x a IH]; cbn [number app]; [lia|]. rewrite IH, app_length, Nat2Z.inj_add, Z.pow_add_r by lia. lia.
Qed.
Lemma decimal_ok : forall f n acc, (1 <= f)%nat -> 0 <= n < 10 ^ Z.of_nat f -> Forall is_digit acc ->
  Forall is_digit (decimal f n acc) /\ number (decimal f n acc) = n * 10 ^ Z.of_nat (length acc) + number acc /\
  (length (decimal f n acc) <= f + length acc)%nat.
Proof.
  induction f as [|f IH]; intros n acc F L D; [lia|]. cbn [decimal]. destruct (Z.ltb_spec n 10).
  - split; [constructor; [unfold is_digit; lia|exact D]|]. split; [reflexivity|cbn; lia].
  - assert (1 <= f)%nat. { destruct f; [|lia]. change (10 ^ Z.of_nat 1) with 10 in L. lia. }
    pose proof (Z.mod_pos_bound n 10 ltac:(lia)) as M. pose proof (Z.div_mod n 10 ltac:(lia)) as DM.
    rewrite Nat2Z.inj_succ, Z.pow_succ_r in L by lia.
    destruct (IH (n / 10) ((n mod 10) :: acc)) as (A & B & C); auto.
    { split; [apply Z.div_pos; lia|apply Z.div_lt_upper_bound; lia]. }
    split; [exact A|]. split; [|cbn in C; lia]. rewrite B. cbn [number length].
    rewrite Nat2Z.inj_succ, Z.pow_succ_r by lia. rewrite DM at 3. ring.
Qed.
Lemma number_zeros k : number (repeat 0 k) = 0.
Proof. induction k as [|k IH]; [reflexivity|]. cbn [repeat number]. lia. Qed.
Lemma zeros_ok number_ n : 0 <= number_ < 10 ^ 10 -> (10 <= n)%nat ->
  Forall is_digit (with_leading_zeros number_ n) /\ number (with_leading_zeros number_ n) = number_ /\
  length (with_leading_zeros number_ n) = n.
Proof.
  intros L N. unfold with_leading_zeros. destruct (decimal_ok 10 number_ []) as (A & B & C); auto; try lia.
  cbn [length] in *. change (10 ^ Z.of_nat 0) with 1 in B. cbn [number] in B.
  split; [|split].
  - apply Forall_app. split; [|exact A]. apply Forall_forall. intros x X. apply repeat_spec in X. subst x. unfold is_digit. lia.
  - rewrite number_app, number_zeros, B. lia.
  - rewrite app_length, repeat_length. lia.
Qed.
Lemma number_bound d : Forall is_digit d -> 0 <= number d < 10 ^ Z.of_nat (length d).
Proof.
  induction 1 as [|x d X D IH]; cbn [number length]; [change (10 ^ Z.of_nat 0) with 1; lia|]. unfold is_digit in X.
  rewrite Nat2Z.inj_succ, Z.pow_succ_r by lia. nia.
Qed.
Lemma before_ok : forall a b, Forall is_digit a -> Forall is_digit b -> length a = length b -> number a < number b -> before a b.
Proof.
  induction a as [|x a IH]; intros [|y b] A B L N; try discriminate L; [cbn [number] in N; lia|].
  inversion_clear A as [|? ? X A']. inversion_clear B as [|? ? Y B']. injection L as L. cbn [number] in N. rewrite L in N.
  pose proof (number_bound a A') as Ba. pose proof (number_bound b B') as Bb. rewrite L in Ba. cbn [before].
  set (p := 10 ^ Z.of_nat (length b)) in *. unfold is_digit in *. destruct (Z.lt_trichotomy x y) as [|[E|G]]; [now left| |].
  - right. split; [exact E|]. apply IH; auto. subst. lia.
  - exfalso. assert ((y + 1) * p <= x * p) by (apply Z.mul_le_mono_nonneg_r; lia). lia.
Qed.
End Names.
