(** Lemmas on loops over fields and on sets. *)
From Coq Require Import Sorted.
From Verif Require Import Base Bytes WireSpec BitSolve ByteFacts Fields MacHeader Channels ChannelsSpec IeBase BeaconsSpec IeFacts IeCursor IeLists ResourceIesFacts.
Open Scope N_scope.

Lemma whole_flat {A} (l : list A) f : (forall x, In x l -> whole (f x)) -> whole (flat_map f l).
Proof.
  induction l as [|x l IH]; intros H; cbn [flat_map]; [apply whole_nil|]. apply whole_app; [apply H; now left|]. apply IH. intros y Hy. apply H. now right.
Qed.
Lemma nbytes_flat {A} (l : list A) f k : (forall x, In x l -> whole (f x)) -> (forall x, In x l -> nbytes (f x) = k) -> nbytes (flat_map f l) = (length l * k)%nat.
Proof.
  induction l as [|x l IH]; intros H K; cbn [flat_map length]; [reflexivity|]. rewrite nbytes_app by (apply H; now left).
  rewrite (K x) by now left. rewrite IH; [lia| |]; intros y Hy; [apply H|apply K]; now right.
Qed.
Lemma get_all_at {A B} (l : list A) (r : list N -> nat -> res B) k f dec n m off tail :
  skipn off m = field_bytes (flat_map f l) ++ tail -> n = length l -> (0 < k)%nat ->
  (forall x, In x l -> reader r (f x) (dec x) /\ nbytes (f x) = k /\ whole (f x)) ->
  get_all n r k m off = Ok (map dec l, (off + length l * k)%nat) /\ skipn (off + length l * k) m = tail.
Proof.
  intros E -> K. revert off E. induction l as [|x l IH]; intros off E H; cbn [flat_map length get_all map] in *.
  - rewrite fb_nil in E. rewrite Nat.add_0_r. auto.
  - destruct (H x (or_introl eq_refl)) as (R & Nk & Wx).
    assert (Wl : whole (flat_map f l)) by (apply whole_flat; intros y Hy; apply H; now right).
    rewrite fb_app in E by assumption. rewrite <- app_assoc in E.
    rewrite (reader_at r (f x) (dec x) m off _ R ltac:(lia) E). cbn [bind].
    destruct (IH (off + k)%nat) as (G & T).
    + eapply skipn_next; eassumption.
    + intros y Hy. apply H. now right.
    + rewrite G. cbn [bind]. replace (off + S (length l) * k)%nat with (off + k + length l * k)%nat by lia. auto.
Qed.
Lemma put_all_at {A} (l : list A) w k f m h :
  (forall x, In x l -> writer (w x) (f x) /\ nbytes (f x) = k /\ whole (f x)) -> whole h ->
  (nbytes h + length l * k <= length m)%nat ->
  put_all l w k (packed h m, nbytes h) = Ok (packed (h ++ flat_map f l) m, nbytes (h ++ flat_map f l)) /\
  whole (h ++ flat_map f l) /\ nbytes (h ++ flat_map f l) = (nbytes h + length l * k)%nat.
Proof.
  revert h. induction l as [|x l IH]; intros h H Wh L; cbn [flat_map put_all length fst snd] in *.
  - rewrite app_nil_r. repeat split; try apply Wh. lia.
  - destruct (H x (or_introl eq_refl)) as (Wr & Nk & Wx).
    assert (Px : put (Some x) w k (packed h m, nbytes h) = Ok (packed (h ++ f x) m, nbytes (h ++ f x)) /\ whole (h ++ f x) /\ nbytes (h ++ f x) = (nbytes h + k)%nat).
    { apply (put_at (Some x) w k f m h); [intros y Ey; injection Ey as <-; auto|exact Wh|cbn [opt_size]; lia]. }
    cbn [put fst snd] in Px. destruct Px as (P1 & P2 & P3). destruct (w x (packed h m) (nbytes h)) as [m1| | |]; try discriminate.
    cbn [bind] in *. injection P1 as P1 P1'. rewrite P1, P1'.
    destruct (IH (h ++ f x)) as (G & W & Nn); [intros y Hy; apply H; now right|exact P2|lia|].
    rewrite G, <- app_assoc in *. split; [reflexivity|]. split; [exact W|]. rewrite Nn. lia.
Qed.
Lemma parse_all ws k n m : bytes m -> fold_right N.add 0 ws = 8 * N.of_nat k -> (n * k <= length m)%nat ->
  exists ls tail, length ls = n /\ Forall (fun l => map fst l = ws /\ whole l) ls /\ bytes tail /\ m = field_bytes (concat ls) ++ tail /\
    length tail = (length m - n * k)%nat.
Proof.
  intros B W. revert m B. induction n as [|n IH]; intros m B L.
  - exists [], m. cbn [concat length]. rewrite fb_nil. repeat split; auto. lia.
  - destruct (parse_if true ws k m B W ltac:(lia)) as (l & t & L1 & L2 & L3 & L4 & L5).
    destruct (IH t L3 ltac:(lia)) as (ls & tail & M1 & M2 & M3 & M4 & M5).
    exists (l :: ls), tail. cbn [length concat]. split; [lia|]. split; [constructor; auto|]. split; [exact M3|]. split; [|lia].
    rewrite fb_app; [rewrite L4 at 1; rewrite M4 at 1; now rewrite app_assoc|exact L2|].
    clear - M2. induction M2 as [|a b (_ & H) _ IH]; cbn [concat]; [apply whole_nil|now apply whole_app].
Qed.

(** ** Sets *)
Section Sets.
Context {A : Type}.
Variable key : A -> N.
Definition asc (l : list A) : Prop := StronglySorted (fun x y => key x < key y) l.
Lemma insert_in x y l : In y (set_insert key x l) -> y = x \/ In y l.
Proof.
  induction l as [|z l IH]; cbn [set_insert In]; [intuition|]. destruct (N.ltb_spec (key x) (key z)); [cbn [In]; intuition|].
  destruct (N.ltb_spec (key z) (key x)); cbn [In]; intuition.
Qed.
Lemma insert_key x l k : In k (map key (set_insert key x l)) <-> k = key x \/ In k (map key l).
Proof.
  induction l as [|z l IH]; cbn [set_insert map In]; [intuition|]. destruct (N.ltb_spec (key x) (key z)); [cbn [map In]; intuition|].
  destruct (N.ltb_spec (key z) (key x)); cbn [map In]; [intuition|]. assert (key z = key x) by lia. intuition congruence.
Qed.
Lemma insert_asc x l : asc l -> asc (set_insert key x l).
Proof.
  induction l as [|z l IH]; cbn [set_insert]; intros S1; [repeat constructor|]. pose proof (StronglySorted_inv S1) as (S2 & S3).
  destruct (N.ltb_spec (key x) (key z)) as [Lt|Ge].
  - constructor; [exact S1|]. constructor; [exact Lt|]. eapply Forall_impl; [|exact S3]. cbn. intros; lia.
  - destruct (N.ltb_spec (key z) (key x)) as [Lt|Ge']; [|exact S1]. constructor; [now apply IH|].
    apply Forall_forall. intros y Hy. apply insert_in in Hy. destruct Hy as [->|Hy]; [exact Lt|]. rewrite Forall_forall in S3. auto.
Qed.
Lemma insert_length x l : asc l -> length (set_insert key x l) = (if existsb (fun y => key y =? key x) l then length l else S (length l)).
Proof.
  induction l as [|z l IH]; cbn [set_insert existsb length]; intros S1; [reflexivity|]. pose proof (StronglySorted_inv S1) as (S2 & S3).
  destruct (N.ltb_spec (key x) (key z)) as [Lt|Ge].
  - replace (key z =? key x) with false by lia. cbn [orb length]. replace (existsb (fun y => key y =? key x) l) with false; [reflexivity|].
    symmetry. apply not_true_is_false. rewrite existsb_exists. intros (y & Hy & E). rewrite Forall_forall in S3. apply S3 in Hy. lia.
  - destruct (N.ltb_spec (key z) (key x)) as [Lt|Ge']; cbn [length].
    + rewrite IH by exact S2. replace (key z =? key x) with false by lia. cbn [orb]. destruct (existsb _ l); reflexivity.
    + replace (key z =? key x) with true by lia. reflexivity.
Qed.
Lemma fold_asc l s : asc s -> asc (fold_left (fun s x => set_insert key x s) l s).
Proof. revert s. induction l as [|x l IH]; cbn [fold_left]; auto using insert_asc. Qed.
Lemma fold_key l s k : In k (map key (fold_left (fun s x => set_insert key x s) l s)) <-> In k (map key l) \/ In k (map key s).
Proof.
  revert s. induction l as [|x l IH]; intros s; cbn [fold_left map In]; [intuition|]. rewrite IH, insert_key. intuition congruence.
Qed.
Lemma fold_length l s : asc s -> (length (fold_left (fun s x => set_insert key x s) l s) <= length l + length s)%nat /\
  (length (fold_left (fun s x => set_insert key x s) l s) = (length l + length s)%nat <-> NoDup (map key l) /\ forall k, In k (map key l) -> ~ In k (map key s)).
Proof.
  revert s. induction l as [|x l IH]; intros s S1; cbn [fold_left map length].
  - split; [lia|]. split; [|lia]. intros _. split; [constructor|]. intros k [].
  - destruct (IH (set_insert key x s) (insert_asc x s S1)) as (I1 & I2). rewrite insert_length in I1, I2 by exact S1.
    assert (X : existsb (fun y => key y =? key x) s = true <-> In (key x) (map key s)).
    { rewrite existsb_exists, in_map_iff. split; intros (y & H1 & H2); exists y; [split; [lia|exact H1]|split; [exact H2|lia]]. }
    destruct (existsb (fun y => key y =? key x) s).
    + split; [lia|]. split; [lia|]. intros (_ & H). exfalso. apply (H (key x)); [now left|]. now apply X.
    + split; [lia|]. replace (S (length l) + length s)%nat with (length l + S (length s))%nat by lia. rewrite I2.
      assert (X' : ~ In (key x) (map key s)) by (intros H; apply X in H; discriminate). clear X I1 I2 IH. split.
      * intros (D & H). split; [constructor; [|exact D]|].
        -- intros Hx. apply (H _ Hx). apply insert_key. now left.
        -- intros k [<-|Hk]; [exact X'|]. intros Hs. apply (H k Hk). apply insert_key. now right.
      * intros (D & H). apply NoDup_cons_iff in D. destruct D as (D1 & D2). split; [exact D2|].
        intros k Hk Hs. apply insert_key in Hs. destruct Hs as [->|Hs]; [tauto|]. apply (H k); [now right|exact Hs].
Qed.
Lemma set_asc l : asc (set_of key l).
Proof. apply fold_asc. constructor. Qed.
Lemma set_key l k : In k (map key (set_of key l)) <-> In k (map key l).
Proof. unfold set_of. rewrite fold_key. cbn. tauto. Qed.
Lemma set_length l : (length (set_of key l) = length l)%nat <-> NoDup (map key l).
Proof.
  unfold set_of. destruct (fold_length l [] ltac:(constructor)) as (_ & H). cbn [length] in H. rewrite Nat.add_0_r in H. rewrite H. cbn. intuition.
Qed.
Lemma fold_in l s y : In y (fold_left (fun s x => set_insert key x s) l s) -> In y l \/ In y s.
Proof.
  revert s. induction l as [|x l IH]; intros s; cbn [fold_left In]; [intuition|]. intros H. apply IH in H. destruct H as [H|H]; [auto|].
  apply insert_in in H. intuition.
Qed.
Lemma set_in l y : In y (set_of key l) -> In y l.
Proof. intros H. apply fold_in in H. destruct H as [H|[]]. exact H. Qed.
Lemma insert_last x l : Forall (fun y => key y < key x) l -> set_insert key x l = l ++ [x].
Proof.
  induction 1 as [|z l H _ IH]; cbn [set_insert app]; [reflexivity|].
  destruct (N.ltb_spec (key x) (key z)); [lia|]. destruct (N.ltb_spec (key z) (key x)); [|lia]. now rewrite IH.
Qed.
Lemma fold_sorted l s : asc (s ++ l) -> fold_left (fun s x => set_insert key x s) l s = s ++ l.
Proof.
  revert s. induction l as [|x l IH]; intros s S1; cbn [fold_left]; [now rewrite app_nil_r|]. rewrite insert_last.
  - rewrite IH; rewrite <- app_assoc; [reflexivity|exact S1].
  - clear IH. induction s as [|z s IHs]; [constructor|]. cbn [app] in S1. apply StronglySorted_inv in S1. destruct S1 as (S1 & S2).
    constructor; [|auto]. rewrite Forall_forall in S2. apply S2. apply in_or_app. right. now left.
Qed.
Lemma set_sorted l : asc l -> set_of key l = l.
Proof. intros H. now apply (fold_sorted l []). Qed.
Lemma asc_nodup l : asc l -> NoDup (map key l).
Proof. intros H. apply set_length. now rewrite set_sorted. Qed.
End Sets.
