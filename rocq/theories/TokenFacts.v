From Verif Require Import Base Token TokenSpec.
From Coq Require Import Permutation.

Section Facts.
  Context {A : Type}.
  Notation sys := (sys A).

  (** Ghost projections. *)
  Definition held (p : nat) (x : nat * pc A) : list (Z * A) :=
    if fst x =? p then
      match snd x with Wants c a | Admitted c a | InFifo c a => [(c, a)] | _ => [] end
    else [].
  Definition adm (p : nat) (x : nat * pc A) : list Z :=
    if fst x =? p then match snd x with Admitted c _ | InFifo c _ => [c] | _ => [] end else [].
  Definition inf (p : nat) (x : nat * pc A) : list Z :=
    if fst x =? p then match snd x with InFifo c _ => [c] | _ => [] end else [].
  Definition ins (x : nat * pc A) : list nat :=
    match snd x with InFifo _ _ | InPdc => [fst x] | _ => [] end.

  Definition served (s : sys) (p : nat) : Z := nth p (tk_cnt (tok s)) 0%Z.
  Definition live (s : sys) (p : nat) : list (Z * A) :=
    flat_map (held p) (workers s) ++ pending (pools s p).

  Definition quiet (x : pc A) : bool := match x with Idle | Draining | Gone => true | _ => false end.

  Record Inv (n : nat) (s : sys) : Prop := {
    i_n : n <= max_pools;
    i_len : length (tk_cnt (tok s)) = max_pools;
    i_workers : forall w p x, nth_error (workers s) w = Some (p, x) -> p < n;
    i_served0 : forall p, p < n -> (0 <= served s p <= Z.of_nat (length (accepted (pools s p))))%Z;
    i_nodup : forall p, p < n -> NoDup (map fst (live s p));
    i_range : forall p, p < n -> forall c a, In (c, a) (live s p) ->
       (served s p <= c)%Z /\ In (c, a) (numbered 0 (accepted (pools s p)));
    i_adm : forall p, p < n -> forall c, In c (flat_map (adm p) (workers s)) -> c = served s p;
    i_ins : if tk_locked (tok s) then flat_map ins (workers s) = [tk_holder (tok s)] /\ tk_holder (tok s) < n
            else flat_map ins (workers s) = [] /\ tk_holder (tok s) = max_pools;
    i_calls : forall p, p < n ->
       calls_of p (calls s) =
       firstn (Z.to_nat (served s p) + length (flat_map (inf p) (workers s))) (numbered 0 (accepted (pools s p)));
    i_full : stop s = false -> forall p, p < n ->
       Z.of_nat (length (live s p)) = (Z.of_nat (length (accepted (pools s p))) - served s p)%Z;
    i_top : forall p, p < n -> exists k, k <= length (accepted (pools s p)) /\
       pending (pools s p) = skipn k (numbered 0 (accepted (pools s p))) /\
       (forall c a, In (c, a) (flat_map (held p) (workers s)) -> (c < Z.of_nat k)%Z);
    i_running : stop s = false -> forall w p x, nth_error (workers s) w = Some (p, x) ->
       x <> Draining /\ x <> Gone;
    i_started : forall w p x, nth_error (workers s) w = Some (p, x) -> quiet x = false ->
       started (pools s p) = true;
    i_unstarted : forall p, started (pools s p) = false -> pending (pools s p) = []
  }.

  (** ** Lists *)
  Lemma numbered_length z (l : list A) : length (numbered z l) = length l.
  Proof. revert z; induction l as [|a l IH]; intros z; cbn; auto. Qed.

  Lemma numbered_app z (l m : list A) :
    numbered z (l ++ m) = numbered z l ++ numbered (z + Z.of_nat (length l)) m.
  Proof.
    revert z; induction l as [|a l IH]; intros z; cbn [app numbered length].
    - f_equal; lia.
    - rewrite IH. f_equal. f_equal. f_equal. lia.
  Qed.

  Lemma numbered_nth z (l : list A) i c a :
    nth_error (numbered z l) i = Some (c, a) -> c = (z + Z.of_nat i)%Z.
  Proof.
    revert z i; induction l as [|x l IH]; intros z [|i] H; cbn in H; try discriminate.
    - inversion H; subst. lia.
    - apply IH in H. lia.
  Qed.

  Lemma numbered_in_nth z (l : list A) c a :
    In (c, a) (numbered z l) -> exists i, nth_error (numbered z l) i = Some (c, a) /\ c = (z + Z.of_nat i)%Z.
  Proof.
    intros H. apply In_nth_error in H. destruct H as (i & H). exists i. split; [exact H|].
    eapply numbered_nth; exact H.
  Qed.

  Lemma numbered_in_range z (l : list A) c a :
    In (c, a) (numbered z l) -> (z <= c < z + Z.of_nat (length l))%Z.
  Proof.
    intros H. apply numbered_in_nth in H. destruct H as (i & H & ->).
    assert (i < length (numbered z l)) by (apply nth_error_Some; congruence).
    rewrite numbered_length in *. lia.
  Qed.

  Lemma skipn_numbered k z (l : list A) : skipn k (numbered z l) = numbered (z + Z.of_nat k) (skipn k l).
  Proof.
    revert z l; induction k as [|k IH]; intros z l; cbn [skipn].
    - f_equal; lia.
    - destruct l as [|a l]; cbn [numbered]; [reflexivity|]. rewrite IH. f_equal. lia.
  Qed.

  Lemma numbered_nodup z (l : list A) : NoDup (map fst (numbered z l)).
  Proof.
    revert z; induction l as [|a l IH]; intros z; cbn; constructor; auto.
    intro H. apply in_map_iff in H. destruct H as ([c b] & E & H). cbn in E. subst.
    apply numbered_in_range in H. lia.
  Qed.

  Lemma upd_split {X} (l : list X) i x : nth_error l i = Some x ->
    exists l1 l2, l = l1 ++ x :: l2 /\ forall y, upd l i y = l1 ++ y :: l2.
  Proof.
    revert i; induction l as [|h t IH]; intros [|i] H; cbn in H; try discriminate.
    - inversion H; subst. exists [], t. split; auto.
    - destruct (IH i H) as (l1 & l2 & E & F). exists (h :: l1), l2. split.
      + rewrite E at 1. reflexivity.
      + intros y. cbn. rewrite F. reflexivity.
  Qed.

  Lemma nth_error_upd_inv {X} (l : list X) i j (y z : X) :
    nth_error (upd l i y) j = Some z -> (i = j /\ y = z) \/ (i <> j /\ nth_error l j = Some z).
  Proof.
    intros H. destruct (Nat.eq_dec i j) as [->|Hn].
    - left. destruct (Nat.lt_ge_cases j (length l)) as [L|L].
      + rewrite nth_error_upd_same in H by exact L. inversion H; auto.
      + assert (nth_error (upd l j y) j = None) by (apply nth_error_None; rewrite upd_length; lia). congruence.
    - right. rewrite nth_error_upd_other in H by exact Hn. auto.
  Qed.

  (** The multiset view of "worker w changes from x to y". *)
  Lemma flat_map_upd {X Y} (l : list X) i x y (f : X -> list Y) : nth_error l i = Some x ->
    exists o, Permutation (flat_map f l) (f x ++ o) /\ Permutation (flat_map f (upd l i y)) (f y ++ o).
  Proof.
    intros H. destruct (upd_split _ _ _ H) as (l1 & l2 & E & F). rewrite F.
    exists (flat_map f l1 ++ flat_map f l2). rewrite E, !flat_map_app. cbn [flat_map].
    split; rewrite app_assoc; rewrite app_assoc; apply Permutation_app_tail; apply Permutation_app_comm.
  Qed.

  Lemma flat_map_upd_same {X Y} (l : list X) i x y (f : X -> list Y) : nth_error l i = Some x ->
    f x = f y -> flat_map f (upd l i y) = flat_map f l.
  Proof.
    intros H E. destruct (upd_split _ _ _ H) as (l1 & l2 & E1 & F). rewrite F, E1, !flat_map_app.
    cbn [flat_map]. rewrite E. reflexivity.
  Qed.

  (** Two projections of the same update share the same "others". *)
  Lemma flat_map_upd2 {X Y Z'} (l : list X) i x y (f : X -> list Y) (g : X -> list Z') : nth_error l i = Some x ->
    exists o, Permutation (flat_map f l) (f x ++ flat_map f o) /\
              Permutation (flat_map f (upd l i y)) (f y ++ flat_map f o) /\
              Permutation (flat_map g l) (g x ++ flat_map g o) /\
              Permutation (flat_map g (upd l i y)) (g y ++ flat_map g o).
  Proof.
    intros H. destruct (upd_split _ _ _ H) as (l1 & l2 & E & F). rewrite F.
    exists (l1 ++ l2). rewrite E, !flat_map_app. cbn [flat_map].
    repeat split; rewrite app_assoc; rewrite app_assoc; apply Permutation_app_tail; apply Permutation_app_comm.
  Qed.

  Lemma adm_held p l c : In c (flat_map (adm p) l) -> exists a, In (c, a) (flat_map (held p) l).
  Proof.
    intros H. apply in_flat_map in H. destruct H as ([q x] & H1 & H2).
    unfold adm in H2; cbn in H2. destruct (q =? p) eqn:E; [|contradiction].
    destruct x; cbn in H2; try contradiction; destruct H2 as [<-|[]];
      eexists; apply in_flat_map; eexists; split; [exact H1|unfold held; cbn; rewrite E; left; reflexivity
        |exact H1|unfold held; cbn; rewrite E; left; reflexivity].
  Qed.

  Lemma inf_adm p l c : In c (flat_map (inf p) l) -> In c (flat_map (adm p) l).
  Proof.
    intros H. apply in_flat_map in H. destruct H as (x & H1 & H2). apply in_flat_map. exists x. split; [exact H1|].
    unfold inf, adm in *. destruct (fst x =? p); [|contradiction]. destruct (snd x); try contradiction. exact H2.
  Qed.

  Lemma inf_ins p l : length (flat_map (inf p) l) <= length (flat_map ins l).
  Proof.
    induction l as [|[q x] l IH]; cbn [flat_map]; [cbn; lia|]. rewrite !app_length.
    assert (length (inf p (q, x)) <= length (ins (q, x))).
    { unfold inf, ins; cbn. destruct (q =? p); destruct x; cbn; lia. }
    lia.
  Qed.

  Lemma calls_of_app p (l m : list (nat * (Z * A))) : calls_of p (l ++ m) = calls_of p l ++ calls_of p m.
  Proof. unfold calls_of. rewrite filter_app, map_app. reflexivity. Qed.

  Lemma firstn_S_nth {X} (l : list X) k x : nth_error l k = Some x -> firstn (S k) l = firstn k l ++ [x].
  Proof.
    revert k; induction l as [|h t IH]; intros [|k] H; cbn in H; try discriminate.
    - inversion H; reflexivity.
    - change (h :: firstn (S k) t = h :: (firstn k t ++ [x])). rewrite (IH k H). reflexivity.
  Qed.

  Lemma skipn_S_tail {X} k : forall (l : list X) b m, skipn k l = b :: m -> skipn (S k) l = m.
  Proof.
    induction k as [|k IH]; intros [|h t] b m H; cbn in H; try discriminate.
    - inversion H; reflexivity.
    - change (skipn (S k) t = m). eapply IH. exact H.
  Qed.

  Lemma In_live_perm (s : sys) p l x : Permutation (live s p) l -> In x l -> In x (live s p).
  Proof. intros P H. eapply Permutation_in; [symmetry; exact P|exact H]. Qed.

  Lemma set_pool_same f p (x : pool A) : set_pool f p x p = x.
  Proof. unfold set_pool. rewrite Nat.eqb_refl. reflexivity. Qed.
  Lemma set_pool_other f p q (x : pool A) : q <> p -> set_pool f p x q = f q.
  Proof. intros H. unfold set_pool. apply Nat.eqb_neq in H. rewrite H. reflexivity. Qed.

  (** ** A worker moving between two states with the same ghost content *)
  Lemma inv_silent n (s : sys) w p x y (t : token) :
    Inv n s -> nth_error (workers s) w = Some (p, x) ->
    (forall q, held q (p, x) = held q (p, y)) ->
    (forall q, inf q (p, x) = inf q (p, y)) ->
    tk_cnt t = tk_cnt (tok s) ->
    (forall q c, q < n -> In c (flat_map (adm q) (set_worker s w p y)) -> c = served s q) ->
    (if tk_locked t then flat_map ins (set_worker s w p y) = [tk_holder t] /\ tk_holder t < n
     else flat_map ins (set_worker s w p y) = [] /\ tk_holder t = max_pools) ->
    (stop s = false -> y <> Draining /\ y <> Gone) ->
    (quiet y = false -> quiet x = false) ->
    Inv n {| tok := t; pools := pools s; workers := set_worker s w p y; stop := stop s; calls := calls s |}.
  Proof.
    intros [] Hw Hh Hi Ht Ha Hins Hst Hq.
    assert (forall q, flat_map (held q) (set_worker s w p y) = flat_map (held q) (workers s)) as Eh.
    { intros q. unfold set_worker. eapply flat_map_upd_same; eauto. }
    assert (forall q, flat_map (inf q) (set_worker s w p y) = flat_map (inf q) (workers s)) as Ei.
    { intros q. unfold set_worker. eapply flat_map_upd_same; eauto. }
    constructor; unfold served, live in *; cbn [tok pools workers stop calls] in *; rewrite ?Ht; auto.
    - intros v q z E. unfold set_worker in E. apply nth_error_upd_inv in E.
      destruct E as [(-> & E)|(_ & E)]; [inversion E; subst|]; eauto.
    - intros q Hq'. rewrite Eh. auto.
    - intros q Hq' c a. rewrite Eh. apply i_range0; auto.
    - intros q Hq'. rewrite Ei. auto.
    - intros E q Hq'. rewrite Eh. auto.
    - intros q Hq'. destruct (i_top0 q Hq') as (k & K1 & K2 & K3). exists k. rewrite Eh. auto.
    - intros E v q z F. unfold set_worker in F. apply nth_error_upd_inv in F.
      destruct F as [(-> & F)|(_ & F)]; [inversion F; subst|]; eauto.
    - intros v q z F G. unfold set_worker in F. apply nth_error_upd_inv in F.
      destruct F as [(-> & F)|(_ & F)]; [inversion F; subst|]; eauto.
  Qed.

  Lemma adm_sub_upd s w p x y q c :
    nth_error (workers s) w = Some (p, x) -> In c (flat_map (adm q) (set_worker s w p y)) ->
    In c (adm q (p, y)) \/ In c (flat_map (adm q) (workers s)).
  Proof.
    intros Hw H. destruct (flat_map_upd _ _ _ (p, y) (adm q) Hw) as (o & P1 & P2).
    apply (Permutation_in _ P2) in H. apply in_app_or in H. destruct H as [H|H]; [left; exact H|right].
    apply (Permutation_in _ (Permutation_sym P1)). apply in_or_app. right; exact H.
  Qed.

  Lemma ins_upd s w p x y :
    nth_error (workers s) w = Some (p, x) -> ins (p, x) = ins (p, y) ->
    flat_map ins (set_worker s w p y) = flat_map ins (workers s).
  Proof. intros H E. unfold set_worker. eapply flat_map_upd_same; eauto. Qed.

  Lemma ins_enter s w p x y :
    nth_error (workers s) w = Some (p, x) -> flat_map ins (workers s) = [] -> ins (p, y) = [p] ->
    flat_map ins (set_worker s w p y) = [p].
  Proof.
    intros H E F. destruct (flat_map_upd _ _ _ (p, y) ins H) as (o & P1 & P2).
    rewrite E in P1. apply Permutation_nil in P1. apply app_eq_nil in P1. destruct P1 as [_ ->].
    rewrite app_nil_r, F in P2. apply Permutation_sym, Permutation_length_1_inv in P2. exact P2.
  Qed.

  Lemma ins_leave s w p x y h :
    nth_error (workers s) w = Some (p, x) -> flat_map ins (workers s) = [h] -> ins (p, x) = [p] -> ins (p, y) = [] ->
    h = p /\ flat_map ins (set_worker s w p y) = [].
  Proof.
    intros H E F G. destruct (flat_map_upd _ _ _ (p, y) ins H) as (o & P1 & P2).
    rewrite E, F in P1. cbn [app] in P1. apply Permutation_length_1_inv in P1. inversion P1; subst.
    rewrite G in P2. cbn [app] in P2. apply Permutation_sym, Permutation_nil in P2. auto.
  Qed.

  Lemma ins_in s w p x : nth_error (workers s) w = Some (p, x) -> ins (p, x) = [p] ->
    In p (flat_map ins (workers s)).
  Proof.
    intros H E. apply nth_error_In in H. apply in_flat_map. exists (p, x). rewrite E. split; [exact H|left; reflexivity].
  Qed.

  Lemma NoDup_perm {X} (l m : list X) : Permutation l m -> NoDup l -> NoDup m.
  Proof. intros P H. eapply Permutation_NoDup; eauto. Qed.

  (** ** One step *)
  Lemma step_inv n s o : Inv n s ->
    match pstep s o with
    | Ok None => True
    | Ok (Some s') => (forall p, o = AStart p -> p < n) -> (forall p a, o = APush p a -> p < n) -> Inv n s'
    | Abort => exists p, o = AStart p /\ started (pools s p) = false /\ tk_locked (tok s) = true
    | Throw | Oob => False
    end.
  Proof.
    intros HI. pose proof HI as [].
    destruct o as [p|p a| |w|w|w|w pdc|w|w|w]; cbn [pstep].
    - (* AStart *)
      destruct (started (pools s p)) eqn:Es; [exact I|].
      destruct (tk_locked (tok s)) eqn:El; [eauto|].
      destruct i_ins0 as [Ei Eh]. unfold token_lock. rewrite Eh. cbn [guard Nat.leb max_pools bind].
      intros _ _.
      constructor; unfold served, live in *; cbn [tok pools workers stop calls tk_cnt tk_locked tk_holder token_unlock] in *; auto.
      all: match goal with |- context [set_pool ?f ?p0 ?x0] =>
             assert (Epp : forall q, pending (set_pool f p0 x0 q) = pending (f q)) by
               (intros q; destruct (Nat.eq_dec q p0) as [->|Hn];
                [rewrite set_pool_same|rewrite set_pool_other by exact Hn]; reflexivity);
             assert (Epa : forall q, accepted (set_pool f p0 x0 q) = accepted (f q)) by
               (intros q; destruct (Nat.eq_dec q p0) as [->|Hn];
                [rewrite set_pool_same|rewrite set_pool_other by exact Hn]; reflexivity);
             assert (Eps : forall q, started (f q) = true -> started (set_pool f p0 x0 q) = true) by
               (intros q; destruct (Nat.eq_dec q p0) as [->|Hn];
                [rewrite set_pool_same|rewrite set_pool_other by exact Hn]; auto)
           end.
      + intros q. rewrite Epa. apply i_served1.
      + intros q. rewrite Epp. apply i_nodup0.
      + intros q. rewrite Epp, Epa. apply i_range0.
      + intros q. rewrite Epa. apply i_calls0.
      + intros E q. rewrite Epp, Epa. apply i_full0; exact E.
      + intros q. rewrite Epp, Epa. apply i_top0.
      + intros w q x E F. apply Eps. eauto.
      + intros q. rewrite Epp. intros E. apply i_unstarted0. destruct (started (pools s q)) eqn:F; [|reflexivity].
        apply Eps in F. congruence.
    - (* APush *)
      destruct (started (pools s p)) eqn:Es; [|exact I].
      intros _ Hp. specialize (Hp p a eq_refl).
      set (L := length (accepted (pools s p))).
      assert (numbered 0 (accepted (pools s p) ++ [a]) = numbered 0 (accepted (pools s p)) ++ [(Z.of_nat L, a)]) as EN.
      { rewrite numbered_app. cbn [numbered]. reflexivity. }
      constructor; unfold served, live in *; cbn [tok pools workers stop calls] in *; auto.
      + intros q Hq. specialize (i_served1 q Hq). destruct (Nat.eq_dec q p) as [->|Hn];
           [rewrite set_pool_same|rewrite set_pool_other by exact Hn; auto]; cbn [pending accepted started].
        rewrite app_length; cbn [length]; lia.
      + intros q Hq. destruct (Nat.eq_dec q p) as [->|Hn];
           [rewrite set_pool_same|rewrite set_pool_other by exact Hn; auto]; cbn [pending accepted started].
        rewrite app_assoc, map_app. cbn [map fst].
        apply (NoDup_perm (Z.of_nat L :: map fst (flat_map (held p) (workers s) ++ pending (pools s p)))).
        { apply Permutation_cons_append. }
        constructor; [|apply i_nodup0; exact Hq].
        intro H. apply in_map_iff in H. destruct H as ([c b] & E & H). cbn in E; subst.
        apply i_range0 in H; [|exact Hq]. destruct H as [_ H]. apply numbered_in_range in H. unfold L in *. lia.
      + intros q Hq c b. destruct (Nat.eq_dec q p) as [->|Hn];
           [rewrite set_pool_same|rewrite set_pool_other by exact Hn; apply i_range0; auto]; cbn [pending accepted started].
        rewrite app_assoc. intros H. apply in_app_or in H. destruct H as [H|[H|[]]].
        * apply i_range0 in H; [|exact Hq]. destruct H as [H1 H2]. split; [exact H1|].
          rewrite EN. apply in_or_app; left; exact H2.
        * inversion H; subst; clear H. split.
          -- specialize (i_served1 p Hq). unfold L. lia.
          -- rewrite EN. apply in_or_app; right; left; reflexivity.
      + intros q Hq. destruct (Nat.eq_dec q p) as [->|Hn];
           [rewrite set_pool_same|rewrite set_pool_other by exact Hn; auto]; cbn [pending accepted started].
        rewrite (i_calls0 p Hq), EN. rewrite firstn_app.
        match goal with |- _ = _ ++ firstn ?k _ => replace k with 0; [cbn [firstn]; rewrite app_nil_r; reflexivity|] end.
        rewrite numbered_length.
        assert (length (flat_map (inf p) (workers s)) = 0 \/ exists c b, In (c, b) (flat_map (held p) (workers s)) /\ In c (flat_map (adm p) (workers s))) as [E|(c & b & H & H')].
        { destruct (flat_map (inf p) (workers s)) as [|c l] eqn:E; [left; reflexivity|right].
          assert (In c (flat_map (inf p) (workers s))) as H by (rewrite E; left; reflexivity).
          apply inf_adm in H. destruct (adm_held _ _ _ H) as (b & H2). eauto. }
        * rewrite E. specialize (i_served1 p Hq). lia.
        * pose proof (inf_ins p (workers s)).
          assert (length (flat_map ins (workers s)) <= 1).
          { destruct (tk_locked (tok s)); destruct i_ins0 as [-> _]; cbn; lia. }
          assert (In (c, b) (flat_map (held p) (workers s) ++ pending (pools s p))) as H3 by (apply in_or_app; left; exact H).
          apply i_range0 in H3; [|exact Hq]. destruct H3 as [H3 H4].
          apply i_adm0 in H'; [|exact Hq]. apply numbered_in_range in H4. specialize (i_served1 p Hq). lia.
      + intros E q Hq. specialize (i_full0 E q Hq). destruct (Nat.eq_dec q p) as [->|Hn];
           [rewrite set_pool_same|rewrite set_pool_other by exact Hn; auto]; cbn [pending accepted started].
        rewrite app_assoc, !app_length in *. cbn [length]. lia.
      + intros q Hq. specialize (i_top0 q Hq). destruct (Nat.eq_dec q p) as [->|Hn];
           [rewrite set_pool_same|rewrite set_pool_other by exact Hn; auto]; cbn [pending accepted started].
        destruct i_top0 as (k & K1 & K2 & K3). exists k. rewrite app_length, EN. cbn [length].
        split; [lia|]. split; [|exact K3].
        rewrite skipn_app, K2. rewrite numbered_length.
        replace (k - length (accepted (pools s p))) with 0 by lia. reflexivity.
      + intros w q x E F. destruct (Nat.eq_dec q p) as [->|Hn];
           [rewrite set_pool_same|rewrite set_pool_other by exact Hn]; cbn [started]; eauto.
      + intros q. destruct (Nat.eq_dec q p) as [->|Hn];
           [rewrite set_pool_same|rewrite set_pool_other by exact Hn]; cbn [started]; [discriminate|auto].
    - (* AStop *)
      intros _ _. constructor; unfold served, live in *; cbn [tok pools workers stop calls] in *; auto; discriminate.
    - (* ATake *)
      destruct (nth_error (workers s) w) as [[p x]|] eqn:Ew; [|exact I].
      destruct (pending (pools s p)) as [|[c a] l] eqn:Ep; [destruct x; exact I|].
      assert (Hp : p < n) by eauto.
      assert (started (pools s p) = true) as Hst.
      { destruct (started (pools s p)) eqn:E; [reflexivity|]. apply i_unstarted0 in E. congruence. }
      set (y := match x with Idle => Wants c a | _ => Draining end).
      assert (HH : x = Idle \/ x = Draining -> Inv n {| tok := tok s;
         pools := set_pool (pools s) p {| started := started (pools s p); pending := l; accepted := accepted (pools s p) |};
         workers := set_worker s w p y; stop := stop s; calls := calls s |}).
      { intros Hx.
        assert (held p (p, x) = []) as Hx0 by (unfold held; cbn; rewrite Nat.eqb_refl; destruct Hx; subst; reflexivity).
        assert (forall q, adm q (p, x) = adm q (p, y)) as Ha.
        { intros q. unfold adm, y; cbn. destruct Hx; subst; reflexivity. }
        assert (forall q, inf q (p, x) = inf q (p, y)) as Hi.
        { intros q. unfold inf, y; cbn. destruct Hx; subst; reflexivity. }
        assert (ins (p, x) = ins (p, y)) as Hs by (unfold ins, y; cbn; destruct Hx; subst; reflexivity).
        assert (forall q, q <> p -> held q (p, x) = held q (p, y)) as Ho.
        { intros q Hq. unfold held; cbn. apply not_eq_sym, Nat.eqb_neq in Hq. rewrite Hq. reflexivity. }
        assert (exists o, Permutation (flat_map (held p) (workers s)) (flat_map (held p) o) /\
                Permutation (flat_map (held p) (set_worker s w p y)) (held p (p, y) ++ flat_map (held p) o)) as (o & P1 & P2).
        { destruct (flat_map_upd2 _ _ _ (p, y) (held p) (held p) Ew) as (o & Q1 & Q2 & _). exists o.
          rewrite Hx0 in Q1. auto. }
        assert (Hy : held p (p, y) = [(c, a)] \/ (held p (p, y) = [] /\ x = Draining)).
        { unfold held, y; cbn. rewrite Nat.eqb_refl. destruct Hx; subst; [left|right]; auto. }
        assert (Eq : forall q, q <> p -> flat_map (held q) (set_worker s w p y) = flat_map (held q) (workers s)).
        { intros q Hq. unfold set_worker. eapply flat_map_upd_same; eauto. }
        assert (Sub : forall z, In z (flat_map (held p) (set_worker s w p y) ++ l) -> In z (live s p)).
        { intros z H. unfold live. rewrite Ep. apply in_or_app. apply in_app_or in H. destruct H as [H|H].
          - apply (Permutation_in _ P2) in H. apply in_app_or in H. destruct H as [H|H].
            + right. destruct Hy as [Hy|[Hy _]]; rewrite Hy in H; [destruct H as [<-|[]]; left; reflexivity|contradiction].
            + left. apply (Permutation_in _ (Permutation_sym P1)). exact H.
          - right; right; exact H. }
        constructor; unfold served in *; cbn [tok pools workers stop calls] in *; auto.
        - intros v q z E. unfold set_worker in E. apply nth_error_upd_inv in E.
          destruct E as [(-> & E)|(_ & E)]; [inversion E; subst|]; eauto.
        - intros q Hq. destruct (Nat.eq_dec q p) as [->|Hn];
           [rewrite set_pool_same|rewrite set_pool_other by exact Hn; auto]; cbn [accepted]; auto.
        - intros q Hq. unfold live; cbn [pools workers]. destruct (Nat.eq_dec q p) as [->|Hn];
            [rewrite set_pool_same; cbn [pending]|rewrite set_pool_other, Eq by exact Hn; apply i_nodup0; exact Hq].
          specialize (i_nodup0 p Hp). unfold live in i_nodup0. rewrite Ep in i_nodup0.
          rewrite map_app in i_nodup0. cbn [map fst] in i_nodup0.
          apply (NoDup_perm _ (c :: map fst (flat_map (held p) (workers s)) ++ map fst l)) in i_nodup0;
            [|apply Permutation_sym, Permutation_middle].
          rewrite map_app.
          eapply NoDup_perm.
          { apply Permutation_app_tail. apply Permutation_map. apply Permutation_sym. exact P2. }
          destruct Hy as [Hy|[Hy _]]; rewrite Hy; cbn [app map fst].
          + eapply NoDup_perm; [|exact i_nodup0]. constructor. apply Permutation_app_tail, Permutation_map. exact P1.
          + inversion i_nodup0; subst. eapply NoDup_perm; [|eassumption]. apply Permutation_app_tail, Permutation_map. exact P1.
        - intros q Hq c' b. unfold live; cbn [pools workers]. destruct (Nat.eq_dec q p) as [->|Hn];
            [rewrite set_pool_same; cbn [pending accepted]|rewrite set_pool_other, Eq by exact Hn; apply i_range0; exact Hq].
          intros H. apply Sub in H. apply i_range0 in H; auto.
        - intros q Hq c' H. apply (adm_sub_upd _ _ _ _ _ _ _ Ew) in H. destruct H as [H|H].
          + rewrite <- Ha in H. apply i_adm0; [exact Hq|]. apply in_flat_map. exists (p, x). split; [|exact H].
            eapply nth_error_In; eauto.
          + apply i_adm0; auto.
        - rewrite (ins_upd _ _ _ _ _ Ew Hs). exact i_ins0.
        - intros q Hq. replace (flat_map (inf q) (set_worker s w p y)) with (flat_map (inf q) (workers s))
            by (symmetry; unfold set_worker; eapply flat_map_upd_same; eauto).
          destruct (Nat.eq_dec q p) as [->|Hn];
           [rewrite set_pool_same|rewrite set_pool_other by exact Hn]; cbn [accepted]; auto.
        - intros E q Hq. unfold live; cbn [pools workers]. specialize (i_full0 E q Hq).
          destruct (Nat.eq_dec q p) as [->|Hn];
            [rewrite set_pool_same; cbn [pending accepted]|rewrite set_pool_other, Eq by exact Hn; exact i_full0].
          rewrite <- i_full0. unfold live. rewrite Ep. rewrite !app_length.
          rewrite (Permutation_length P2), (Permutation_length P1), app_length. cbn [length].
          destruct Hy as [Hy|[_ Hy]]; [rewrite Hy; cbn [length]; lia|].
          destruct (i_running0 E _ _ _ Ew). contradiction.
        - intros q Hq. destruct (Nat.eq_dec q p) as [->|Hn];
            [rewrite set_pool_same; cbn [pending accepted]|rewrite set_pool_other, Eq by exact Hn; apply i_top0; exact Hq].
          destruct (i_top0 p Hq) as (k & K1 & K2 & K3). rewrite Ep in K2.
          rewrite skipn_numbered in K2.
          destruct (skipn k (accepted (pools s p))) as [|b m] eqn:Ek; [discriminate|]. cbn [numbered] in K2.
          inversion K2; subst c b l.
          assert (k < length (accepted (pools s p))).
          { assert (length (skipn k (accepted (pools s p))) = S (length m)) by (rewrite Ek; reflexivity).
            rewrite skipn_length in *. lia. }
          exists (S k). split; [lia|]. split.
          + rewrite skipn_numbered. f_equal; [lia|].
            symmetry. eapply skipn_S_tail. exact Ek.
          + intros c' b H'. apply (Permutation_in _ P2) in H'. apply in_app_or in H'. destruct H' as [H'|H'].
            * destruct Hy as [Hy|[Hy _]]; rewrite Hy in H'; [destruct H' as [H'|[]]; inversion H'; subst; lia|contradiction].
            * apply (Permutation_in _ (Permutation_sym P1)) in H'. apply K3 in H'. lia.
        - intros E v q z F. unfold set_worker in F. apply nth_error_upd_inv in F.
          destruct F as [(-> & F)|(_ & F)]; [inversion F; subst|eauto].
          destruct (i_running0 E _ _ _ Ew). unfold y. destruct Hx; subst; [split; discriminate|contradiction].
        - intros v q z F G. destruct (Nat.eq_dec q p) as [->|Hn];
            [rewrite set_pool_same; cbn [started]; exact Hst|rewrite set_pool_other by exact Hn].
          unfold set_worker in F. apply nth_error_upd_inv in F.
          destruct F as [(-> & F)|(_ & F)]; [inversion F; subst; contradiction|eauto].
        - intros q. destruct (Nat.eq_dec q p) as [->|Hn];
            [rewrite set_pool_same; cbn [started]; congruence|rewrite set_pool_other by exact Hn; auto]. }
      destruct x; try exact I; intros _ _; apply HH; auto.
    - (* ACheck *)
      destruct (nth_error (workers s) w) as [[p x]|] eqn:Ew; [|exact I]. destruct x; try exact I.
      destruct (tk_locked (tok s)) eqn:El; [exact I|].
      assert (Hp : p < n) by eauto.
      unfold fifo_check. rewrite (rd_ok _ _ 0%Z) by (rewrite i_len0; lia). cbn [bind].
      assert (In (c, a) (live s p)) as HL.
      { unfold live. apply in_or_app; left. apply in_flat_map. exists (p, Wants c a). split; [eapply nth_error_In; eauto|].
        unfold held; cbn. rewrite Nat.eqb_refl. left; reflexivity. }
      apply i_range0 in HL; [|exact Hp]. destruct HL as [HL _]. fold (served s p).
      replace (served s p <=? c)%Z with true by (symmetry; apply Z.leb_le; lia). cbn [guard bind].
      destruct (Z.eqb_spec (served s p) c) as [Ec|Ec]; [|exact I].
      intros _ _. apply inv_silent with (x := Wants c a); auto.
      + intros q Hq H. intros H'. apply (adm_sub_upd _ _ _ _ _ _ _ Ew) in H'. destruct H' as [H'|H']; [|apply i_adm0; auto].
        unfold adm in H'; cbn in H'. destruct (p =? q) eqn:E; [|contradiction]. apply Nat.eqb_eq in E; subst q.
        destruct H' as [<-|[]]. congruence.
      + rewrite El. rewrite (ins_upd _ _ _ _ _ Ew) by reflexivity. exact i_ins0.
      + split; discriminate.
    - (* ALock *)
      destruct (nth_error (workers s) w) as [[p x]|] eqn:Ew; [|exact I]. destruct x; try exact I.
      destruct (tk_locked (tok s)) eqn:El; [exact I|].
      assert (Hp : p < n) by eauto.
      destruct i_ins0 as [Ei Eh]. unfold token_lock. rewrite Eh. cbn [guard Nat.leb max_pools bind].
      intros _ _.
      set (y := InFifo c a).
      assert (Eh' : forall q, flat_map (held q) (set_worker s w p y) = flat_map (held q) (workers s)).
      { intros q. unfold set_worker. eapply flat_map_upd_same; eauto. }
      assert (Ea' : forall q, flat_map (adm q) (set_worker s w p y) = flat_map (adm q) (workers s)).
      { intros q. unfold set_worker. eapply flat_map_upd_same; eauto. }
      assert (E0 : forall q, flat_map (inf q) (workers s) = []).
      { intros q. pose proof (inf_ins q (workers s)) as H. rewrite Ei in H. cbn in H.
        destruct (flat_map (inf q) (workers s)); [reflexivity|cbn in H; lia]. }
      assert (Hc : c = served s p).
      { apply i_adm0; [exact Hp|]. apply in_flat_map. exists (p, Admitted c a). split; [eapply nth_error_In; eauto|].
        unfold adm; cbn. rewrite Nat.eqb_refl. left; reflexivity. }
      assert (HL : In (c, a) (numbered 0 (accepted (pools s p)))).
      { apply (i_range0 p Hp c a). unfold live. apply in_or_app; left. apply in_flat_map. exists (p, Admitted c a).
        split; [eapply nth_error_In; eauto|]. unfold held; cbn. rewrite Nat.eqb_refl. left; reflexivity. }
      constructor; unfold served, live in *; cbn [tok pools workers stop calls tk_cnt tk_locked tk_holder] in *; auto.
      + intros v q z E. unfold set_worker in E. apply nth_error_upd_inv in E.
        destruct E as [(-> & E)|(_ & E)]; [inversion E; subst|]; eauto.
      + intros q Hq. rewrite Eh'. auto.
      + intros q Hq c' b. rewrite Eh'. apply i_range0; auto.
      + intros q Hq c'. rewrite Ea'. apply i_adm0; auto.
      + split; [|exact Hp]. eapply ins_enter; eauto.
      + intros q Hq. rewrite calls_of_app, (i_calls0 q Hq), E0. cbn [length].
        destruct (Nat.eq_dec q p) as [->|Hn].
        * unfold calls_of; cbn [filter fst]. rewrite Nat.eqb_refl. cbn [map snd].
          assert (EI : flat_map (inf p) (set_worker s w p y) = [c]).
          { destruct (flat_map_upd _ _ _ (p, y) (inf p) Ew) as (o & P1 & P2). rewrite E0 in P1.
            apply Permutation_nil, app_eq_nil in P1. destruct P1 as [_ ->]. rewrite app_nil_r in P2.
            unfold inf at 2 in P2; cbn in P2. rewrite Nat.eqb_refl in P2.
            apply Permutation_sym, Permutation_length_1_inv in P2. exact P2. }
          rewrite EI. cbn [length].
          rewrite Nat.add_0_r, Nat.add_1_r. symmetry. apply firstn_S_nth.
          apply numbered_in_nth in HL. destruct HL as (i & HL & Hi). rewrite <- Hc, Hi.
          replace (Z.to_nat (0 + Z.of_nat i)) with i by lia. rewrite <- Hi. exact HL.
        * replace (calls_of q [(p, (c, a))]) with (@nil (Z * A)).
          2:{ unfold calls_of; cbn [filter fst]. apply not_eq_sym, Nat.eqb_neq in Hn. rewrite Hn. reflexivity. }
          rewrite app_nil_r. replace (flat_map (inf q) (set_worker s w p y)) with (@nil Z); [reflexivity|].
          symmetry. rewrite <- (E0 q). unfold set_worker. eapply flat_map_upd_same; [exact Ew|].
          unfold inf; cbn. apply not_eq_sym, Nat.eqb_neq in Hn. rewrite Hn. reflexivity.
      + intros E q Hq. rewrite Eh'. auto.
      + intros q Hq. rewrite Eh'. auto.
      + intros E v q z F. unfold set_worker in F. apply nth_error_upd_inv in F.
        destruct F as [(-> & F)|(_ & F)]; [inversion F; subst; split; discriminate|eauto].
      + intros v q z F G. unfold set_worker in F. apply nth_error_upd_inv in F.
        destruct F as [(-> & F)|(_ & F)]; [inversion F; subst|]; eauto.
    - (* AUnlock *)
      destruct (nth_error (workers s) w) as [[p x]|] eqn:Ew; [|exact I]. destruct x; try exact I.
      assert (Hp : p < n) by eauto.
      assert (In p (flat_map ins (workers s))) as Hin by (eapply ins_in; eauto).
      destruct (tk_locked (tok s)) eqn:El; [|destruct i_ins0 as [E _]; rewrite E in Hin; contradiction].
      destruct i_ins0 as [Ei Hh].
      set (y := if pdc then WantsPdc else Idle : pc A).
      assert (tk_holder (tok s) = p /\ flat_map ins (set_worker s w p y) = []) as [Eh Ei'].
      { eapply ins_leave; eauto. unfold y; destruct pdc; reflexivity. }
      unfold token_unlock_fifo. rewrite Eh.
      replace (p <? max_pools) with true by (symmetry; apply Nat.ltb_lt; lia). cbn [guard].
      rewrite (rd_ok _ _ 0%Z) by (rewrite i_len0; lia). cbn [bind]. fold (served s p).
      intros _ _.
      assert (Hc : c = served s p).
      { apply i_adm0; [exact Hp|]. apply in_flat_map. exists (p, InFifo c a). split; [eapply nth_error_In; eauto|].
        unfold adm; cbn. rewrite Nat.eqb_refl. left; reflexivity. }
      assert (Hpl : p < length (tk_cnt (tok s))) by (rewrite i_len0; lia).
      assert (Hy0 : forall q, held q (p, y) = [] /\ adm q (p, y) = [] /\ inf q (p, y) = []).
      { intros q. unfold held, adm, inf, y; cbn. destruct pdc, (p =? q); auto. }
      assert (exists o, Permutation (flat_map (held p) (workers s)) ((c, a) :: flat_map (held p) o) /\
              Permutation (flat_map (held p) (set_worker s w p y)) (flat_map (held p) o) /\
              Permutation (flat_map (adm p) (set_worker s w p y)) (flat_map (adm p) o)) as (o & P1 & P2 & P3).
      { destruct (flat_map_upd2 _ _ _ (p, y) (held p) (adm p) Ew) as (o & Q1 & Q2 & Q3 & Q4). exists o.
        destruct (Hy0 p) as (E1 & E2 & E3). rewrite E1 in Q2. rewrite E2 in Q4.
        unfold held at 2 in Q1; cbn in Q1. rewrite Nat.eqb_refl in Q1. cbn [app] in *. auto. }
      assert (Eq : forall q, q <> p -> flat_map (held q) (set_worker s w p y) = flat_map (held q) (workers s) /\
                   flat_map (adm q) (set_worker s w p y) = flat_map (adm q) (workers s) /\
                   flat_map (inf q) (set_worker s w p y) = flat_map (inf q) (workers s)).
      { intros q Hq. unfold set_worker. assert (p =? q = false) as E by (apply Nat.eqb_neq; auto).
        repeat split; eapply flat_map_upd_same; eauto; unfold held, adm, inf; cbn; rewrite E; reflexivity. }
      assert (PL : Permutation (live s p) ((c, a) :: flat_map (held p) o ++ pending (pools s p))).
      { unfold live. rewrite P1. reflexivity. }
      assert (ND : NoDup (map fst ((c, a) :: flat_map (held p) o ++ pending (pools s p)))).
      { eapply NoDup_perm; [|apply i_nodup0; exact Hp]. apply Permutation_map. exact PL. }
      cbn [map fst] in ND. apply NoDup_cons_iff in ND. destruct ND as [ND1 ND2]. subst c.
      assert (HL : In (served s p, a) (numbered 0 (accepted (pools s p)))).
      { apply (i_range0 p Hp). eapply In_live_perm; [exact PL|]. left; reflexivity. }
      assert (NewServed : forall q, nth q (upd (tk_cnt (tok s)) p (served s p + 1)%Z) 0%Z =
               if q =? p then (served s p + 1)%Z else served s q).
      { intros q. destruct (Nat.eqb_spec q p) as [->|Hn].
        - apply nth_upd_same. exact Hpl.
        - apply nth_upd_other. auto. }
      constructor; unfold live; cbn [tok pools workers stop calls tk_cnt tk_locked tk_holder token_unlock]; auto.
      + rewrite upd_length. exact i_len0.
      + intros v q z E. unfold set_worker in E. apply nth_error_upd_inv in E.
        destruct E as [(-> & E)|(_ & E)]; [inversion E; subst|]; eauto.
      + intros q Hq. unfold served; cbn [tok token_unlock tk_cnt]. fold (served s p). rewrite NewServed.
        specialize (i_served1 q Hq). destruct (Nat.eqb_spec q p) as [->|Hn]; [|exact i_served1].
        apply numbered_in_range in HL. lia.
      + intros q Hq. destruct (Nat.eq_dec q p) as [->|Hn].
        * eapply NoDup_perm; [|exact ND2]. apply Permutation_map. rewrite P2. reflexivity.
        * destruct (Eq q Hn) as (-> & _). apply i_nodup0; exact Hq.
      + intros q Hq c' b H. unfold served; cbn [tok token_unlock tk_cnt]. fold (served s p). rewrite NewServed.
        destruct (Nat.eqb_spec q p) as [->|Hn].
        * assert (In (c', b) (flat_map (held p) o ++ pending (pools s p))) as H'.
          { apply in_app_or in H. apply in_or_app. destruct H as [H|H]; [left|right; exact H].
            eapply Permutation_in; [exact P2|exact H]. }
          assert (c' <> served s p).
          { intro E. apply ND1. rewrite <- E. apply in_map_iff. exists (c', b). auto. }
          assert (In (c', b) (live s p)) as H''.
          { eapply In_live_perm; [exact PL|]. right; exact H'. }
          apply i_range0 in H''; [|exact Hq]. split; [lia|tauto].
        * destruct (Eq q Hn) as (E & _). rewrite E in H. apply i_range0; auto.
      + intros q Hq c' H. unfold served; cbn [tok token_unlock tk_cnt]. fold (served s p). rewrite NewServed.
        destruct (Nat.eqb_spec q p) as [->|Hn].
        * exfalso. apply (Permutation_in _ P3) in H. destruct (adm_held _ _ _ H) as (b & H').
          assert (c' = served s p) as ->.
          { apply i_adm0; [exact Hq|]. destruct (adm_sub_upd s w p (InFifo (served s p) a) y p c' Ew) as [F|F].
            - apply (Permutation_in _ (Permutation_sym P3)). exact H.
            - destruct (Hy0 p) as (_ & E & _). rewrite E in F. contradiction.
            - exact F. }
          apply ND1. apply in_map_iff. exists (served s p, b). split; [reflexivity|]. apply in_or_app; left; exact H'.
        * destruct (Eq q Hn) as (_ & E & _). rewrite E in H. apply i_adm0; auto.
      + intros q Hq. unfold served; cbn [tok token_unlock tk_cnt]. fold (served s p). rewrite NewServed.
        rewrite (i_calls0 q Hq).
        destruct (Nat.eqb_spec q p) as [->|Hn].
        * f_equal.
          assert (E1 : flat_map (inf p) (workers s) = [served s p]).
          { destruct (flat_map_upd _ _ _ (p, y) (inf p) Ew) as (r & Q1 & Q2).
            unfold inf at 2 in Q1; cbn in Q1. rewrite Nat.eqb_refl in Q1. cbn [app] in Q1.
            pose proof (inf_ins p (workers s)) as L. rewrite Ei in L. cbn in L.
            pose proof (Permutation_length Q1) as L1. cbn in L1.
            destruct r; [|cbn in L1; lia]. apply Permutation_sym, Permutation_length_1_inv in Q1. exact Q1. }
          assert (E2 : flat_map (inf p) (set_worker s w p y) = []).
          { pose proof (inf_ins p (set_worker s w p y)) as L. rewrite Ei' in L. cbn in L.
            destruct (flat_map (inf p) (set_worker s w p y)); [reflexivity|cbn in L; lia]. }
          rewrite E1, E2. cbn [length]. specialize (i_served1 p Hq). lia.
        * destruct (Eq q Hn) as (_ & _ & ->). reflexivity.
      + intros E q Hq. unfold served; cbn [tok token_unlock tk_cnt]. fold (served s p). rewrite NewServed.
        destruct (Nat.eqb_spec q p) as [->|Hn].
        * specialize (i_full0 E p Hq). rewrite (Permutation_length PL) in i_full0. cbn [length] in i_full0.
          rewrite app_length in *. rewrite (Permutation_length P2). lia.
        * destruct (Eq q Hn) as (-> & _). apply i_full0; auto.
      + intros q Hq. destruct (i_top0 q Hq) as (k & K1 & K2 & K3). exists k. split; [exact K1|]. split; [exact K2|].
        intros c' b H. destruct (Nat.eq_dec q p) as [->|Hn].
        * apply (Permutation_in _ P2) in H. eapply K3. eapply Permutation_in; [apply Permutation_sym; exact P1|]. right; exact H.
        * destruct (Eq q Hn) as (E & _). rewrite E in H. eauto.
      + intros E v q z F. unfold set_worker in F. apply nth_error_upd_inv in F.
        destruct F as [(-> & F)|(_ & F)]; [inversion F; subst; unfold y; destruct pdc; split; discriminate|eauto].
      + intros v q z F G. unfold set_worker in F. apply nth_error_upd_inv in F.
        destruct F as [(-> & F)|(_ & F)]; [inversion F; subst; eapply i_started0; eauto|eauto].
    - (* ALockPdc *)
      destruct (nth_error (workers s) w) as [[p x]|] eqn:Ew; [|exact I]. destruct x; try exact I.
      destruct (tk_locked (tok s)) eqn:El; [exact I|].
      assert (Hp : p < n) by eauto.
      destruct i_ins0 as [Ei Eh]. unfold token_lock. rewrite Eh. cbn [guard Nat.leb max_pools bind].
      intros _ _. apply inv_silent with (x := WantsPdc); auto.
      + intros q Hq H H'. apply (adm_sub_upd _ _ _ _ _ _ _ Ew) in H'. destruct H' as [H'|H']; [|apply i_adm0; auto].
        unfold adm in H'; cbn in H'. destruct (p =? q); contradiction.
      + cbn [tk_locked tk_holder]. split; [|exact Hp]. eapply ins_enter; eauto.
      + split; discriminate.
    - (* AUnlockPdc *)
      destruct (nth_error (workers s) w) as [[p x]|] eqn:Ew; [|exact I]. destruct x; try exact I.
      assert (Hp : p < n) by eauto.
      assert (In p (flat_map ins (workers s))) as Hin by (eapply ins_in; eauto).
      destruct (tk_locked (tok s)) eqn:El; [|destruct i_ins0 as [E _]; rewrite E in Hin; contradiction].
      destruct i_ins0 as [Ei Hh].
      intros _ _. apply inv_silent with (x := InPdc); auto.
      + intros q Hq H H'. apply (adm_sub_upd _ _ _ _ _ _ _ Ew) in H'. destruct H' as [H'|H']; [|apply i_adm0; auto].
        unfold adm in H'; cbn in H'. destruct (p =? q); contradiction.
      + cbn [token_unlock tk_locked tk_holder]. split; [|reflexivity].
        destruct (ins_leave s w p InPdc Idle _ Ew Ei eq_refl eq_refl) as [_ E]. exact E.
      + split; discriminate.
    - (* AQuit *)
      destruct (stop s) eqn:Est; [|exact I].
      destruct (nth_error (workers s) w) as [[p x]|] eqn:Ew; [|exact I].
      assert (Hp : p < n) by eauto.
      assert (HQ : forall x', x = x' -> (x' = Idle \/ x' = Draining \/ exists c a, x' = Wants c a) -> forall y, (y = Draining \/ y = Gone) ->
         Inv n {| tok := tok s; pools := pools s; workers := set_worker s w p y; stop := true; calls := calls s |}).
      { intros x' <- Hx y Hy. 
        assert (forall q, held q (p, y) = [] /\ adm q (p, y) = [] /\ inf q (p, y) = [] /\ ins (p, y) = []) as Hy0.
        { intros q. unfold held, adm, inf, ins; cbn. destruct Hy; subst; destruct (p =? q); auto. }
        assert (forall q, adm q (p, x) = [] /\ inf q (p, x) = [] /\ ins (p, x) = []) as Hx0.
        { intros q. unfold adm, inf, ins; cbn. destruct Hx as [->|[->|(c & a & ->)]]; destruct (p =? q); auto. }
        assert (Ea : forall q, flat_map (adm q) (set_worker s w p y) = flat_map (adm q) (workers s)).
        { intros q. unfold set_worker. eapply flat_map_upd_same; eauto. destruct (Hx0 q) as (-> & _). symmetry. apply Hy0. }
        assert (Ef : forall q, flat_map (inf q) (set_worker s w p y) = flat_map (inf q) (workers s)).
        { intros q. unfold set_worker. eapply flat_map_upd_same; eauto. destruct (Hx0 q) as (_ & -> & _). symmetry. apply Hy0. }
        assert (En : flat_map ins (set_worker s w p y) = flat_map ins (workers s)).
        { unfold set_worker. eapply flat_map_upd_same; eauto. destruct (Hx0 0) as (_ & _ & ->). symmetry. apply (Hy0 0). }
        assert (Sub : forall q z, In z (flat_map (held q) (set_worker s w p y)) -> In z (flat_map (held q) (workers s))).
        { intros q z H. destruct (flat_map_upd _ _ _ (p, y) (held q) Ew) as (o & P1 & P2).
          apply (Permutation_in _ P2) in H. destruct (Hy0 q) as (E & _). rewrite E in H.
          eapply Permutation_in; [apply Permutation_sym; exact P1|]. apply in_or_app; right; exact H. }
        constructor; unfold served, live in *; cbn [tok pools workers stop calls] in *; auto; try discriminate.
        - intros v q z E. unfold set_worker in E. apply nth_error_upd_inv in E.
          destruct E as [(-> & E)|(_ & E)]; [inversion E; subst|]; eauto.
        - intros q Hq. specialize (i_nodup0 q Hq).
          destruct (flat_map_upd _ _ _ (p, y) (held q) Ew) as (o & P1 & P2).
          destruct (Hy0 q) as (E & _). rewrite E in P2. cbn [app] in P2.
          eapply NoDup_perm; [apply Permutation_map, Permutation_app_tail, Permutation_sym; exact P2|].
          eapply NoDup_perm in i_nodup0; [|apply Permutation_map, Permutation_app_tail; exact P1].
          rewrite <- app_assoc, map_app in i_nodup0. revert i_nodup0.
          generalize (map fst (held q (p, x))). intros l. induction l as [|h l IHl]; cbn [app]; auto.
          intros H. inversion H; auto.
        - intros q Hq c b H. apply i_range0; [exact Hq|]. apply in_app_or in H. apply in_or_app. destruct H; [left; apply Sub|right]; auto.
        - intros q Hq c. rewrite Ea. apply i_adm0; exact Hq.
        - rewrite En. exact i_ins0.
        - intros q Hq. rewrite Ef. auto.
        - intros q Hq. destruct (i_top0 q Hq) as (k & K1 & K2 & K3). exists k. split; [exact K1|]. split; [exact K2|].
          intros c b H. eapply K3. apply Sub. exact H.
        - intros v q z F G. unfold set_worker in F. apply nth_error_upd_inv in F.
          destruct F as [(-> & F)|(_ & F)]; [inversion F; subst; destruct Hy; subst; discriminate|eauto]. }
      destruct x; try exact I; intros _ _; eapply HQ; eauto.
  Qed.

  (** ** Runs *)
  Lemma nth_repeat_app n m (x y d : Z) p : p < n -> nth p (repeat x n ++ repeat y m) d = x.
  Proof.
    revert p; induction n as [|n IH]; intros p H; [lia|]. destruct p as [|p]; cbn; [reflexivity|]. apply IH. lia.
  Qed.

  Lemma ghost_idle {Y} (f : nat * pc A -> list Y) ws : (forall p, f (p, Idle) = []) ->
    flat_map f (map (fun p => (p, Idle)) ws) = [].
  Proof. intros H. induction ws as [|p ws IH]; cbn; auto. rewrite H, IH. reflexivity. Qed.

  Lemma inv_init n ws st (s : sys) : n <= max_pools -> Forall (fun p => p < n) ws ->
    sys_new n ws st = Ok s -> Inv n s.
  Proof.
    intros Hn Hw H. unfold sys_new, token_new in H.
    replace (n <=? max_pools) with true in H by (symmetry; apply Nat.leb_le; exact Hn). cbn [guard bind] in H.
    inversion H; subst; clear H.
    assert (forall w p x, nth_error (map (fun p => (p, Idle)) ws) w = Some (p, x : pc A) -> p < n /\ x = Idle) as Hx.
    { intros w p x E. apply nth_error_In, in_map_iff in E. destruct E as (q & E & F). inversion E; subst.
      rewrite Forall_forall in Hw. auto. }
    assert (Eh : forall p, flat_map (held p) (map (fun p => (p, Idle)) ws) = []).
    { intros p. apply ghost_idle. intros q. unfold held; cbn. destruct (q =? p); reflexivity. }
    assert (Ea : forall p, flat_map (adm p) (map (fun p => (p, Idle)) ws) = []).
    { intros p. apply ghost_idle. intros q. unfold adm; cbn. destruct (q =? p); reflexivity. }
    assert (Ei : forall p, flat_map (inf p) (map (fun p => (p, Idle)) ws) = []).
    { intros p. apply ghost_idle. intros q. unfold inf; cbn. destruct (q =? p); reflexivity. }
    assert (En : flat_map (@ins) (map (fun p => (p, Idle)) ws) = []).
    { apply ghost_idle. reflexivity. }
    assert (Es : forall p, p < n -> nth p (repeat 0%Z n ++ repeat int64_max (max_pools - n)) 0%Z = 0%Z).
    { intros p Hp. apply nth_repeat_app; exact Hp. }
    constructor; unfold served, live; cbn [tok tk_cnt tk_locked tk_holder pools workers stop calls pending accepted started];
      auto.
    - rewrite app_length, !repeat_length. unfold max_pools in *. clear - Hn. do 5 (destruct n as [|n]; [reflexivity|]). lia.
    - intros w p x E. apply Hx in E. tauto.
    - intros p Hp. rewrite Es by exact Hp. cbn. lia.
    - intros p Hp. rewrite Eh. constructor.
    - intros p Hp c a. rewrite Eh. contradiction.
    - intros p Hp c. rewrite Ea. contradiction.
    - intros p Hp. cbn [numbered]. rewrite firstn_nil. reflexivity.
    - intros _ p Hp. rewrite Eh, Es by exact Hp. reflexivity.
    - intros p Hp. exists 0. rewrite Eh. cbn. split; [lia|]. split; [reflexivity|]. contradiction.
    - intros _ w p x E. apply Hx in E. destruct E as [_ ->]. split; discriminate.
    - intros w p x E F. apply Hx in E. destruct E as [_ ->]. discriminate.
  Qed.

  Lemma step_pool (s : sys) o (s' : sys) p : pstep s o = Ok (Some s') ->
    started (pools s' p) = match o with AStart q => started (pools s p) || (q =? p) | _ => started (pools s p) end /\
    accepted (pools s' p) = accepted (pools s p) ++
      match o with APush q a => if (q =? p) && started (pools s p) then [a] else [] | _ => [] end.
  Proof.
    destruct o as [q|q a| |w|w|w|w pdc|w|w|w]; cbn [pstep].
    - destruct (started (pools s q)) eqn:E; [discriminate|]. destruct (tk_locked (tok s)); [discriminate|].
      destruct (token_lock (tok s) 0); cbn [bind]; try discriminate. intros H; inversion H; subst; clear H. cbn [pools].
      destruct (Nat.eq_dec p q) as [->|Hn].
      + rewrite set_pool_same, Nat.eqb_refl. cbn. rewrite app_nil_r. destruct (started (pools s q)); auto.
      + rewrite set_pool_other by exact Hn. apply not_eq_sym, Nat.eqb_neq in Hn. rewrite Hn, app_nil_r, orb_false_r. auto.
    - destruct (started (pools s q)) eqn:E; [|discriminate]. intros H; inversion H; subst; clear H. cbn [pools].
      destruct (Nat.eq_dec p q) as [->|Hn].
      + rewrite set_pool_same, Nat.eqb_refl, E. cbn. auto.
      + rewrite set_pool_other by exact Hn. apply not_eq_sym, Nat.eqb_neq in Hn. rewrite Hn. cbn. rewrite app_nil_r. auto.
    - intros H; inversion H; subst. cbn. rewrite app_nil_r. auto.
    - destruct (nth_error (workers s) w) as [[q x]|]; [|discriminate].
      destruct (pending (pools s q)) as [|[c a] l]; [destruct x; discriminate|].
      assert (forall z, Ok (Some {| tok := tok s; pools := set_pool (pools s) q
          {| started := started (pools s q); pending := l; accepted := accepted (pools s q) |};
          workers := set_worker s w q z; stop := stop s; calls := calls s |}) = Ok (Some s') ->
        started (pools s' p) = started (pools s p) /\ accepted (pools s' p) = accepted (pools s p) ++ []) as HH.
      { intros z H; inversion H; subst; clear H. cbn [pools]. rewrite app_nil_r.
        destruct (Nat.eq_dec p q) as [->|Hn];
          [rewrite set_pool_same|rewrite set_pool_other by exact Hn]; auto. }
      destruct x; try discriminate; apply HH.
    - destruct (nth_error (workers s) w) as [[q x]|]; [|discriminate]. destruct x; try discriminate.
      destruct (tk_locked (tok s)); [discriminate|]. destruct (fifo_check (tok s) q c) as [[]| | |]; cbn [bind]; try discriminate.
      intros H; inversion H; subst. cbn. rewrite app_nil_r. auto.
    - destruct (nth_error (workers s) w) as [[q x]|]; [|discriminate]. destruct x; try discriminate.
      destruct (tk_locked (tok s)); [discriminate|]. destruct (token_lock (tok s) q); cbn [bind]; try discriminate.
      intros H; inversion H; subst. cbn. rewrite app_nil_r. auto.
    - destruct (nth_error (workers s) w) as [[q x]|]; [|discriminate]. destruct x; try discriminate.
      destruct (token_unlock_fifo (tok s)); cbn [bind]; try discriminate.
      intros H; inversion H; subst. cbn. rewrite app_nil_r. auto.
    - destruct (nth_error (workers s) w) as [[q x]|]; [|discriminate]. destruct x; try discriminate.
      destruct (tk_locked (tok s)); [discriminate|]. destruct (token_lock (tok s) q); cbn [bind]; try discriminate.
      intros H; inversion H; subst. cbn. rewrite app_nil_r. auto.
    - destruct (nth_error (workers s) w) as [[q x]|]; [|discriminate]. destruct x; try discriminate.
      intros H; inversion H; subst. cbn. rewrite app_nil_r. auto.
    - destruct (stop s); [|discriminate].
      destruct (nth_error (workers s) w) as [[q x]|]; [|discriminate]. destruct x; try discriminate;
      intros H; inversion H; subst; cbn; rewrite app_nil_r; auto.
  Qed.

  (** An action that is skipped does not count as a push or a start. *)
  Lemma step_none (s : sys) o (p : nat) : pstep s o = Ok None ->
    (forall q a, o = APush q a -> started (pools s q) = false) /\
    (forall q, o = AStart q -> started (pools s q) = true).
  Proof.
    intros H. split; intros; subst; cbn [pstep] in H.
    - destruct (started (pools s q)); [discriminate|reflexivity].
    - destruct (started (pools s q)); [reflexivity|]. destruct (tk_locked (tok s)); [discriminate|].
      destruct (token_lock (tok s) 0); discriminate.
  Qed.

  Definition next_of (s : sys) (r : option sys) : sys := match r with Some s' => s' | None => s end.

  Lemma pushed_accepted n acts : forall (s s' : sys),
    Inv n s -> Forall (pools_below n) acts -> prun s acts = Ok s' ->
    Inv n s' /\ forall p, accepted (pools s' p) = accepted (pools s p) ++ pushed (started (pools s p)) p acts.
  Proof.
    induction acts as [|o os IH]; intros s s' HI Hb H; cbn [prun] in H.
    - inversion H; subst. split; [exact HI|]. intros p. cbn. rewrite app_nil_r. reflexivity.
    - pose proof (step_inv n s o HI) as S. inversion Hb as [|? ? Hb1 Hb2]; subst.
      destruct (pstep s o) as [[s1|]| | |] eqn:E; cbn [bind] in H; try discriminate.
      + assert (Inv n s1) as HI1. { apply S; intros; subst; exact Hb1. }
        destruct (IH s1 s' HI1 Hb2 H) as [I1 I2]. split; [exact I1|]. intros p.
        rewrite I2. destruct (step_pool _ _ _ p E) as [E1 E2]. rewrite E1, E2, <- app_assoc. f_equal.
        destruct o as [q|q a| |w|w|w|w pdc|w|w|w]; cbn [pushed app]; auto.
        destruct ((q =? p) && started (pools s p)); reflexivity.
      + destruct (IH s s' HI Hb2 H) as [I1 I2]. split; [exact I1|]. intros p. rewrite I2. f_equal.
        destruct (step_none s o p E) as [N1 N2].
        destruct o as [q|q a| |w|w|w|w pdc|w|w|w]; cbn [pushed]; auto.
        * specialize (N2 q eq_refl). destruct (Nat.eqb_spec q p) as [->|]; [rewrite N2; reflexivity|].
          rewrite orb_false_r. reflexivity.
        * specialize (N1 q a eq_refl). destruct (Nat.eqb_spec q p) as [->|]; [rewrite N1|]; reflexivity.
  Qed.

  (** Only a start while another pool's worker is inside the firmware can abort. *)
  Lemma run_no_abort n acts : forall (s : sys),
    Inv n s -> Forall (pools_below n) acts -> Forall (fun o => is_start o = false) acts ->
    exists s', prun s acts = Ok s'.
  Proof.
    induction acts as [|o os IH]; intros s HI Hb Hs; cbn [prun]; [eauto|].
    pose proof (step_inv n s o HI) as S. inversion Hb as [|? ? Hb1 Hb2]; subst. inversion Hs as [|? ? Hs1 Hs2]; subst.
    destruct (pstep s o) as [[s1|]| | |]; cbn [bind].
    - apply IH; auto. apply S; intros; subst; exact Hb1.
    - apply IH; auto.
    - destruct S as (p & -> & _). discriminate.
    - contradiction.
    - contradiction.
  Qed.

  Lemma ins_filter (l : list (nat * pc A)) : length (filter in_firmware l) = length (flat_map ins l).
  Proof.
    induction l as [|[p x] l IH]; cbn [filter flat_map]; [reflexivity|]. rewrite app_length, <- IH.
    unfold in_firmware, ins; cbn. destruct x; cbn; auto.
  Qed.

  Lemma inv_exclusive n (s : sys) : Inv n s -> nof_in_firmware s <= 1.
  Proof.
    intros []. unfold nof_in_firmware. rewrite ins_filter.
    destruct (tk_locked (tok s)); destruct i_ins0 as [-> _]; cbn; lia.
  Qed.

  Lemma inv_prefix n (s : sys) p : Inv n s -> p < n ->
    is_prefix (calls_of p (calls s)) (numbered 0 (accepted (pools s p))).
  Proof.
    intros [] Hp. rewrite (i_calls0 p Hp). eexists. symmetry. apply firstn_skipn.
  Qed.

  Lemma firmware_calls_in_order n ws acts (s0 : sys) :
    n <= max_pools -> Forall (fun p => p < n) ws ->
    Forall (pools_below n) acts -> Forall (fun o => is_start o = false) acts ->
    sys_new n ws true = Ok s0 ->
    exists s, prun s0 acts = Ok s /\ nof_in_firmware s <= 1 /\
      forall p, p < n -> is_prefix (calls_of p (calls s)) (numbered 0 (pushed true p acts)).
  Proof.
    intros Hn Hw Hb Hs E. pose proof (inv_init n ws true s0 Hn Hw E) as HI.
    destruct (run_no_abort n acts s0 HI Hb Hs) as (s & R). exists s. split; [exact R|].
    destruct (pushed_accepted n acts s0 s HI Hb R) as [HI' HA].
    split; [eapply inv_exclusive; eauto|]. intros p Hp.
    assert (pools s0 p = {| started := true; pending := []; accepted := [] |}) as E0.
    { unfold sys_new, token_new in E. destruct (n <=? max_pools); cbn in E; inversion E; reflexivity. }
    specialize (HA p). rewrite E0 in HA. cbn in HA. rewrite <- HA. eapply inv_prefix; eauto.
  Qed.

  (** One pool alone: the start itself is safe too. *)
  Lemma single_pool_run acts : forall (s : sys),
    Inv 1 s -> Forall (pools_below 1) acts -> exists s', prun s acts = Ok s'.
  Proof.
    induction acts as [|o os IH]; intros s HI Hb; cbn [prun]; [eauto|].
    pose proof (step_inv 1 s o HI) as S. inversion Hb as [|? ? Hb1 Hb2]; subst.
    destruct (pstep s o) as [[s1|]| | |]; cbn [bind].
    - apply IH; auto. apply S; intros; subst; exact Hb1.
    - apply IH; auto.
    - exfalso. destruct S as (p & -> & E1 & E2). cbn in Hb1. assert (p = 0) by lia; subst p.
      destruct HI. rewrite E2 in i_ins0. destruct i_ins0 as [Ei Eh].
      assert (In (tk_holder (tok s)) (flat_map ins (workers s))) as H by (rewrite Ei; left; reflexivity).
      apply in_flat_map in H. destruct H as ([q x] & H1 & H2). apply In_nth_error in H1. destruct H1 as (w & H1).
      assert (q < 1) by eauto. assert (q = 0) by lia; subst q.
      assert (quiet x = false) as Q by (unfold ins in H2; cbn in H2; destruct x; try contradiction; reflexivity).
      rewrite (i_started0 _ _ _ H1 Q) in E1. discriminate.
    - contradiction.
    - contradiction.
  Qed.

  Lemma single_pool_in_order ws acts (s0 : sys) :
    Forall (fun p => p < 1) ws -> Forall (pools_below 1) acts ->
    sys_new 1 ws false = Ok s0 ->
    exists s, prun s0 acts = Ok s /\ nof_in_firmware s <= 1 /\
      is_prefix (calls_of 0 (calls s)) (numbered 0 (pushed false 0 acts)).
  Proof.
    intros Hw Hb E. assert (1 <= max_pools) as Hn by (unfold max_pools; lia).
    pose proof (inv_init 1 ws false s0 Hn Hw E) as HI.
    destruct (single_pool_run acts s0 HI Hb) as (s & R). exists s. split; [exact R|].
    destruct (pushed_accepted 1 acts s0 s HI Hb R) as [HI' HA].
    split; [eapply inv_exclusive; eauto|].
    assert (pools s0 0 = {| started := false; pending := []; accepted := [] |}) as E0.
    { cbn in E. inversion E; reflexivity. }
    specialize (HA 0). rewrite E0 in HA. cbn [accepted started app] in HA. rewrite <- HA. eapply inv_prefix; eauto.
  Qed.

  (** ** Progress *)
  Definition wt (x : pc A) : nat :=
    match x with
    | Wants _ _ => 6 | Admitted _ _ => 5 | InFifo _ _ => 4 | WantsPdc => 3 | InPdc => 2
    | Idle => 0 | Draining => 0 | Gone => 0
    end.
  Fixpoint sum_to (n : nat) (f : nat -> nat) : nat :=
    match n with 0 => 0 | S k => f k + sum_to k f end.
  Definition work_left (n : nat) (s : sys) : nat :=
    list_sum (map (fun x => wt (snd x)) (workers s)) + 7 * sum_to n (fun p => length (pending (pools s p))).

  Lemma sum_to_ext n f g : (forall p, p < n -> f p = g p) -> sum_to n f = sum_to n g.
  Proof. induction n as [|n IH]; intros H; cbn; auto. rewrite H, IH by auto with arith. reflexivity. Qed.

  Lemma sum_to_dec n f g p : p < n -> f p = S (g p) -> (forall q, q <> p -> f q = g q) -> sum_to n f = S (sum_to n g).
  Proof.
    induction n as [|n IH]; intros Hp E H; [lia|]. cbn [sum_to].
    destruct (Nat.eq_dec p n) as [->|Hn].
    - rewrite E. rewrite (sum_to_ext n f g) by (intros q Hq; apply H; lia). lia.
    - rewrite (H n) by auto. rewrite IH by (auto; lia). lia.
  Qed.

  Lemma wsum_upd s w p x y : nth_error (workers s) w = Some (p, x) ->
    list_sum (map (fun z => wt (snd z)) (set_worker s w p y)) + wt x =
    list_sum (map (fun z => wt (snd z)) (workers s)) + wt y.
  Proof.
    intros H. destruct (upd_split _ _ _ H) as (l1 & l2 & E & F). unfold set_worker. rewrite F, E.
    rewrite !map_app, !list_sum_app. cbn. unfold list_sum. lia.
  Qed.

  Lemma worker_step_decreases n s o s' : Inv n s -> is_worker_action o = true -> stop s = false ->
    pstep s o = Ok (Some s') -> work_left n s' < work_left n s.
  Proof.
    intros HI Hw Hst. destruct o as [q|q a| |w|w|w|w pdc|w|w|w]; cbn in Hw; try discriminate; cbn [pstep].
    - destruct (nth_error (workers s) w) as [[p x]|] eqn:E; [|discriminate].
      destruct (pending (pools s p)) as [|[c a] l] eqn:Ep; [destruct x; discriminate|].
      destruct HI. assert (p < n) as Hp by eauto.
      destruct (i_running0 Hst _ _ _ E) as [Nd _].
      destruct x; try discriminate; [|congruence].
      intros H; inversion H; subst; clear H. unfold work_left; cbn [workers pools].
      pose proof (wsum_upd s w p Idle (Wants c a) E) as W. cbn [wt] in W.
      set (P' := set_pool (pools s) p {| started := started (pools s p); pending := l; accepted := accepted (pools s p) |}).
      rewrite (sum_to_dec n (fun q => length (pending (pools s q))) (fun q => length (pending (P' q))) p); [lia|exact Hp| |].
      + unfold P'. rewrite set_pool_same, Ep. reflexivity.
      + intros q Hq. unfold P'. rewrite set_pool_other by exact Hq. reflexivity.
    - destruct (nth_error (workers s) w) as [[p x]|] eqn:E; [|discriminate]. destruct x; try discriminate.
      destruct (tk_locked (tok s)); [discriminate|]. destruct (fifo_check (tok s) p c) as [[]| | |]; cbn [bind]; try discriminate.
      intros H; inversion H; subst; clear H. unfold work_left; cbn [workers pools].
      pose proof (wsum_upd s w p _ (Admitted c a) E) as W. cbn [wt] in W. lia.
    - destruct (nth_error (workers s) w) as [[p x]|] eqn:E; [|discriminate]. destruct x; try discriminate.
      destruct (tk_locked (tok s)); [discriminate|]. destruct (token_lock (tok s) p); cbn [bind]; try discriminate.
      intros H; inversion H; subst; clear H. unfold work_left; cbn [workers pools].
      pose proof (wsum_upd s w p _ (InFifo c a) E) as W. cbn [wt] in W. lia.
    - destruct (nth_error (workers s) w) as [[p x]|] eqn:E; [|discriminate]. destruct x; try discriminate.
      destruct (token_unlock_fifo (tok s)); cbn [bind]; try discriminate.
      intros H; inversion H; subst; clear H. unfold work_left; cbn [workers pools].
      pose proof (wsum_upd s w p _ (if pdc then WantsPdc else Idle) E) as W. destruct pdc; cbn [wt] in W; lia.
    - destruct (nth_error (workers s) w) as [[p x]|] eqn:E; [|discriminate]. destruct x; try discriminate.
      destruct (tk_locked (tok s)); [discriminate|]. destruct (token_lock (tok s) p); cbn [bind]; try discriminate.
      intros H; inversion H; subst; clear H. unfold work_left; cbn [workers pools].
      pose proof (wsum_upd s w p _ InPdc E) as W. cbn [wt] in W. lia.
    - destruct (nth_error (workers s) w) as [[p x]|] eqn:E; [|discriminate]. destruct x; try discriminate.
      intros H; inversion H; subst; clear H. unfold work_left; cbn [workers pools].
      pose proof (wsum_upd s w p _ Idle E) as W. cbn [wt] in W. lia.
    - rewrite Hst. discriminate.
  Qed.

  (** Pigeonhole: distinct numbers in [a, a+len) hit a when there are len of them. *)
  Lemma pigeon (l : list Z) (a : Z) : NoDup l -> (forall c, In c l -> (a <= c < a + Z.of_nat (length l))%Z) ->
    l <> [] -> In a l.
  Proof.
    intros ND R NE. destruct (in_dec Z.eq_dec a l) as [H|H]; [exact H|exfalso].
    set (m := map (fun i => (a + 1 + Z.of_nat i)%Z) (seq 0 (length l - 1))).
    assert (incl l m) as HI.
    { intros c Hc. specialize (R c Hc). assert (c <> a) by (intro; subst; contradiction).
      apply in_map_iff. exists (Z.to_nat (c - a - 1)). split; [lia|]. apply in_seq. lia. }
    pose proof (NoDup_incl_length ND HI) as L. unfold m in L. rewrite map_length, seq_length in L.
    destruct l; [congruence|]. cbn in L. lia.
  Qed.

  Lemma quiescent_delivered n s p w x : Inv n s -> stop s = false -> quiescent s -> p < n ->
    nth_error (workers s) w = Some (p, x) ->
    calls_of p (calls s) = numbered 0 (accepted (pools s p)) /\ x = Idle.
  Proof.
    intros HI Hst Q Hp Hw. pose proof HI as [].
    (* nobody inside *)
    assert (tk_locked (tok s) = false) as El.
    { destruct (tk_locked (tok s)) eqn:El; [exfalso|reflexivity]. destruct i_ins0 as [Ei Eh].
      assert (In (tk_holder (tok s)) (flat_map ins (workers s))) as H by (rewrite Ei; left; reflexivity).
      apply in_flat_map in H. destruct H as ([q y] & H1 & H2). apply In_nth_error in H1. destruct H1 as (v & H1).
      unfold ins in H2; cbn in H2. destruct y; try contradiction.
      - specialize (Q (AUnlock v false) eq_refl). cbn [pstep] in Q. rewrite H1 in Q.
        unfold token_unlock_fifo in Q. replace (tk_holder (tok s) <? max_pools) with true in Q by (symmetry; apply Nat.ltb_lt; lia).
        cbn [guard] in Q. rewrite (rd_ok _ _ 0%Z) in Q by (rewrite i_len0; lia). discriminate.
      - specialize (Q (AUnlockPdc v) eq_refl). cbn [pstep] in Q. rewrite H1 in Q. discriminate. }
    rewrite El in i_ins0. destruct i_ins0 as [Ei Eh].
    (* everyone is idle or waiting for its turn *)
    assert (forall v q y, nth_error (workers s) v = Some (q, y) -> y = Idle \/ exists c a, y = Wants c a /\ served s q <> c) as HW.
    { intros v q y H. destruct (i_running0 Hst _ _ _ H) as [N1 N2]. destruct y; try congruence; auto.
      - right. exists c, a. split; [reflexivity|]. intro Ec. specialize (Q (ACheck v) eq_refl). cbn [pstep] in Q.
        rewrite H, El in Q. unfold fifo_check in Q. assert (q < n) by eauto.
        rewrite (rd_ok _ _ 0%Z) in Q by (rewrite i_len0; lia). cbn [bind] in Q. fold (served s q) in Q. rewrite Ec in Q.
        rewrite Z.leb_refl, Z.eqb_refl in Q. discriminate.
      - exfalso. specialize (Q (ALock v) eq_refl). cbn [pstep] in Q. rewrite H, El in Q. unfold token_lock in Q. rewrite Eh in Q. discriminate.
      - exfalso. assert (In q (flat_map ins (workers s))) as F by (eapply ins_in; eauto). rewrite Ei in F. contradiction.
      - exfalso. specialize (Q (ALockPdc v) eq_refl). cbn [pstep] in Q. rewrite H, El in Q. unfold token_lock in Q. rewrite Eh in Q. discriminate.
      - exfalso. assert (In q (flat_map ins (workers s))) as F by (eapply ins_in; eauto). rewrite Ei in F. contradiction. }
    (* nothing is live *)
    assert (live s p = []) as HL.
    { destruct (live s p) as [|e r] eqn:EL; [reflexivity|exfalso].
      assert (In (served s p) (map fst (live s p))) as HS.
      { apply pigeon; [apply i_nodup0; exact Hp| |rewrite EL; discriminate].
        intros c Hc. apply in_map_iff in Hc. destruct Hc as ([c' a] & E & Hc). cbn in E; subst.
        apply i_range0 in Hc; [|exact Hp]. destruct Hc as [H1 H2]. apply numbered_in_range in H2.
        specialize (i_full0 Hst p Hp). rewrite map_length. lia. }
      apply in_map_iff in HS. destruct HS as ([c a] & Ec & HS). cbn in Ec. unfold live in HS. apply in_app_or in HS.
      destruct HS as [HS|HS].
      - apply in_flat_map in HS. destruct HS as ([q y] & H1 & H2). unfold held in H2; cbn in H2.
        destruct (Nat.eqb_spec q p) as [->|]; [|contradiction].
        apply In_nth_error in H1. destruct H1 as (v & H1). destruct (HW _ _ _ H1) as [->|(c' & a' & -> & Nc)]; [contradiction|].
        destruct H2 as [H2|[]]. inversion H2; subst. congruence.
      - destruct (i_top0 p Hp) as (k & K1 & K2 & K3).
        assert (x = Idle) as ->.
        { destruct (HW _ _ _ Hw) as [->|(c' & a' & -> & Nc)]; [reflexivity|exfalso].
          assert (In (c', a') (flat_map (held p) (workers s))) as H.
          { apply in_flat_map. exists (p, Wants c' a'). split; [eapply nth_error_In; eauto|]. unfold held; cbn. rewrite Nat.eqb_refl. left; reflexivity. }
          pose proof (K3 _ _ H) as H3. rewrite K2, skipn_numbered in HS. apply numbered_in_range in HS.
          assert (In (c', a') (live s p)) as H4 by (unfold live; apply in_or_app; left; exact H).
          apply i_range0 in H4; [|exact Hp]. lia. }
        specialize (Q (ATake w) eq_refl). cbn [pstep] in Q. rewrite Hw in Q.
        destruct (pending (pools s p)) as [|[c1 a1] l]; [contradiction|discriminate]. }
    split.
    - rewrite (i_calls0 p Hp). apply firstn_all2. rewrite numbered_length.
      specialize (i_full0 Hst p Hp). rewrite HL in i_full0. cbn in i_full0. specialize (i_served1 p Hp). lia.
    - destruct (HW _ _ _ Hw) as [->|(c' & a' & -> & Nc)]; [reflexivity|exfalso].
      assert (In (c', a') (live s p)) as H.
      { unfold live. apply in_or_app; left. apply in_flat_map. exists (p, Wants c' a'). split; [eapply nth_error_In; eauto|].
        unfold held; cbn. rewrite Nat.eqb_refl. left; reflexivity. }
      rewrite HL in H. contradiction.
  Qed.

  (** Worker-only schedules from a running state: every enabled step makes progress, so at most
      [work_left] steps are possible, and a maximal one has delivered everything. *)
  Fixpoint all_enabled (s : sys) (os : list (action A)) : Prop :=
    match os with
    | [] => True
    | o :: r => exists s', pstep s o = Ok (Some s') /\ all_enabled s' r
    end.

  Lemma step_stop (s : sys) o (s' : sys) : pstep s o = Ok (Some s') -> is_worker_action o = true -> stop s' = stop s.
  Proof.
    destruct o as [q|q a| |w|w|w|w pdc|w|w|w]; cbn [pstep is_worker_action]; intros H E; try discriminate.
    - destruct (nth_error (workers s) w) as [[p x]|]; [|discriminate].
      destruct (pending (pools s p)) as [|[c a] l]; destruct x; try discriminate; inversion H; reflexivity.
    - destruct (nth_error (workers s) w) as [[p x]|]; [|discriminate]. destruct x; try discriminate.
      destruct (tk_locked (tok s)); [discriminate|]. destruct (fifo_check (tok s) p c) as [[]| | |]; cbn [bind] in H; try discriminate. inversion H; reflexivity.
    - destruct (nth_error (workers s) w) as [[p x]|]; [|discriminate]. destruct x; try discriminate.
      destruct (tk_locked (tok s)); [discriminate|]. destruct (token_lock (tok s) p); cbn [bind] in H; try discriminate. inversion H; reflexivity.
    - destruct (nth_error (workers s) w) as [[p x]|]; [|discriminate]. destruct x; try discriminate.
      destruct (token_unlock_fifo (tok s)); cbn [bind] in H; try discriminate. inversion H; reflexivity.
    - destruct (nth_error (workers s) w) as [[p x]|]; [|discriminate]. destruct x; try discriminate.
      destruct (tk_locked (tok s)); [discriminate|]. destruct (token_lock (tok s) p); cbn [bind] in H; try discriminate. inversion H; reflexivity.
    - destruct (nth_error (workers s) w) as [[p x]|]; [|discriminate]. destruct x; try discriminate. inversion H; reflexivity.
    - destruct (stop s) eqn:Es; [|discriminate].
      destruct (nth_error (workers s) w) as [[p x]|]; [|discriminate]. destruct x; try discriminate; inversion H; cbn; congruence.
  Qed.

  Lemma bounded_work n os : forall s, Inv n s -> stop s = false ->
    Forall (fun o => is_worker_action o = true) os -> all_enabled s os -> length os <= work_left n s.
  Proof.
    induction os as [|o os IH]; intros s HI Hst Hw H; cbn [length]; [lia|].
    inversion Hw as [|? ? Hw1 Hw2]; subst. destruct H as (s' & E & H).
    pose proof (worker_step_decreases n s o s' HI Hw1 Hst E) as D.
    pose proof (step_inv n s o HI) as SI. rewrite E in SI.
    assert (Inv n s') as HI' by (apply SI; intros; subst; discriminate).
    assert (stop s' = false) as Hst' by (rewrite (step_stop _ _ _ E Hw1); exact Hst).
    specialize (IH s' HI' Hst' Hw2 H). lia.
  Qed.

  Definition no_stop (o : action A) : bool := match o with AStop => false | _ => true end.

  Lemma run_not_stopped acts : forall (s s' : sys), prun s acts = Ok s' -> stop s = false ->
    Forall (fun o => no_stop o = true) acts -> stop s' = false.
  Proof.
    induction acts as [|o os IH]; intros s s' H Hst Hn; cbn [prun] in H; [inversion H; subst; exact Hst|].
    inversion Hn as [|? ? Hn1 Hn2]; subst.
    destruct (pstep s o) as [[s1|]| | |] eqn:E; cbn [bind] in H; try discriminate; [|eauto].
    apply (IH s1 s' H); [|exact Hn2].
    destruct (is_worker_action o) eqn:Ew; [rewrite (step_stop _ _ _ E Ew); exact Hst|].
    destruct o as [q|q a| |w|w|w|w pdc|w|w|w]; try discriminate; cbn [pstep] in E.
    - destruct (started (pools s q)); [discriminate|]. destruct (tk_locked (tok s)); [discriminate|].
      destruct (token_lock (tok s) 0); cbn [bind] in E; try discriminate. inversion E; exact Hst.
    - destruct (started (pools s q)); [|discriminate]. inversion E; exact Hst.
  Qed.

  Lemma every_job_reaches_firmware n ws acts (s0 s : sys) :
    n <= max_pools -> Forall (fun p => p < n) ws ->
    Forall (pools_below n) acts -> Forall (fun o => is_start o = false) acts ->
    Forall (fun o => no_stop o = true) acts ->
    sys_new n ws true = Ok s0 -> prun s0 acts = Ok s ->
    (exists bound, forall os, Forall (fun o => is_worker_action o = true) os -> all_enabled s os -> length os <= bound) /\
    (quiescent s -> forall p, In p ws -> calls_of p (calls s) = numbered 0 (pushed true p acts)).
  Proof.
    intros Hn Hw Hb Hs Hns E R. pose proof (inv_init n ws true s0 Hn Hw E) as HI.
    destruct (pushed_accepted n acts s0 s HI Hb R) as [HI' HA].
    assert (E0 : pools s0 = (fun _ => {| started := true; pending := []; accepted := [] |}) /\ stop s0 = false
                 /\ map fst (workers s0) = ws).
    { unfold sys_new, token_new in E. destruct (n <=? max_pools); cbn in E; inversion E; cbn.
      rewrite map_map. cbn. rewrite map_id. auto. }
    destruct E0 as (E0 & E1 & E2).
    assert (stop s = false) as Hst by (eapply run_not_stopped; eauto).
    split.
    - exists (work_left n s). intros os H1 H2. eapply bounded_work; eauto.
    - intros Q p Hp. specialize (HA p). rewrite E0 in HA. cbn in HA. rewrite <- HA.
      assert (map fst (workers s) = ws) as EW.
      { rewrite <- E2. clear - R. revert s0 R. induction acts as [|o os IH]; intros s0 R; cbn [prun] in R; [inversion R; reflexivity|].
        destruct (pstep s0 o) as [[s1|]| | |] eqn:E; cbn [bind] in R; try discriminate; [|eauto].
        rewrite (IH s1 R). clear - E.
        assert (U : forall w p x y, nth_error (workers s0) w = Some (p, x : pc A) -> map fst (set_worker s0 w p y) = map fst (workers s0)).
        { intros w p x y H. destruct (upd_split _ _ _ H) as (l1 & l2 & E1 & F). unfold set_worker. rewrite F, E1, !map_app. reflexivity. }
        destruct o as [q|q a| |w|w|w|w pdc|w|w|w]; cbn [pstep] in E.
        - destruct (started (pools s0 q)); [discriminate|]. destruct (tk_locked (tok s0)); [discriminate|].
          destruct (token_lock (tok s0) 0); cbn [bind] in E; try discriminate. inversion E; reflexivity.
        - destruct (started (pools s0 q)); [|discriminate]. inversion E; reflexivity.
        - inversion E; reflexivity.
        - destruct (nth_error (workers s0) w) as [[p x]|] eqn:Ew; [|discriminate].
          destruct (pending (pools s0 p)) as [|[c a] l]; destruct x; try discriminate; inversion E; cbn [workers]; eapply U; eauto.
        - destruct (nth_error (workers s0) w) as [[p x]|] eqn:Ew; [|discriminate]. destruct x; try discriminate.
          destruct (tk_locked (tok s0)); [discriminate|]. destruct (fifo_check (tok s0) p c) as [[]| | |]; cbn [bind] in E; try discriminate.
          inversion E; cbn [workers]; eapply U; eauto.
        - destruct (nth_error (workers s0) w) as [[p x]|] eqn:Ew; [|discriminate]. destruct x; try discriminate.
          destruct (tk_locked (tok s0)); [discriminate|]. destruct (token_lock (tok s0) p); cbn [bind] in E; try discriminate.
          inversion E; cbn [workers]; eapply U; eauto.
        - destruct (nth_error (workers s0) w) as [[p x]|] eqn:Ew; [|discriminate]. destruct x; try discriminate.
          destruct (token_unlock_fifo (tok s0)); cbn [bind] in E; try discriminate. inversion E; cbn [workers]; eapply U; eauto.
        - destruct (nth_error (workers s0) w) as [[p x]|] eqn:Ew; [|discriminate]. destruct x; try discriminate.
          destruct (tk_locked (tok s0)); [discriminate|]. destruct (token_lock (tok s0) p); cbn [bind] in E; try discriminate.
          inversion E; cbn [workers]; eapply U; eauto.
        - destruct (nth_error (workers s0) w) as [[p x]|] eqn:Ew; [|discriminate]. destruct x; try discriminate.
          inversion E; cbn [workers]; eapply U; eauto.
        - destruct (stop s0); [|discriminate].
          destruct (nth_error (workers s0) w) as [[p x]|] eqn:Ew; [|discriminate].
          destruct x; try discriminate; inversion E; cbn [workers]; eapply U; eauto. }
      rewrite <- EW in Hp. apply in_map_iff in Hp. destruct Hp as ([q x] & Eq & Hp). cbn in Eq; subst q.
      apply In_nth_error in Hp. destruct Hp as (w & Hp).
      eapply (quiescent_delivered n s p w x); eauto. destruct HI'; eauto.
  Qed.
End Facts.
