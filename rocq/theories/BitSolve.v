(** A reflective decision procedure for equalities between N expressions built from masks, shifts
    and ors of bounded fields. Proof support only: nothing of the model is defined here. *)
From Verif Require Import Base.
Open Scope N_scope.

Inductive bexp :=
| BVar (i : nat)
| BConst (c : N)
| BOr (a b : bexp)
| BAnd (a b : bexp)
| BShl (a : bexp) (k : nat)
| BShr (a : bexp) (k : nat).

(** A variable environment: value and width in bits. *)
Definition benv := list (N * nat).
Definition vval (r : benv) (i : nat) : N := fst (nth i r (0, 0%nat)).
Definition vwid (r : benv) (i : nat) : nat := snd (nth i r (0, 0%nat)).
Definition env_ok (r : benv) : Prop := Forall (fun p => fst p < 2 ^ N.of_nat (snd p)) r.

Fixpoint bden (r : benv) (e : bexp) : N :=
  match e with
  | BVar i => vval r i
  | BConst c => c
  | BOr a b => N.lor (bden r a) (bden r b)
  | BAnd a b => N.land (bden r a) (bden r b)
  | BShl a k => N.shiftl (bden r a) (N.of_nat k)
  | BShr a k => N.shiftr (bden r a) (N.of_nat k)
  end.

(** Symbolic bits. *)
Inductive sb :=
| SF | ST
| SAtom (v i : nat)
| SOr (a b : sb)
| SAnd (a b : sb).

Fixpoint sden (r : benv) (s : sb) : bool :=
  match s with
  | SF => false
  | ST => true
  | SAtom v i => N.testbit (vval r v) (N.of_nat i)
  | SOr a b => orb (sden r a) (sden r b)
  | SAnd a b => andb (sden r a) (sden r b)
  end.

Fixpoint sb_eqb (a b : sb) : bool :=
  match a, b with
  | SF, SF => true
  | ST, ST => true
  | SAtom v i, SAtom w j => Nat.eqb v w && Nat.eqb i j
  | SOr a1 a2, SOr b1 b2 => sb_eqb a1 b1 && sb_eqb a2 b2
  | SAnd a1 a2, SAnd b1 b2 => sb_eqb a1 b1 && sb_eqb a2 b2
  | _, _ => false
  end.

Definition sor (a b : sb) : sb :=
  match a, b with
  | SF, x => x
  | x, SF => x
  | ST, _ => ST
  | _, ST => ST
  | x, y => if sb_eqb x y then x else SOr x y
  end.
Definition sand (a b : sb) : sb :=
  match a, b with
  | ST, x => x
  | x, ST => x
  | SF, _ => SF
  | _, SF => SF
  | x, y => if sb_eqb x y then x else SAnd x y
  end.

Fixpoint sbit (ws : list nat) (e : bexp) (n : nat) : sb :=
  match e with
  | BVar i => if Nat.ltb n (nth i ws 0%nat) then SAtom i n else SF
  | BConst c => if N.testbit c (N.of_nat n) then ST else SF
  | BOr a b => sor (sbit ws a n) (sbit ws b n)
  | BAnd a b => sand (sbit ws a n) (sbit ws b n)
  | BShl a k => if Nat.ltb n k then SF else sbit ws a (n - k)
  | BShr a k => sbit ws a (n + k)
  end.

Fixpoint bwid (ws : list nat) (e : bexp) : nat :=
  match e with
  | BVar i => nth i ws 0%nat
  | BConst c => N.to_nat (N.size c)
  | BOr a b => Nat.max (bwid ws a) (bwid ws b)
  | BAnd a b => Nat.min (bwid ws a) (bwid ws b)
  | BShl a k => (bwid ws a + k)%nat
  | BShr a k => (bwid ws a - k)%nat
  end.

Definition bcheck (ws : list nat) (a b : bexp) : bool :=
  forallb (fun n => sb_eqb (sbit ws a n) (sbit ws b n))
    (seq 0 (Nat.max (bwid ws a) (bwid ws b))).

(** Is the value of e below 2^w? Bits from w on are false. *)
Definition bbound (ws : list nat) (e : bexp) (w : nat) : bool :=
  forallb (fun n => match sbit ws e (w + n) with SF => true | _ => false end)
    (seq 0 (bwid ws e - w)).

Lemma sb_eqb_eq a b : sb_eqb a b = true -> a = b.
Proof.
  revert b; induction a; intros [] H; cbn in H; try discriminate; auto;
    apply andb_true_iff in H; destruct H as [H1 H2].
  - apply Nat.eqb_eq in H1, H2. congruence.
  - f_equal; auto.
  - f_equal; auto.
Qed.

Lemma sor_den r a b : sden r (sor a b) = orb (sden r a) (sden r b).
Proof.
  destruct a, b; cbn [sor sden]; rewrite ?orb_false_r, ?orb_true_r, ?orb_false_l, ?orb_true_l; auto;
    match goal with |- context [if ?c then _ else _] => destruct c eqn:E end; auto;
    apply sb_eqb_eq in E; inversion E; subst; cbn [sden]; now rewrite orb_diag.
Qed.

Lemma sand_den r a b : sden r (sand a b) = andb (sden r a) (sden r b).
Proof.
  destruct a, b; cbn [sand sden]; rewrite ?andb_false_r, ?andb_true_r, ?andb_false_l, ?andb_true_l; auto;
    match goal with |- context [if ?c then _ else _] => destruct c eqn:E end; auto;
    apply sb_eqb_eq in E; inversion E; subst; cbn [sden]; now rewrite andb_diag.
Qed.

Lemma testbit_high x w n : x < 2 ^ w -> w <= n -> N.testbit x n = false.
Proof.
  intros H Hn. rewrite <- (N.mod_small x (2 ^ w)) by lia.
  apply N.mod_pow2_bits_high. auto.
Qed.

Lemma env_bound r i : env_ok r -> vval r i < 2 ^ N.of_nat (vwid r i).
Proof.
  unfold env_ok, vval, vwid. intros H. destruct (Nat.lt_ge_cases i (length r)).
  - rewrite Forall_forall in H. apply H. now apply nth_In.
  - rewrite nth_overflow by auto. cbn. lia.
Qed.

Lemma sbit_sound r e : env_ok r -> forall n,
  N.testbit (bden r e) (N.of_nat n) = sden r (sbit (map snd r) e n).
Proof.
  intros Hr. induction e; intros n; cbn [bden sbit].
  - assert (Hw : nth i (map snd r) 0%nat = vwid r i).
    { unfold vwid. change 0%nat with (snd (0, 0%nat)) at 1. now rewrite map_nth. }
    rewrite Hw. destruct (Nat.ltb_spec n (vwid r i)); auto.
    cbn. apply testbit_high with (w := N.of_nat (vwid r i)); [now apply env_bound|lia].
  - now destruct (N.testbit c (N.of_nat n)).
  - now rewrite N.lor_spec, sor_den, IHe1, IHe2.
  - now rewrite N.land_spec, sand_den, IHe1, IHe2.
  - destruct (Nat.ltb_spec n k).
    + apply N.shiftl_spec_low. lia.
    + rewrite N.shiftl_spec_high' by lia. rewrite <- IHe. f_equal. lia.
  - rewrite N.shiftr_spec'. rewrite <- IHe. f_equal. lia.
Qed.

Lemma pow2_le a b : (a <= b)%nat -> 2 ^ N.of_nat a <= 2 ^ N.of_nat b.
Proof. intros. apply N.pow_le_mono_r; lia. Qed.

Lemma lt_pow2_bits x w : (forall n, w <= n -> N.testbit x n = false) -> x < 2 ^ w.
Proof.
  intros H. assert (E : x = x mod 2 ^ w).
  { apply N.bits_inj. intros n. destruct (N.lt_ge_cases n w).
    - now rewrite N.mod_pow2_bits_low.
    - rewrite N.mod_pow2_bits_high by auto. auto. }
  rewrite E. apply N.mod_lt. apply N.pow_nonzero. lia.
Qed.

Lemma bwid_sound r e : env_ok r -> bden r e < 2 ^ N.of_nat (bwid (map snd r) e).
Proof.
  intros Hr. induction e; cbn [bden bwid].
  - assert (Hw : nth i (map snd r) 0%nat = vwid r i).
    { unfold vwid. change 0%nat with (snd (0, 0%nat)) at 1. now rewrite map_nth. }
    rewrite Hw. now apply env_bound.
  - rewrite N2Nat.id. apply N.size_gt.
  - apply lt_pow2_bits. intros n Hn. rewrite N.lor_spec.
    rewrite (testbit_high _ _ n IHe1), (testbit_high _ _ n IHe2) by lia. auto.
  - apply lt_pow2_bits. intros n Hn. rewrite N.land_spec.
    destruct (Nat.le_gt_cases (bwid (map snd r) e1) (bwid (map snd r) e2)).
    + rewrite (testbit_high _ _ n IHe1) by lia. auto.
    + rewrite (testbit_high _ _ n IHe2) by lia. apply andb_false_r.
  - rewrite N.shiftl_mul_pow2, Nat2N.inj_add, N.pow_add_r.
    apply N.mul_lt_mono_pos_r; auto. apply N.neq_0_lt_0, N.pow_nonzero. lia.
  - apply lt_pow2_bits. intros n Hn. rewrite N.shiftr_spec'.
    apply (testbit_high _ _ _ IHe). lia.
Qed.

Lemma bcheck_sound r a b : env_ok r -> bcheck (map snd r) a b = true -> bden r a = bden r b.
Proof.
  intros Hr H. unfold bcheck in H. rewrite forallb_forall in H.
  apply N.bits_inj. intros n.
  pose proof (bwid_sound r a Hr) as Ha. pose proof (bwid_sound r b Hr) as Hb.
  destruct (N.lt_ge_cases n (N.of_nat (Nat.max (bwid (map snd r) a) (bwid (map snd r) b)))) as [Hn|Hn].
  - replace n with (N.of_nat (N.to_nat n)) by lia. rewrite !sbit_sound by auto. f_equal.
    apply sb_eqb_eq. apply H. apply in_seq. lia.
  - rewrite (testbit_high _ _ n Ha), (testbit_high _ _ n Hb) by lia. auto.
Qed.

Lemma bbound_sound r e w : env_ok r -> bbound (map snd r) e w = true -> bden r e < 2 ^ N.of_nat w.
Proof.
  intros Hr H. unfold bbound in H. rewrite forallb_forall in H.
  apply lt_pow2_bits. intros n Hn. pose proof (bwid_sound r e Hr) as He.
  destruct (N.lt_ge_cases n (N.of_nat (bwid (map snd r) e))) as [Hn'|Hn'].
  - replace n with (N.of_nat (w + (N.to_nat n - w))) by lia. rewrite sbit_sound by auto.
    specialize (H (N.to_nat n - w)%nat). rewrite in_seq in H.
    destruct (sbit (map snd r) e (w + (N.to_nat n - w))); auto; discriminate H; lia.
  - apply (testbit_high _ _ n He). lia.
Qed.

(** Reification. *)
Ltac pconst p :=
  match p with
  | xH => constr:(true)
  | xO ?q => pconst q
  | xI ?q => pconst q
  | _ => constr:(false)
  end.
Ltac nconst c :=
  match c with
  | N0 => constr:(true)
  | Npos ?p => pconst p
  | _ => constr:(false)
  end.

(** Width of a field: the smallest candidate lia can justify. *)
Ltac find_width x :=
  first
    [ match goal with H : x < 2 ^ N.of_nat _ |- _ => idtac end
    | assert (x < 2 ^ N.of_nat 1) by (change (2 ^ N.of_nat 1) with 2; lia)
    | assert (x < 2 ^ N.of_nat 2) by (change (2 ^ N.of_nat 2) with 4; lia)
    | assert (x < 2 ^ N.of_nat 3) by (change (2 ^ N.of_nat 3) with 8; lia)
    | assert (x < 2 ^ N.of_nat 4) by (change (2 ^ N.of_nat 4) with 16; lia)
    | assert (x < 2 ^ N.of_nat 5) by (change (2 ^ N.of_nat 5) with 32; lia)
    | assert (x < 2 ^ N.of_nat 6) by (change (2 ^ N.of_nat 6) with 64; lia)
    | assert (x < 2 ^ N.of_nat 7) by (change (2 ^ N.of_nat 7) with 128; lia)
    | assert (x < 2 ^ N.of_nat 8) by (change (2 ^ N.of_nat 8) with 256; lia)
    | assert (x < 2 ^ N.of_nat 9) by (change (2 ^ N.of_nat 9) with 512; lia)
    | assert (x < 2 ^ N.of_nat 10) by (change (2 ^ N.of_nat 10) with 1024; lia)
    | assert (x < 2 ^ N.of_nat 11) by (change (2 ^ N.of_nat 11) with 2048; lia)
    | assert (x < 2 ^ N.of_nat 12) by (change (2 ^ N.of_nat 12) with 4096; lia)
    | assert (x < 2 ^ N.of_nat 13) by (change (2 ^ N.of_nat 13) with 8192; lia)
    | assert (x < 2 ^ N.of_nat 14) by (change (2 ^ N.of_nat 14) with 16384; lia)
    | assert (x < 2 ^ N.of_nat 15) by (change (2 ^ N.of_nat 15) with 32768; lia)
    | assert (x < 2 ^ N.of_nat 16) by (change (2 ^ N.of_nat 16) with 65536; lia)
    | assert (x < 2 ^ N.of_nat 24) by (change (2 ^ N.of_nat 24) with 16777216; lia)
    | assert (x < 2 ^ N.of_nat 32) by (change (2 ^ N.of_nat 32) with 4294967296; lia)
    | assert (x < 2 ^ N.of_nat 40) by (change (2 ^ N.of_nat 40) with 1099511627776; lia)
    | assert (x < 2 ^ N.of_nat 64) by (change (2 ^ N.of_nat 64) with 18446744073709551616; lia)
    | fail 1 "no bound for" x ].

(** Collect the atoms of an expression. *)
Ltac atoms e l :=
  lazymatch e with
  | N.lor ?a ?b => let l1 := atoms a l in atoms b l1
  | N.land ?a ?b => let l1 := atoms a l in atoms b l1
  | N.shiftl ?a ?k => atoms a l
  | N.shiftr ?a ?k => atoms a l
  | _ =>
      let b := nconst e in
      match b with
      | true => l
      | false => match l with
                 | context [@cons N e _] => l
                 | _ => constr:(@cons N e l)
                 end
      end
  end.

Ltac idx x l :=
  match l with
  | cons x _ => constr:(O)
  | cons _ ?t => let r := idx x t in constr:(S r)
  end.

Ltac reify e l :=
  lazymatch e with
  | N.lor ?a ?b => let x := reify a l in let y := reify b l in constr:(BOr x y)
  | N.land ?a ?b => let x := reify a l in let y := reify b l in constr:(BAnd x y)
  | N.shiftl ?a ?k => let x := reify a l in let n := eval vm_compute in (N.to_nat k) in constr:(BShl x n)
  | N.shiftr ?a ?k => let x := reify a l in let n := eval vm_compute in (N.to_nat k) in constr:(BShr x n)
  | _ =>
      let b := nconst e in
      match b with
      | true => constr:(BConst e)
      | false => let i := idx e l in constr:(BVar i)
      end
  end.

Ltac build_env l acc k :=
  match l with
  | nil => k acc
  | cons ?x ?t =>
      find_width x;
      match goal with
      | H : x < 2 ^ N.of_nat ?w |- _ => build_env t constr:((x, w) :: acc) k
      end
  end.

Ltac rev_list l acc :=
  match l with
  | nil => acc
  | cons ?x ?t => rev_list t constr:(cons x acc)
  end.

Ltac env_proof := repeat (apply Forall_cons; [cbn [fst snd]; assumption|]); apply Forall_nil.

(** Equality of two bit expressions. *)
Ltac bits :=
  match goal with
  | |- @eq N ?a ?b =>
      let l := atoms a (@nil N) in
      let l := atoms b l in
      let rl := rev_list l (@nil N) in
      build_env rl (@nil (N * nat)) ltac:(fun env =>
        let ea := reify a l in
        let eb := reify b l in
        change (bden env ea = bden env eb);
        apply bcheck_sound; [env_proof | vm_compute; reflexivity])
  end.

(** Upper bound 2^w of a bit expression; the goal is  e < 2 ^ N.of_nat w  or  e < constant power. *)
Ltac bits_lt w :=
  match goal with
  | |- ?a < ?b =>
      let l := atoms a (@nil N) in
      let rl := rev_list l (@nil N) in
      build_env rl (@nil (N * nat)) ltac:(fun env =>
        let ea := reify a l in
        change (bden env ea < 2 ^ N.of_nat w);
        apply bbound_sound; [env_proof | vm_compute; reflexivity])
  end.

Section Test.
  Goal forall a b, a < 16 -> b <= 11 ->
    N.land (N.shiftr (N.land (N.lor (N.land (N.shiftl a 4) 255) b) 255) 4) 15 = a.
  Proof. intros. bits. Qed.
  Goal forall a b, a < 16 -> b <= 11 ->
    N.land (N.land (N.lor (N.land (N.shiftl a 4) 255) b) 255) 15 = b.
  Proof. intros. bits. Qed.
  Goal forall x, x < 65536 -> N.lor (N.shiftl (N.land (N.shiftr x 8) 255) 8) (N.land x 255) = x.
  Proof. intros. bits. Qed.
  Goal forall x, x < 65536 -> N.land (N.lor (N.shiftl x 3) 7) 255 < 256.
  Proof. intros. bits_lt 8%nat. Qed.
End Test.
