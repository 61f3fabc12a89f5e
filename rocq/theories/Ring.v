(** Facts about index arithmetic of a ring array in which one slot is always kept free.
    Pure mathematics shared by the proofs about the datagram queue and the job queue. *)
From Verif Require Import Base.

Section Ring.
  Context {A : Type}.

  (** Number of used slots of a ring of [n] slots with write index [w] and read index [r]. *)
  Definition ring_used (n w r : nat) : nat := if r <=? w then w - r else w + n - r.

  (** The pending elements, oldest first. *)
  Definition ring_list (l : list A) (w r : nat) (d : A) : list A :=
    map (fun i => nth ((r + i) mod length l) l d) (seq 0 (ring_used (length l) w r)).

  Definition ring_ok (n w r : nat) : Prop := w < n /\ r < n.

  Lemma ring_used_lt n w r : ring_ok n w r -> ring_used n w r < n.
  Proof. unfold ring_ok, ring_used. intros [? ?]. destruct (Nat.leb_spec r w); lia. Qed.

  Lemma mod_small_or n a : 0 < n -> a < 2 * n -> a mod n = if a <? n then a else a - n.
  Proof.
    intros Hn Ha. destruct (Nat.ltb_spec a n).
    - apply Nat.mod_small; lia.
    - replace a with ((a - n) + 1 * n) at 1 by lia.
      rewrite Nat.mod_add by lia. apply Nat.mod_small; lia.
  Qed.

  Lemma ring_used_push n w r :
    ring_ok n w r -> ring_used n w r < n - 1 ->
    ring_used n ((w + 1) mod n) r = S (ring_used n w r).
  Proof.
    intros [Hw Hr] Hu. rewrite mod_small_or by lia.
    unfold ring_used in *.
    destruct (Nat.ltb_spec (w + 1) n); destruct (Nat.leb_spec r w);
      match goal with |- context [?a <=? ?b] => destruct (Nat.leb_spec a b) end; lia.
  Qed.

  Lemma ring_used_pop n w r :
    ring_ok n w r -> 0 < ring_used n w r ->
    S (ring_used n w ((r + 1) mod n)) = ring_used n w r.
  Proof.
    intros [Hw Hr] Hu. rewrite mod_small_or by lia.
    unfold ring_used in *.
    destruct (Nat.ltb_spec (r + 1) n); destruct (Nat.leb_spec r w);
      match goal with |- context [?a <=? ?b] => destruct (Nat.leb_spec a b) end; lia.
  Qed.

  Lemma ring_idx_end n w r :
    ring_ok n w r -> (r + ring_used n w r) mod n = w.
  Proof.
    intros [Hw Hr]. unfold ring_used. destruct (Nat.leb_spec r w).
    - replace (r + (w - r)) with w by lia. apply Nat.mod_small; lia.
    - replace (r + (w + n - r)) with (w + 1 * n) by lia.
      rewrite Nat.mod_add by lia. apply Nat.mod_small; lia.
  Qed.

  Lemma ring_idx_ne n w r i :
    ring_ok n w r -> i < ring_used n w r -> (r + i) mod n <> w.
  Proof.
    intros [Hw Hr] Hi. unfold ring_used in Hi.
    rewrite mod_small_or by (destruct (Nat.leb_spec r w); lia).
    destruct (Nat.leb_spec r w); destruct (Nat.ltb_spec (r + i) n); lia.
  Qed.

  Lemma ring_list_length l w r d : length (ring_list l w r d) = ring_used (length l) w r.
  Proof. unfold ring_list. rewrite map_length, seq_length. reflexivity. Qed.

  Lemma ring_list_push l w r d x :
    ring_ok (length l) w r -> ring_used (length l) w r < length l - 1 ->
    ring_list (upd l w x) ((w + 1) mod length l) r d = ring_list l w r d ++ [x].
  Proof.
    intros Hok Hu. unfold ring_list. rewrite upd_length.
    rewrite ring_used_push by assumption.
    rewrite seq_S, map_app. cbn [map plus]. f_equal.
    - apply map_ext_in. intros i Hi. apply in_seq in Hi.
      apply nth_upd_other. intro E. symmetry in E. revert E. apply ring_idx_ne; [exact Hok | lia].
    - f_equal. rewrite ring_idx_end by exact Hok.
      apply nth_upd_same. apply Hok.
  Qed.

  Lemma ring_list_pop l w r d :
    ring_ok (length l) w r -> 0 < ring_used (length l) w r ->
    ring_list l w r d = nth r l d :: ring_list l w ((r + 1) mod length l) d.
  Proof.
    intros Hok Hu. unfold ring_list.
    rewrite <- (ring_used_pop _ _ _ Hok Hu). cbn [seq map].
    destruct Hok as [Hw Hr]. f_equal.
    - rewrite Nat.add_0_r, Nat.mod_small by lia. reflexivity.
    - rewrite <- seq_shift, map_map. apply map_ext. intros i.
      f_equal. rewrite Nat.add_mod_idemp_l by lia. f_equal. lia.
  Qed.

  Lemma ring_list_empty l r d : ring_list l r r d = [].
  Proof.
    unfold ring_list, ring_used. rewrite Nat.leb_refl, Nat.sub_diag. reflexivity.
  Qed.

  Lemma ring_ok_push n w r : ring_ok n w r -> ring_ok n ((w + 1) mod n) r.
  Proof. intros [? ?]; split; [apply Nat.mod_upper_bound|]; lia. Qed.

  Lemma ring_ok_pop n w r : ring_ok n w r -> ring_ok n w ((r + 1) mod n).
  Proof. intros [? ?]; split; [|apply Nat.mod_upper_bound]; lia. Qed.
End Ring.
