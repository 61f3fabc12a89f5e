(** What the RX ring buffer is supposed to hold, stated on the blocks the hardware delivered. *)
From Verif Require Import Base RxRing.
Open Scope Z_scope.

Section Spec.
  Context {S : Type}.

  (** The hardware keeps its side: at most [cM] samples per block, one array of exactly that many
      samples per antenna, no negative time. *)
  Definition block_ok (c : cfg) (b : block S) : Prop :=
    (blen b <= cM c)%nat /\ length (bdata b) = cant c /\
    Forall (fun xs => length xs = blen b) (bdata b) /\ 0 <= btime b.

  (** The timeline. Samples are numbered consecutively as long as the reported time of a block is
      within one sample of the running count. Otherwise samples were lost: numbering continues
      with the reported time, and the samples before the end of this block are given up.
      [timeline from n good bs] = (first number kept, next number, blocks kept). *)
  Fixpoint timeline (from n : Z) (good : list (block S)) (bs : list (block S))
    : Z * Z * list (block S) :=
    match bs with
    | [] => (from, n, good)
    | b :: r =>
        let n' := n + Z.of_nat (blen b) in
        if Z.abs (n - btime b) <=? 1 then timeline from n' (good ++ [b]) r
        else let e := btime b + Z.of_nat (blen b) in timeline e e [] r
    end.

  (** Sample number [t] of antenna [a]. *)
  Definition sample_at (from : Z) (good : list (block S)) (a : nat) (t : Z) : option S :=
    if t <? from then None
    else nth_error (flat_map (fun b => nth a (bdata b) []) good) (Z.to_nat (t - from)).

  (** Reading the ring at time [t]: position t mod L. *)
  Definition read (c : cfg) (st : ring S) (a : nat) (t : Z) : option S :=
    match nth_error (mem st) a with
    | Some m => nth_error m (Z.to_nat (t mod Z.of_nat (cL c)))
    | None => None
    end.
End Spec.
