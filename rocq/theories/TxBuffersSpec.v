(** Specification of the TX buffers: what is sent, and in which order. *)
From Verif Require Import Base TxBuffers.
Open Scope nat_scope.

(** A packet as announced by a PHY thread: non-empty, fits the buffer, and the sample counter reaches the full
    length with its last update only. *)
Definition valid_job (max : nat) (j : job) : Prop :=
  0 < length (j_samples j) <= max /\
  exists init, j_pre j ++ j_post j = init ++ [length (j_samples j)] /\
    Forall (fun c => c < length (j_samples j)) init.

Definition act_ok (P : job -> Prop) (a : act) : Prop :=
  match a with AStart _ j => P j | _ => True end.

(** The packets leave in order: first id 0, then each packet names its successor's id or leaves it at plus one. *)
Fixpoint in_order (e : Z) (l : list meta) : Prop :=
  match l with
  | [] => True
  | m :: t => tx_order_id m = e /\
      in_order (if (0 <=? tx_order_id_expect_next m)%Z then tx_order_id_expect_next m else (e + 1)%Z) t
  end.

(** The firmware never overrides the order. *)
Definition no_override (j : job) : Prop := (tx_order_id_expect_next (j_meta j) < 0)%Z.

(** Thread f has been given buffer i to fill and has not finished with it / not yet declared it transmittable. *)
Definition holds (st : filler) (i : nat) : Prop :=
  match st with
  | FGot k _ | FPre k _ _ | FMeta k _ | FPost k _ _ => k = i
  | _ => False
  end.
Definition not_yet_transmittable (st : filler) (i : nat) : Prop :=
  match st with
  | FGot k _ | FPre k _ _ | FMeta k _ => k = i
  | _ => False
  end.
Definition sending (t : sender) (i : nat) : Prop :=
  match t with TSend _ k _ => k = i | _ => False end.
