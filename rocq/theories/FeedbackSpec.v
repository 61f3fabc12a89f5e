(** What a receiver of feedback relies on: the wire fields of each format and the meaning of the
    buffer status levels (ETSI TS 103 636-4, 6.2.2). *)
From Verif Require Import Base WireSpec Feedback.
Open Scope N_scope.

(** Largest buffer size of a level: 0, 16, 32, ..., 131072, anything. *)
Definition level_max (k : N) : N := if k =? 0 then 0 else if k =? 15 then 4294967295 else 8 * 2 ^ k.
(** Level 0 is the empty buffer, every other level starts above the previous one. *)
Definition level_min (k : N) : N := if k =? 0 then 0 else level_max (k - 1).
(** The level of a buffer: the smallest whose maximum is not exceeded. *)
Definition buffer_level (size k : N) : Prop :=
  k <= 15 /\ size <= level_max k /\ forall j, j < k -> level_max j < size.

(** The feedback a format selects. *)
Inductive feedback :=
| FbNone
| Fb1 (f : f1_t) | Fb2 (f : f2_t) | Fb3 (f : f3_t) | Fb4 (f : f4_t) | Fb5 (f : f5_t) | Fb6 (f : f6_t)
| FbUnknown.
Definition fb_view (fmt : N) (p : pool) : feedback :=
  match fmt with
  | 0 => FbNone
  | 1 => Fb1 (pf1 p) | 2 => Fb2 (pf2 p) | 3 => Fb3 (pf3 p)
  | 4 => Fb4 (pf4 p) | 5 => Fb5 (pf5 p) | 6 => Fb6 (pf6 p)
  | _ => FbUnknown
  end.

Definition tf_ok (t : tfb) : Prop := t = NACK \/ t = ACK.

(** Feedback that can be sent. *)
Definition fb_ok (f : feedback) : Prop :=
  match f with
  | FbNone => True
  | Fb1 f => f1_harq f <= 7 /\ tf_ok (f1_tf f) /\ f1_mcs f <= 11
  | Fb2 f => f2_cb f <= 7 /\ (f2_mimo f = single_layer \/ f2_mimo f = dual_layer) /\ f2_mcs f <= 11
  | Fb3 f => f3_harq0 f <= 7 /\ tf_ok (f3_tf0 f) /\ f3_harq1 f <= 7 /\ tf_ok (f3_tf1 f) /\ f3_mcs f <= 11
  | Fb4 f => f4_bitmap f <= 255 /\ f4_mcs f <= 11
  | Fb5 f => f5_harq f <= 7 /\ tf_ok (f5_tf f) /\ f5_mimo f <> mimo_not_defined /\ f5_cb f <= 63
  | Fb6 f => f6_harq f <= 7 /\ f6_reserved f = 0 /\ f6_mcs f <= 11
  | FbUnknown => False
  end.

Definition tf_bit (t : tfb) : N := match t with ACK => 1 | _ => 0 end.
Definition mimo_bits (t : mimo) : N :=
  match t with single_layer => 0 | dual_layer => 1 | four_layer => 2 | _ => 3 end.

(** The twelve wire bits; [level] codes the buffer size, the channel quality is MCS + 1. *)
Definition fb_fields (f : feedback) (level : N) : list (N * N) :=
  match f with
  | FbNone => [(12, 0)]
  | Fb1 f => [(3, f1_harq f); (1, tf_bit (f1_tf f)); (4, level); (4, f1_mcs f + 1)]
  | Fb2 f => [(3, f2_cb f); (1, mimo_bits (f2_mimo f)); (4, level); (4, f2_mcs f + 1)]
  | Fb3 f => [(3, f3_harq0 f); (1, tf_bit (f3_tf0 f)); (3, f3_harq1 f); (1, tf_bit (f3_tf1 f)); (4, f3_mcs f + 1)]
  | Fb4 f => [(8, f4_bitmap f); (4, f4_mcs f + 1)]
  | Fb5 f => [(3, f5_harq f); (1, tf_bit (f5_tf f)); (2, mimo_bits (f5_mimo f)); (6, f5_cb f)]
  | Fb6 f => [(3, f6_harq f); (1, 0); (4, level); (4, f6_mcs f + 1)]
  | FbUnknown => []
  end.

(** The buffer size a feedback carries; formats without one are given level 0. *)
Definition fb_buf (f : feedback) : N :=
  match f with Fb1 f => f1_buf f | Fb2 f => f2_buf f | Fb6 f => f6_buf f | _ => 0 end.
(** The same feedback with another buffer size. *)
Definition with_buf (f : feedback) (b : N) : feedback :=
  match f with
  | Fb1 f => Fb1 (mkF1 (f1_harq f) (f1_tf f) b (f1_mcs f))
  | Fb2 f => Fb2 (mkF2 (f2_cb f) (f2_mimo f) b (f2_mcs f))
  | Fb6 f => Fb6 (mkF6 (f6_harq f) (f6_reserved f) b (f6_mcs f))
  | f => f
  end.
