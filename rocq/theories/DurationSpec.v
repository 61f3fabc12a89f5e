(** Durations as fractions of a second. *)
From Verif Require Import Base Duration.
(** How many of the durations make one second (ETSI TS 103 636-3, 4.3 and 4.4). *)
Definition per_second (ec : duration_ec) : N :=
  match ec with
  | ms001 => 1000 | s001 => 1 | slot001 => 24 * 100 | subslot_u1_001 => 2 * 2400 | subslot_u2_001 => 4 * 2400
  | subslot_u4_001 => 8 * 2400 | subslot_u8_001 => 16 * 2400
  end.
(** [n] samples at [sr] samples per second last exactly [mult] such durations. *)
Definition lasts (sr : N) (ec : duration_ec) (mult n : N) : Prop := (n * per_second ec = sr * mult)%N.
