(** What a gain control should do. *)
From Verif Require Import Base Agc.
Open Scope Z_scope.

(** A need so small that nothing is changed. *)
Definition dead (c : agc_config) (need : Z) : Prop := 2 * Z.abs need < 2 * g_min c - g_multiple c.
(** The step for a need: none if it is small, else in its direction, a multiple of the unit, between the smallest and the largest
    step, and the closest to the need unless this is larger than the largest. *)
Definition step_for (c : agc_config) (need s : Z) : Prop :=
  (dead c need -> s = 0) /\
  (~ dead c need -> 0 < s * need /\ g_min c <= Z.abs s <= g_max c /\ (g_multiple c | s) /\
     (2 * Z.abs (s - need) <= g_multiple c \/ Z.abs s = g_max c /\ Z.abs s <= Z.abs need)).

Definition greatest (m : Z) (l : list Z) : Prop := In m l /\ Forall (fun x => x <= m) l.
Definition smallest (m : Z) (l : list Z) : Prop := In m l /\ Forall (fun x => m <= x) l.

(** What an antenna needs in reception: its RMS at the target; without RMS, to be as sensitive as the least sensitive antenna. In
    any case it must not be more sensitive than this one by more than the offset. Powers at 0 dBFS are high if the sensitivity is low. *)
Definition rx_wants (target offset A power : Z) (rms : option Z) : Z :=
  let level := match rms with Some r => r - target | None => A - power end in
  Z.max level (A - offset - power).
(** No antenna has a greater RMS, and none before has the same. *)
Definition strongest (i : nat) (rms : list (option Z)) : Prop :=
  (i < length rms)%nat /\
  forall j, (j < length rms)%nat ->
    match nth i rms None, nth j rms None with
    | Some a, Some b => b <= a /\ ((j < i)%nat -> b < a)
    | None, Some _ => False
    | _, None => True
    end.

(** Powers at 0 dBFS after some packets at constant signal levels, when every antenna has measured its RMS. *)
Fixpoint rx_loop (lo hi : Z) (levels : list Z) (n : nat) (g : agc_rx) (powers : list Z) : res (list Z) :=
  match n with
  | O => Ok powers
  | S n =>
      do (s, g) <- rx_steps g powers (map (fun lp => Some (fst lp - snd lp)) (combine levels powers)) ;
      rx_loop lo hi levels n g (adjust lo hi powers s)
  end.
(** The same for transmission: each packet was sent with some power, arrives on every antenna with its own path loss, and is
    measured with some setting of the receiver. *)
Fixpoint tx_loop (lo hi : Z) (losses : list Z) (packets : list (Z * list Z)) (g : agc_tx) (powers : list Z) : res (list Z) :=
  match packets with
  | [] => Ok powers
  | (opposite, rx_powers) :: packets =>
      do (s, g) <- tx_steps g opposite powers rx_powers (map (fun lp => Some (opposite - fst lp - snd lp)) (combine losses rx_powers)) ;
      tx_loop lo hi losses packets g (adjust lo hi powers s)
  end.
(** As close to the wanted level as the dead band asks for, or at the end of the range. *)
Definition settled (c : agc_config) (lo hi want p : Z) : Prop := dead c (want - p) \/ (p = hi /\ hi < want) \/ (p = lo /\ want < lo).
