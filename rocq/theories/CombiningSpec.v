(** What combining promises. *)
From Verif Require Import Base IntHelpers PacketSizes Cells TxCells Combining.
From Coq Require Import QArith Qcanon.
Open Scope Qc_scope.

(** The complex number behind a value of the transmitter: [ctl] and [dat] are the modulated symbols of the control and the data field. *)
Definition number (ctl dat ref : N -> C) (v : value) : C :=
  let sign (neg : bool) (z : C) := if neg then copp z else z in
  match v with
  | Control i => ctl i
  | ControlConj neg i => sign neg (conj (ctl i))
  | Reference neg j => sign neg (ref j)
  | Data b => dat b
  | DataConj neg b => sign neg (conj (dat b))
  end.
(** What stream [t] carries at subcarrier [k]: the last value written there, zero if there is none. *)
Definition carried (num : value -> C) (ws : list write) (t k : N) : C :=
  fold_left (fun acc (w : write) => let '(t', k', v) := w in if ((t' =? t) && (k' =? k))%N then num v else acc) ws c0.
Definition csum (l : list C) : C := fold_right cadd c0 l.
(** What a receive antenna gets from [n] streams over the channel [h]. *)
Definition received (h : N -> N -> C) (x : N -> N -> C) (n : N) (k : N) : C := csum (map (fun t => cmul (h t k) (x t k)) (upto n)).
(** Antennas behind the channels [hs] that know their channel. *)
Definition listen (hs : list (N -> N -> C)) (x : N -> N -> C) (n : N) : list antenna := map (fun h => mkAnt (received h x n) h) hs.

(** Cells come in pairs of subcarriers between which the channel does not change. *)
Definition flat_pairs (hs : list (N -> N -> C)) (ks : list N) : Prop :=
  forall h t i k k', In h hs -> nth_error ks (2 * i) = Some k -> nth_error ks (2 * i + 1) = Some k' -> h t k = h t k'.
(** Some antenna hears stream [t] at subcarrier [k]. *)
Definition heard (hs : list (N -> N -> C)) (t k : N) : Prop := exists h, In h hs /\ h t k <> c0.
(** At no cell are two of the [n] streams in a fade at all antennas at once. *)
Definition audible (hs : list (N -> N -> C)) (n : N) (ks : list N) : Prop :=
  forall t t' k, (t < n)%N -> (t' < n)%N -> t <> t' -> In k ks -> heard hs t k \/ heard hs t' k.
(** The cells of an OFDM symbol: increasing, occupied, not the centre. *)
Definition cells_ok (occ : N) (ks : list N) : Prop :=
  (forall i j k k', (i < j)%nat -> nth_error ks i = Some k -> nth_error ks j = Some k' -> (k < k')%N) /\ forall k, In k ks -> (k <= occ)%N /\ k <> (occ / 2)%N.
