(** What the interpolation of channel estimates should do, independent of how the tables are made. *)
From Coq Require Import QArith Qabs Sorted.
From Verif Require Import Base PacketSizes Cells CellsSpec RxSymbols RxSymbolsSpec ChannelLut.
Open Scope N_scope.

(** All reference cells of stream [t] in the symbols an estimate is made of, by subcarrier and symbol, in ascending order of
    the subcarriers. *)
Definition sources (x : est) : list N := flat_map (fun o => match o with Some l => [l] | None => [] end) (e_from x).
Definition cells_for (b e t : N) (x : est) : list (N * N) :=
  flat_map (fun k => map (fun l => (k, l)) (filter (fun l => is_reference b e t l k) (sources x))) (occupied b).
(** Position of a cell relative to the stage: the first symbol of stage 0 is at time 1. *)
Definition position (e : N) (x : est) (c : N * N) : coord := mkCoord (fst c) (snd c - e_stage x * spacing e).
(** The estimates that C62 says a receiver uses for symbol [l] of a packet. *)
Definition used (e : N) (both : bool) (stride t l : N) : est := if both then two_sided e stride t l else one_sided e t l.
(** The symbol an estimate is made for. *)
Definition symbol_for (e : N) (x : est) : N := 1 + e_stage x * spacing e + e_place x.
(** Two vectors of weights are the same up to 1e-4. *)
Definition alike (u v : list Q) : Prop := Forall2 (fun x y => (Qabs (x - y) < 1 # 10000)%Q) u v.
(** [w] is a stretch of [l]. *)
Definition stretch {A} (w l : list A) : Prop := exists x y, l = x ++ w ++ y.
