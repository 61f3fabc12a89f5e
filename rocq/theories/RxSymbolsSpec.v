(** Where each soft value of a received packet should come from, independent of how the receiver goes through the symbols.
    [b]: bandwidth, [e]: number of streams, [l]: OFDM symbol, [df]: symbols after the synchronization field, [both]: the
    receiver is configured to use the reference cells on both sides of a symbol, [stride]: symbols after which it renews its
    estimate. *)
From Verif Require Import Base PacketSizes PacketSizesSpec Cells CellsSpec RxSymbols.
Open Scope N_scope.

(** Last symbol with control cells. *)
Definition control_end (b e : N) : N :=
  if pending b e 2 =? 0 then 1 else if pending b e 3 =? 0 then 2 else if pending b e 4 =? 0 then 3 else 4.
(** Streams that carry cell number [i] of a field. *)
Definition carriers (e i : N) : list N := if e =? 1 then [0] else let '(A, B) := stream_pair e (i / 2) in [A; B].

(** Reference symbol number [n] of stream [t]. *)
Definition ref_symbol (e t n : N) : N := first_symbol t + n * spacing e.
(** Estimate from the latest symbol with reference cells of the stream, made for that symbol. *)
Definition one_sided (e t l : N) : est :=
  let n := (l - first_symbol t) / spacing e in mkEst false n (first_symbol t - 1) [Some (ref_symbol e t n)].
(** A stage is a stretch of symbols from one with reference cells up to the next; that one belongs to it, the first one only
    if it is the first of the packet. *)
Definition stage_of (e l : N) : N := (l - 2) / spacing e.
Definition place_of (e l : N) : N := l - 1 - stage_of e l * spacing e.
(** Estimate from both ends of the stage of [l], in ascending order of the subcarriers, made for a symbol less than [stride]
    before [l]. *)
Definition two_sided (e stride t l : N) : est :=
  let p := stage_of e l in
  let start := if p =? 0 then 0 else 1 in
  let left := Some (ref_symbol e t p) in
  let right := Some (ref_symbol e t (p + 1)) in
  mkEst true p (place_of e l - (place_of e l - start) mod stride)
    (if (p + t mod 4 / 2) mod 2 =? 0 then [left; right] else [right; left]).
(** Stages that have reference cells of all streams at both ends. *)
Definition full (e df : N) : N := (df - (if e =? 8 then 2 else 1)) / spacing e.
(** The estimate used for symbol [l]. What comes after the last full stage uses that of its last symbol. *)
Definition estimate (e : N) (both : bool) (stride df t l : N) : est :=
  if both && (0 <? full e df) then two_sided e stride t (N.min l (1 + full e df * spacing e)) else one_sided e t l.

Definition control_take (e l : N) (ik : N * N) : take :=
  mkTake (Some l) (snd ik) (fst ik * 2) (map (fun t => (t, Some (one_sided e t l))) (carriers e (fst ik))).
(** Cell number [fst ik] of the data field is subcarrier [snd ik] of symbol [l]; [from]: the symbol it is taken from. *)
Definition data_take (e bps : N) (both : bool) (stride df from l : N) (ik : N * N) : take :=
  mkTake (Some from) (snd ik) (fst ik * bps)
    (map (fun t => (t, Some (estimate e both stride df t l))) (carriers e (fst ik))).

(** What a packet should give: its control cells and its data cells, symbol by symbol. *)
Definition control_takes (b e : N) : list take :=
  flat_map (fun l => map (control_take e l) (number_from (98 - pending b e l) (control b e l)))
           (nseq 1 (N.to_nat (control_end b e))).
Definition data_takes (from : N -> N) (b e bps : N) (both : bool) (stride df : N) : list take :=
  flat_map (fun l => map (data_take e bps both stride df (from l) l) (number_from (data_before b e l) (data b e l)))
           (nseq 1 (N.to_nat df)).
(** The symbol the receiver takes for symbol [l]: the one after it from the second stage on if there are eight streams. *)
Definition taken_for (e : N) (both : bool) (df l : N) : N :=
  if both && (e =? 8) && (12 <=? l) && (l <=? 1 + full e df * 10) then l + 1 else l.
