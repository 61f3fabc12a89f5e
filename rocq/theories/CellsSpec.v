(** Where the reference, control and data cells of a packet should be (ETSI TS 103 636-3, clauses 5.2.3 to 5.2.5) and
    what they should carry (clauses 6.3.2, 6.3.3), independent of how the code derives it. [b]: bandwidth, [e]: number of
    transmit streams, [t]: a stream, [l]: OFDM symbol of the packet (0 is the synchronization field), [k]: subcarrier. *)
From Verif Require Import Base PacketSizes PacketSizesSpec Cells TxCells.
Open Scope N_scope.

(** ** Positions *)
(** Occupied subcarriers are numbered from 0; the one in the middle (DC) is not used. *)
Definition occupied (b : N) : list N := filter (fun k => negb (k =? 28 * b)) (upto (56 * b + 1)).
(** Number of a subcarrier if DC is not counted. *)
Definition rank (b k : N) : N := if k <? 28 * b then k else k - 1.
(** Distance of the symbols with reference cells. *)
Definition spacing (e : N) : N := if e <=? 2 then 5 else 10.
(** First symbol with reference cells of a stream. *)
Definition first_symbol (t : N) : N := if t <? 4 then 1 else 2.
(** The symbol has reference cells of the stream. *)
Definition active (e t l : N) : bool := (first_symbol t <=? l) && ((l - first_symbol t) mod spacing e =? 0).
(** Every fourth subcarrier, moved by two from each such symbol to the next. *)
Definition is_reference (b e t l k : N) : bool :=
  active e t l && (rank b k mod 4 =? (t + 2 * ((l - first_symbol t) / spacing e)) mod 4).
Definition reference (b e t l : N) : list N := filter (is_reference b e t l) (occupied b).
(** Cells of a symbol no stream uses for reference. *)
Definition free (b e l : N) : list N :=
  filter (fun k => negb (existsb (fun t => is_reference b e t l k) (upto e))) (occupied b).
(** Control cells that did not find room in the symbols before [l], out of 98. *)
Definition pending (b e l : N) : N := 98 - sum (map (fun i => len (free b e i)) (nseq 1 (N.to_nat (l - 1)))).
(** The [U] free cells of a symbol are numbered and written in seven rows; control takes the first columns. *)
Definition numbered (ks : list N) : list (N * N) := combine (upto (len ks)) ks.
Definition first_columns (U pending : N) (jk : N * N) : bool := fst jk mod (U / 7) <? pending / 7.
Definition control_of (free : list N) (pending : N) : list N :=
  let U := len free in map snd (filter (first_columns U pending) (numbered free)).
Definition data_of (free : list N) (pending : N) : list N :=
  let U := len free in map snd (filter (fun jk => negb (first_columns U pending jk)) (numbered free)).
Definition control (b e l : N) : list N := control_of (free b e l) (pending b e l).
(** The rest is data. *)
Definition data (b e l : N) : list N := data_of (free b e l) (pending b e l).
(** Data cells in the symbols before [l]. *)
Definition data_before (b e l : N) : N := sum (map (fun i => len (data b e i)) (nseq 1 (N.to_nat (l - 1)))).

(** ** Contents *)
(** Streams of pair [p] of symbols under transmit diversity. *)
Definition stream_pairs (e : N) : list (N * N) :=
  if e =? 2 then [(0, 1)]
  else if e =? 4 then [(0, 1); (2, 3); (0, 2); (1, 3); (0, 3); (1, 2)]
  else [(0, 1); (2, 3); (4, 5); (6, 7); (0, 4); (1, 5); (2, 6); (3, 7); (0, 2); (1, 3); (4, 6); (5, 7)].
Definition stream_pair (e p : N) : N * N := nth (N.to_nat (p mod len (stream_pairs e))) (stream_pairs e) (0, 0).
(** The transmission mode uses transmit diversity for data. *)
Definition diversity (tm : N) : bool := (streams tm =? 1) && (2 <=? eff_antennas tm).

(** Control symbol [i] is sent in cell [k]: by one stream, or by a pair of streams together with its partner. *)
Definition send_control (e : N) (ik : N * N) : list write :=
  let '(i, k) := ik in
  if e =? 1 then [(0, k, Control i)]
  else let '(A, B) := stream_pair e (i / 2) in
       [(A, k, Control i); (B, k, ControlConj (i mod 2 =? 0) (partner i))].
(** Data cell number [i] of the packet: with transmit diversity symbol [i] and its partner, otherwise one symbol in each
    stream. A symbol is [bps] bits. *)
Definition send_data (tm bps : N) (ik : N * N) : list write :=
  let '(i, k) := ik in
  if diversity tm
  then let '(A, B) := stream_pair (eff_antennas tm) (i / 2) in
       [(A, k, Data (i * bps)); (B, k, DataConj (i mod 2 =? 0) (partner i * bps))]
  else map (fun j => (j, k, Data ((i * streams tm + j) * bps))) (upto (streams tm)).
Definition send_reference (b e l t : N) : list write :=
  map (fun ik => (t, snd ik, Reference (4 <=? t) ((4 * fst ik + t mod 4) mod 56))) (numbered (reference b e t l)).

(** Number the cells from [i] on. *)
Definition number_from (i : N) (ks : list N) : list (N * N) := combine (nseq i (length ks)) ks.
(** All that is written in symbol [l] of a packet. *)
Definition symbol_of (d : psdef) (l : N) : osym :=
  let b := d_b d in
  let e := eff_antennas (d_tm d) in
  mkOsym l
    (flat_map (send_control e) (number_from (98 - pending b e l) (control b e l)))
    (flat_map (send_reference b e l) (upto e))
    (flat_map (send_data (d_tm d) (bits_per_cell (d_mcs d))) (number_from (data_before b e l) (data b e l))).

(** ** What is read off the writes of a packet *)
(** Antennas a transmission mode needs (with closed-loop modes more than it has streams). *)
Definition antennas (tm : N) : N := nth (N.to_nat tm) [1; 2; 2; 2; 2; 4; 4; 4; 4; 4; 8; 8] 0.
(** Some stream uses cell [k]. *)
Definition uses (ws : list write) (k : N) : Prop := exists t v, In (t, k, v) ws.
(** The cells used by any stream. *)
Definition cells_used (ws : list write) : list N := nodup N.eq_dec (map (fun w => snd (fst w)) ws).
(** Which value goes to which stream, in order. *)
Definition sent (ws : list write) : list (N * value) := map (fun w => (fst (fst w), snd w)) ws.
(** Symbol [i] of a field sent with transmit diversity. *)
Definition diversity_pair (e : N) (plain : N -> value) (conj : bool -> N -> value) (i : N) : list (N * value) :=
  let '(A, B) := stream_pair e (i / 2) in [(A, plain i); (B, conj (i mod 2 =? 0) (partner i))].
