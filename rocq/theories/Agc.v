(** Model of the gain control: lib/src/phy/agc/{agc,agc_rx,agc_tx,roundrobin}.cpp and hw_t::adjust_xx_power_ant_0dBFS_tc.
    Levels in dB and dBm are multiples of a unit of which a dB has [g_dB], any number: finitely many rational levels always have
    such a unit. The logarithm mag2db() is exact: an RMS is given by its level, None: the RMS is 0. Rounding of floats is not modelled. *)
From Verif Require Import Base.
Open Scope Z_scope.

(** agc_config.hpp *)
Record agc_config := mkConfig { g_dB : Z; g_antennas : nat; g_multiple : Z; g_max : Z; g_min : Z }.
(** agc.cpp 75-80 *)
Definition is_positive_multiple (inp multiple : Z) : res bool := guard (0 <? inp) (guard (0 <? multiple) (Ok (inp mod multiple =? 0))).
(** agc.cpp 30-48. The limit of the antennas is limits.hpp dectnrp_max_nof_antennas. *)
Definition agc_new (c : agc_config) : res agc_config :=
  guard ((0 <? g_antennas c)%nat && (g_antennas c <=? 8)%nat)
  (guard (g_dB c <=? 2 * g_multiple c)
  (guard (g_multiple c <=? 5 * g_dB c)
  (guard (g_min c <=? g_max c)
  (do a <- is_positive_multiple (g_max c) (g_multiple c) ; guard a
  (do b <- is_positive_multiple (g_min c) (g_multiple c) ; guard b (Ok c)))))).
(** std::round(x / m): away from zero at a half *)
Definition round_div (x m : Z) : Z := Z.sgn x * ((2 * Z.abs x + m) / (2 * m)).
(** agc.cpp 50-73 *)
Definition quantize (c : agc_config) (x : Z) : Z :=
  let q := round_div x (g_multiple c) * g_multiple c in
  if (- g_min c <? q) && (q <? g_min c) then 0
  else if g_max c <? q then g_max c
  else if q <? - g_max c then - g_max c
  else q.

(** roundrobin.hpp, roundrobin.cpp 28-34. The constructor is called with the default for the second argument. *)
Record roundrobin := mkRobin { o_antennas : nat; o_simultaneous : nat; o_idx : nat }.
Definition roundrobin_new (n : nat) : roundrobin := mkRobin n (Nat.min 8 n) 0.
(** roundrobin.cpp 36-52 *)
Fixpoint process_loop (i : nat) (n idx : nat) (ant ret : list Z) : res (list Z * nat) :=
  match i with
  | O => Ok (ret, idx)
  | S i =>
      do x <- rd ant idx ;
      do ret <- (if x =? 0 then Ok ret else if (idx <? length ret)%nat then Ok (upd ret idx x) else Oob) ;
      process_loop i n (if (S idx =? n)%nat then 0 else S idx)%nat ant ret
  end.
Definition process (o : roundrobin) (ant : list Z) : res (list Z * roundrobin) :=
  do (ret, idx) <- process_loop (o_simultaneous o) (o_antennas o) (o_idx o) ant (repeat 0 (o_antennas o)) ;
  Ok (ret, mkRobin (o_antennas o) (o_simultaneous o) idx).

(** ant.cpp get_max, get_index_of_max: the first of the greatest *)
Fixpoint max_from (m : Z) (l : list Z) : Z := match l with [] => m | x :: l => max_from (Z.max m x) l end.
Definition get_max (l : list Z) : res Z := match l with [] => Abort | x :: l => Ok (max_from x l) end.
Definition rms_less (a b : option Z) : bool :=
  match a, b with None, Some _ => true | Some a, Some b => a <? b | _, None => false end.
Fixpoint idx_from (best : nat) (m : option Z) (i : nat) (l : list (option Z)) : nat :=
  match l with [] => best | x :: l => if rms_less m x then idx_from i x (S i) l else idx_from best m (S i) l end.
Definition index_of_max (l : list (option Z)) : res nat := match l with [] => Abort | x :: l => Ok (idx_from 0 x 1 l) end.

(** agc_rx_mode.hpp *)
Inductive mode := tune_individually | tune_collectively.
(** agc_rx.hpp: the target RMS as a level *)
Record agc_rx := mkRx { x_config : agc_config; x_robin : roundrobin; x_mode : mode; x_target : Z; x_offset : Z }.
(** agc_rx.cpp 30-43; the target is 0.1 to 1.0, -20 dB to 0 dB *)
Definition agc_rx_new (c : agc_config) (m : mode) (target offset : Z) : res agc_rx :=
  do c <- agc_new c ;
  guard (-20 * g_dB c <=? target) (guard (target <=? 0) (guard (0 <=? offset) (guard (offset <=? 20 * g_dB c)
  (Ok (mkRx c (roundrobin_new (g_antennas c)) m target offset))))).
(** agc_rx.cpp 69-91: what one antenna needs. *)
Definition rx_need (target A B power : Z) (rms : option Z) : Z :=
  Z.max (match rms with Some r => r - target | None => A - power end) (B - power).
(** agc_rx.cpp 45-121. mag2db(0) is minus infinity. *)
Definition rx_steps (g : agc_rx) (powers : list Z) (rms : list (option Z)) : res (list Z * agc_rx) :=
  let n := g_antennas (x_config g) in
  guard ((length powers =? n)%nat && (length rms =? n)%nat)
  (do A <- get_max powers ;
   let B := A - x_offset g in
   do needs <-
     (match x_mode g with
      | tune_individually => Ok (map (fun pr => rx_need (x_target g) A B (fst pr) (snd pr)) (combine powers rms))
      | tune_collectively =>
          do i <- index_of_max rms ;
          do r <- rd rms i ;
          do p <- rd powers i ;
          let D := B - p in
          Ok (repeat (match r with Some r => Z.max (r - x_target g) D | None => D end) n)
      end) ;
   do (s, o) <- process (x_robin g) (map (quantize (x_config g)) needs) ;
   Ok (s, mkRx (x_config g) o (x_mode g) (x_target g) (x_offset g))).

(** agc_tx.hpp: the factor of the OFDM amplitude as a level *)
Record agc_tx := mkTx { t_config : agc_config; t_robin : roundrobin; t_factor : Z; t_target : Z }.
(** agc_tx.cpp 28-39 *)
Definition agc_tx_new (c : agc_config) (factor target : Z) : res agc_tx :=
  do c <- agc_new c ;
  guard (-20 * g_dB c <=? factor) (guard (factor <=? 0) (guard (-80 * g_dB c <=? target) (guard (target <=? -40 * g_dB c)
  (Ok (mkTx c (roundrobin_new (g_antennas c)) factor target))))).
(** agc_tx.cpp 45-63 *)
Fixpoint rx_power_max (m : Z) (powers : list Z) (rms : list (option Z)) : Z :=
  match powers, rms with
  | p :: powers, Some r :: rms => rx_power_max (if m <? p + r then p + r else m) powers rms
  | _ :: powers, None :: rms => rx_power_max m powers rms
  | _, _ => m
  end.
(** agc_tx.cpp 41-79. [rx_powers] and [rms] of other lengths than the antennas fail an assertion in at(). *)
Definition tx_steps (g : agc_tx) (opposite : Z) (tx_powers rx_powers : list Z) (rms : list (option Z)) : res (list Z * agc_tx) :=
  let n := g_antennas (t_config g) in
  guard ((length rx_powers =? n)%nat && (length rms =? n)%nat)
  (let ideal := opposite + (t_target g - rx_power_max (-1000000 * g_dB (t_config g)) rx_powers rms) in
   do m <- get_max tx_powers ;
   let tx := m + t_factor g in
   do (s, o) <- process (t_robin g) (map (quantize (t_config g)) (repeat (ideal - tx) n)) ;
   Ok (s, mkTx (t_config g) o (t_factor g) (t_target g))).

(** hw.cpp 50-61, 71-83, for hardware that can be set to every level from [lo] to [hi] *)
Definition set_power (lo hi x : Z) : Z := Z.min hi (Z.max lo x).
Definition adjust (lo hi : Z) (powers steps : list Z) : list Z :=
  map (fun ps => if snd ps =? 0 then fst ps else set_power lo hi (fst ps + snd ps)) (combine powers steps).
