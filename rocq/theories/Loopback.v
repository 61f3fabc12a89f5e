(** Model of the loopback firmwares, which measure packet error rates over the simulated channel:
    lib/src/upper/loopback/result.cpp, tfw_loopback.cpp and the three deriving firmwares tfw_loopback_snr.cpp,
    tfw_loopback_ratio.cpp and tfw_loopback_mmie.cpp.
    Simplifications: floats are rational numbers, times and counters do not overflow, logging and the format of
    the files are left out. The random choices (time jitter) and the answer of the HARQ pool are inputs. *)
From Coq Require Import QArith Qminmax.
From Verif Require Import Base Cells.
Open Scope nat_scope.

(** ** result.{hpp,cpp} *)
Definition table := list (list Q).
Record result := { n_pcc : nat; n_plcf : nat; n_pdc : nat;
                   t_pcc : table; t_plcf : table; t_pdc : table; t_max : table; t_min : table }.
(** vector::at on a row and on its columns *)
Definition look (t : table) (r c : nat) : res Q :=
  do row <- at_chk t (N.of_nat r) ; at_chk row (N.of_nat c).
(** t.at(r).at(c) = v *)
Definition put (t : table) (r c : nat) (v : Q) : res table :=
  do row <- at_chk t (N.of_nat r) ; do _ <- at_chk row (N.of_nat c) ; Ok (upd t r (upd row c v)).
Definition filled (rows cols : nat) (v : Q) : table := repeat (repeat v cols) rows.
(** result.cpp 30-64; .at(0) of line 47 throws without a row *)
Definition result_new (rows cols : nat) : res result :=
  if rows =? 0 then Throw else
  Ok {| n_pcc := 0; n_plcf := 0; n_pdc := 0;
        t_pcc := filled rows cols (-1); t_plcf := filled rows cols (-1); t_pdc := filled rows cols (-1);
        t_max := filled rows cols (-100000000); t_min := filled rows cols 100000000 |}.
(** result.cpp 66-70 *)
Definition raise_max (x : result) (r c : nat) (v : Q) : res result :=
  do o <- look (t_max x) r c ; do t <- put (t_max x) r c (Qmax o v) ;
  Ok {| n_pcc := n_pcc x; n_plcf := n_plcf x; n_pdc := n_pdc x; t_pcc := t_pcc x; t_plcf := t_plcf x;
        t_pdc := t_pdc x; t_max := t; t_min := t_min x |}.
(** result.cpp 72-76 *)
Definition lower_min (x : result) (r c : nat) (v : Q) : res result :=
  do o <- look (t_min x) r c ; do t <- put (t_min x) r c (Qmin o v) ;
  Ok {| n_pcc := n_pcc x; n_plcf := n_plcf x; n_pdc := n_pdc x; t_pcc := t_pcc x; t_plcf := t_plcf x;
        t_pdc := t_pdc x; t_max := t_max x; t_min := t |}.
Definition q_of (n : nat) : Q := inject_Z (Z.of_nat n).
(** result.cpp 78-88 *)
Definition set_PERs (x : result) (r c n : nat) : res result :=
  do a <- put (t_pcc x) r c (1 - q_of (n_pcc x) / q_of n) ;
  do b <- put (t_plcf x) r c (1 - q_of (n_plcf x) / q_of n) ;
  do d <- put (t_pdc x) r c (1 - q_of (n_pdc x) / q_of n) ;
  Ok {| n_pcc := n_pcc x; n_plcf := n_plcf x; n_pdc := n_pdc x; t_pcc := a; t_plcf := b; t_pdc := d;
        t_max := t_max x; t_min := t_min x |}.
(** result.cpp 90-94 *)
Definition reset (x : result) : result :=
  {| n_pcc := 0; n_plcf := 0; n_pdc := 0; t_pcc := t_pcc x; t_plcf := t_plcf x; t_pdc := t_pdc x;
     t_max := t_max x; t_min := t_min x |}.
Definition counted (x : result) (a b d : nat) : result :=
  {| n_pcc := a + n_pcc x; n_plcf := b + n_plcf x; n_pdc := d + n_pdc x; t_pcc := t_pcc x; t_plcf := t_plcf x;
     t_pdc := t_pdc x; t_max := t_max x; t_min := t_min x |}.

(** ** tfw_loopback.{hpp,cpp} *)
(** The three deriving firmwares *)
Inductive kind := Snr | Ratio | Mmie.
(** What the constructors fix: tfw_loopback.cpp 64-87, 104-116, tfw_loopback_snr.cpp 34-47,
    tfw_loopback_ratio.cpp 35-51, tfw_loopback_mmie.cpp 36-60. [params] are the MCS, the power ratios in dB or
    the indices of the information elements; [turn] and [jit] are the turnaround time and the largest jitter of
    tfw_loopback.cpp 352-358 in samples, [plen] the samples of a packet, [id_a] and [id_b] the short radio
    device IDs. *)
Record config := { kd : kind; params : list Z; snrs : list Z; n_exp : nat;
                   x_to_A : Z; A_to_B : Z; B_to_C : Z; C_to_B : Z; C_to_D : Z;
                   turn : Z; jit : N; plen : Z; id_a : N; id_b : N }.
(** tfw_loopback.hpp 59-66 *)
Inductive phase := PA | PB | PC | PD | PE | PEnd.
(** A packet handed to the radio: order, time, transmitter identity, MCS, amplitude in dB and the information
    element inside. The packet carries pp.plcf_10, whose identity and MCS are those of pp (tfw_loopback.cpp
    253-262, 307-309). *)
Record packet := { k_order : nat; k_time : Z; k_from : N; k_mcs : Z; k_gain : Z; k_mmie : option Z }.
(** The members that change after construction *)
Record fw := { ph : phase; ref_t : Z; par : nat; col : nat; cnt : nat; order : nat;
               me : N; mcs : Z; res_of : result }.

(** The calls a firmware receives: work_irregular at a time, with a random number and the answers of the HARQ
    pool to the first and second request; work_pcc with header format and transmitter identity if the header is
    of type 1; work_pdc with the measured SNR. *)
Inductive event := Call (now : Z) (w : N) (a b : bool) | Pcc (h : option (N * N)) | Pdc (x : Q).
(** What can be seen from outside during a call *)
Inductive item :=
| Tuned (snr : Z)                (* the simulator's SNR was set *)
| Faded                          (* small-scale fading was drawn anew *)
| Sent (l : list packet)         (* these packets were handed to the radio *)
| Stored (row column : nat)      (* the result for this combination was stored and logged *)
| Moved                          (* the next combination was chosen *)
| Idle
| Heard (ours : bool)            (* a control header was decoded and, if ours, the packet is decoded too *)
| Decoded (x : Q).               (* a packet was decoded *)

Definition with_phase (s : fw) (p : phase) (t : Z) : fw :=
  {| ph := p; ref_t := t; par := par s; col := col s; cnt := cnt s; order := order s; me := me s; mcs := mcs s;
     res_of := res_of s |}.
Definition with_result (s : fw) (x : result) : fw :=
  {| ph := ph s; ref_t := ref_t s; par := par s; col := col s; cnt := cnt s; order := order s; me := me s;
     mcs := mcs s; res_of := x |}.

(** tfw_loopback_snr.cpp 115-119, tfw_loopback_ratio.cpp 119-123, tfw_loopback_mmie.cpp 152-156 *)
Definition A_reset (s : fw) : fw :=
  {| ph := ph s; ref_t := ref_t s; par := par s; col := col s; cnt := 0; order := order s; me := me s;
     mcs := mcs s; res_of := reset (res_of s) |}.

(** tfw_loopback.cpp 290-342: nothing is sent without a HARQ process. The random CFO is left out. *)
Definition generate (s : fw) (free : bool) (t gain : Z) (ie : option Z) : fw * list packet :=
  if free then
    ({| ph := ph s; ref_t := ref_t s; par := par s; col := col s; cnt := cnt s; order := S (order s); me := me s;
        mcs := mcs s; res_of := res_of s |},
     [{| k_order := order s; k_time := t; k_from := me s; k_mcs := mcs s; k_gain := gain; k_mmie := ie |}])
  else (s, []).
(** tfw_loopback.cpp 350-364, randomgen.cpp 92-98. The time is rounded up to a multiple of
    tx_time_multiple_64, which is 1 (tfw_loopback.cpp 113), so it stays as it is (C44). *)
Definition random_tx_time (c : config) (now : Z) (w : N) : Z :=
  (now + turn c + Z.of_N (w mod (jit c + 1)))%Z.
Definition set_mcs (s : fw) (m : Z) : fw :=
  {| ph := ph s; ref_t := ref_t s; par := par s; col := col s; cnt := cnt s; order := order s; me := me s;
     mcs := m; res_of := res_of s |}.
Definition set_me (s : fw) (i : N) : fw :=
  {| ph := ph s; ref_t := ref_t s; par := par s; col := col s; cnt := cnt s; order := order s; me := i;
     mcs := mcs s; res_of := res_of s |}.
(** tfw_loopback_snr.cpp 121-133, tfw_loopback_ratio.cpp 125-146, tfw_loopback_mmie.cpp 128-164. In the last
    one the information element is looked up when the packet is generated; it is drawn at random but not yet
    packed (lines 138-149), the packet is filled with random bytes. *)
Definition C_generate (c : config) (s : fw) (now : Z) (w : N) (a b : bool) : res (fw * list packet) :=
  let t := random_tx_time c now w in
  match kd c with
  | Snr => do m <- at_chk (params c) (N.of_nat (par s)) ; Ok (generate (set_mcs s m) a t 0%Z None)
  | Ratio =>
      do g <- at_chk (params c) (N.of_nat (par s)) ;
      let '(s1, l1) := generate (set_me s (id_a c)) a t g None in
      let '(s2, l2) := generate (set_me s1 (id_b c)) b (t + plen c)%Z 0%Z None in
      Ok (s2, l1 ++ l2)
  | Mmie =>
      if a then do i <- at_chk (params c) (N.of_nat (par s)) ; Ok (generate s a t 0%Z (Some i))
      else Ok (generate s a t 0%Z None)
  end.
(** tfw_loopback_snr.cpp 135-147, tfw_loopback_ratio.cpp 148-160, tfw_loopback_mmie.cpp 166-185: store, then
    read the parameter, the SNR and the five results for the log. *)
Definition D_save (c : config) (s : fw) : res fw :=
  do x <- set_PERs (res_of s) (par s) (col s) (n_exp c) ;
  do _ <- at_chk (params c) (N.of_nat (par s)) ;
  do _ <- at_chk (snrs c) (N.of_nat (col s)) ;
  do _ <- look (t_pcc x) (par s) (col s) ;
  do _ <- look (t_plcf x) (par s) (col s) ;
  do _ <- look (t_pdc x) (par s) (col s) ;
  do _ <- look (t_max x) (par s) (col s) ;
  do _ <- look (t_min x) (par s) (col s) ;
  Ok (with_result s x).
(** tfw_loopback_snr.cpp 149-157, tfw_loopback_ratio.cpp 162-170, tfw_loopback_mmie.cpp 187-195 *)
Definition E_next (c : config) (s : fw) : fw * bool :=
  let p := S (par s) in
  ({| ph := ph s; ref_t := ref_t s; par := p; col := col s; cnt := cnt s; order := order s; me := me s;
      mcs := mcs s; res_of := res_of s |},
   match kd c with Ratio => length (params c) <=? p | _ => p =? length (params c) end).
Definition set_col (s : fw) (j : nat) : fw :=
  {| ph := ph s; ref_t := ref_t s; par := par s; col := j; cnt := cnt s; order := order s; me := me s;
     mcs := mcs s; res_of := res_of s |}.
Definition set_cnt (s : fw) (n : nat) : fw :=
  {| ph := ph s; ref_t := ref_t s; par := par s; col := col s; cnt := n; order := order s; me := me s;
     mcs := mcs s; res_of := res_of s |}.

(** tfw_loopback.cpp 133-236 without the request at the end *)
Definition turn_state (c : config) (s : fw) (now : Z) (w : N) (a b : bool) : res (fw * item) :=
  guard (ref_t s <=? now)%Z
  match ph s with
  | PA => do v <- at_chk (snrs c) (N.of_nat (col s)) ; Ok (with_phase (A_reset s) PB (now + A_to_B c)%Z, Tuned v)
  | PB => Ok (with_phase s PC (now + B_to_C c)%Z, Faded)
  | PC =>
      do (s, l) <- C_generate c s now w a b ;
      let s := set_cnt s (S (cnt s)) in
      if cnt s <? n_exp c then Ok (with_phase s PB (now + C_to_B c)%Z, Sent l)
      else Ok (with_phase s PD (now + C_to_D c)%Z, Sent l)
  | PD =>
      guard (cnt s =? n_exp c)
      (do s' <- D_save c s ; Ok (with_phase s' PE (ref_t s'), Stored (par s) (col s)))
  | PE =>
      let s := with_phase (set_col s (S (col s))) PA (ref_t s) in
      if col s =? length (snrs c) then
        let '(s, last) := E_next c (set_col s 0) in
        Ok (if last then with_phase s PEnd (ref_t s) else s, Moved)
      else Ok (s, Moved)
  | PEnd => Ok (with_phase s PEnd (2 ^ 63 - 1)%Z, Idle)
  end.
(** tfw_loopback.cpp 230-233: the request for the next call *)
Definition request (s : fw) : option Z := match ph s with PEnd => None | _ => Some (ref_t s) end.
Definition work_irregular (c : config) (s : fw) (now : Z) (w : N) (a b : bool) : res (fw * item * option Z) :=
  do (s, i) <- turn_state c s now w a b ; Ok (s, i, request s).

(** tfw_loopback_snr.cpp 49-99, tfw_loopback_ratio.cpp 53-103, tfw_loopback_mmie.cpp 62-112. The type of the
    header tested is 1 and its format 0 (tfw_loopback.cpp 108-109). *)
Definition work_pcc (s : fw) (h : option (N * N)) : fw * bool :=
  let ours := match h with Some (fmt, from) => ((fmt =? 0) && (from =? me s))%N | None => false end in
  (with_result s (counted (res_of s) 1 (if ours then 1 else 0) 0), ours).
(** tfw_loopback_snr.cpp 101-108, tfw_loopback_ratio.cpp 105-112, tfw_loopback_mmie.cpp 114-121 *)
Definition work_pdc (s : fw) (x : Q) : res fw :=
  do r <- raise_max (counted (res_of s) 0 0 1) (par s) (col s) x ;
  do r <- lower_min r (par s) (col s) x ;
  Ok (with_result s r).

(** Constructors, then tfw_loopback.cpp 119-126 (work_start) with its request. The transmission order starts at
    0 (tpoint.cpp 46), the MCS is 1 (tfw_loopback.cpp 98). *)
Definition work_start (c : config) (t0 : Z) : res fw :=
  do x <- result_new (length (params c)) (length (snrs c)) ;
  Ok (A_reset {| ph := PA; ref_t := t0 + x_to_A c; par := 0; col := 0; cnt := 0; order := 0; me := id_a c;
                 mcs := 1; res_of := x |}).
(** tfw_loopback.cpp 247-251, tfw_loopback_snr.cpp 159-187 and the same in the other two: one file per row *)
Definition work_stop (s : fw) : option result := match ph s with PEnd => Some (res_of s) | _ => None end.

Definition step (c : config) (s : fw) (e : event) : res (fw * (event * item * option Z)) :=
  match e with
  | Call now w a b => do (s, i, r) <- work_irregular c s now w a b ; Ok (s, (e, i, r))
  | Pcc h => let '(s, b) := work_pcc s h in Ok (s, (e, Heard b, None))
  | Pdc x => do s <- work_pdc s x ; Ok (s, (e, Decoded x, None))
  end.
(** A history: any calls in any order *)
Definition entry := (event * item * option Z)%type.
Fixpoint go (c : config) (s : fw) (tr : list entry) (l : list event) : res (fw * list entry) :=
  match l with
  | [] => Ok (s, tr)
  | e :: l => do (s, o) <- step c s e ; go c s (tr ++ [o]) l
  end.
Definition run (c : config) (t0 : Z) (l : list event) : res (fw * list entry) :=
  do s <- work_start c t0 ; go c s [] l.
