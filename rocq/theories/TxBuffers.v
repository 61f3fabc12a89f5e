(** Model of the TX buffers shared by the PHY worker threads and the radio's transmit thread.
    lib/src/radio/buffer_tx_pool.cpp, buffer_tx.cpp, lib/src/common/thread/lockable_outer_inner.cpp,
    the callers lib/src/phy/pool/worker_tx_rx.cpp 295-330 and lib/src/phy/tx/tx.cpp 165-297 on the PHY side and
    lib/src/radio/hw_usrp.cpp 838-1090, hw_simulator.cpp 345-575 on the radio side.

    Simplifications. Writing samples and publishing their number are one step: nothing reads samples that are
    not published. The antenna streams are one stream. The wait for a packet is a repeated scan: the counter
    tx_new_packet_cnt and its condition variable only decide when to scan. The USRP thread may look for the next
    packet before it releases the current one; here it looks afterwards. Power control and the virtual space
    are not modelled. *)
From Verif Require Import Base.
Open Scope nat_scope.

(** buffer_tx_meta.hpp 30-38 *)
Record meta := { tx_order_id : Z; tx_order_id_expect_next : Z; tx_time : Z }.
Definition meta_default : meta := {| tx_order_id := -1; tx_order_id_expect_next := -1; tx_time := -1 |}.

(** buffer_tx.hpp 73-114, lockable_outer_inner.hpp *)
Record buf := {
  b_outer : bool; b_inner : bool;
  b_len : nat;      (* tx_length_samples *)
  b_cnt : nat;      (* tx_length_samples_cnt *)
  b_meta : meta;
  b_mem : list N    (* ant_streams *)
}.

(** buffer_tx.cpp 29-62; the memory holds arbitrary old samples *)
Definition buf_new (mem : list N) : buf :=
  {| b_outer := false; b_inner := false; b_len := 0; b_cnt := 0; b_meta := meta_default; b_mem := mem |}.

(** One packet a PHY thread generates. [j_pre] and [j_post] are the values passed to
    set_tx_length_samples_cnt before and after set_transmittable: with backpressure (tx.hpp 35) nothing before,
    one per OFDM symbol and the full length after; without it the full length before and nothing after. *)
Record job := { j_meta : meta; j_samples : list N; j_pre : list nat; j_post : list nat }.

(** The transmit loop of a PHY thread: worker_tx_rx.cpp 299-333, tx.cpp 190-297 *)
Inductive filler :=
| FIdle
| FScan (i : nat) (j : job)                      (* in get_buffer_tx_to_fill, about to try buffer i *)
| FGot (i : nat) (j : job)                       (* about to call get_ant_streams *)
| FPre (i : nat) (j : job) (cs : list nat)       (* filling, not yet transmittable *)
| FMeta (i : nat) (j : job)                      (* in set_transmittable, meta data written *)
| FPost (i : nat) (j : job) (cs : list nat).     (* filling, already transmittable *)

(** The transmit thread: hw_usrp.cpp 838-1090, hw_simulator.cpp 362-495. [e]: tx_order_id_expected. *)
Inductive sender :=
| TScan (e : Z) (i : nat)                        (* in get_specific_tx_order_id_if_available, about to check buffer i *)
| TSend (e : Z) (i : nat) (done : list N)        (* samples sent so far *)
| TRead (e : Z) (i : nat).                       (* simulator only: buffer released, order not yet advanced *)

(** [announced] and [sent] are logs: the packets declared transmittable, and meta data and samples handed to the
    hardware, both in order. *)
Record sys := {
  bufs : list buf; max_len : nat; simulator : bool;
  fillers : list filler; tx : sender;
  announced : list job; sent : list (meta * list N)
}.

Definition sys_new (mems : list (list N)) (max_len nof_threads : nat) (sim : bool) : sys :=
  {| bufs := map buf_new mems; max_len := max_len; simulator := sim;
     fillers := repeat FIdle nof_threads; tx := TScan 0 0; announced := []; sent := [] |}.

(** lockable_outer_inner.cpp 27-35: try_lock_outer *)
Definition try_lock_outer (b : buf) : res (option buf) :=
  if b_outer b then Ok None
  else guard (negb (b_inner b))
    (Ok (Some {| b_outer := true; b_inner := b_inner b; b_len := b_len b; b_cnt := b_cnt b; b_meta := b_meta b; b_mem := b_mem b |})).

(** buffer_tx.cpp 70-83 *)
Definition get_ant_streams (b : buf) (len max : nat) : res buf :=
  guard (b_outer b && negb (b_inner b)) (guard (len <=? max)
    (Ok {| b_outer := b_outer b; b_inner := b_inner b; b_len := len; b_cnt := b_cnt b; b_meta := b_meta b; b_mem := b_mem b |})).

(** tx.cpp: write samples, then buffer_tx.cpp 103-108: set_tx_length_samples_cnt *)
Definition set_cnt (b : buf) (samples : list N) (c max : nat) : res buf :=
  if length (b_mem b) <? c then Oob else
  guard (c <=? max)
    (Ok {| b_outer := b_outer b; b_inner := b_inner b; b_len := b_len b; b_cnt := c; b_meta := b_meta b;
           b_mem := firstn c samples ++ skipn c (b_mem b) |}).

(** buffer_tx.cpp 85-88 *)
Definition set_meta (b : buf) (m : meta) : res buf :=
  guard (b_outer b && negb (b_inner b))
    (Ok {| b_outer := b_outer b; b_inner := b_inner b; b_len := b_len b; b_cnt := b_cnt b; b_meta := m; b_mem := b_mem b |}).

(** lockable_outer_inner.cpp 45-51: lock_inner *)
Definition lock_inner (b : buf) : res buf :=
  guard (b_outer b) (guard (negb (b_inner b))
    (Ok {| b_outer := b_outer b; b_inner := true; b_len := b_len b; b_cnt := b_cnt b; b_meta := b_meta b; b_mem := b_mem b |})).

(** buffer_tx.cpp 155-178: set_transmitted_or_abort with reset, unlock_inner and unlock_outer *)
Definition set_transmitted (b : buf) : res buf :=
  guard (b_outer b && b_inner b)
    (Ok {| b_outer := false; b_inner := false; b_len := 0; b_cnt := 0;
           b_meta := {| tx_order_id := -1; tx_order_id_expect_next := tx_order_id_expect_next (b_meta b); tx_time := -1 |};
           b_mem := b_mem b |}).

(** hw_usrp.cpp 891-898, hw_simulator.cpp 486-493 *)
Definition advance (e : Z) (m : meta) : Z :=
  if (tx_order_id_expect_next m <? 0)%Z then (e + 1)%Z else tx_order_id_expect_next m.

Definition set_buf (s : sys) (i : nat) (b : buf) : sys :=
  {| bufs := upd (bufs s) i b; max_len := max_len s; simulator := simulator s; fillers := fillers s; tx := tx s;
     announced := announced s; sent := sent s |}.
Definition set_filler (s : sys) (f : nat) (x : filler) : sys :=
  {| bufs := bufs s; max_len := max_len s; simulator := simulator s; fillers := upd (fillers s) f x; tx := tx s;
     announced := announced s; sent := sent s |}.
Definition set_tx (s : sys) (x : sender) : sys :=
  {| bufs := bufs s; max_len := max_len s; simulator := simulator s; fillers := fillers s; tx := x;
     announced := announced s; sent := sent s |}.
Definition log_announced (s : sys) (j : job) : sys :=
  {| bufs := bufs s; max_len := max_len s; simulator := simulator s; fillers := fillers s; tx := tx s;
     announced := announced s ++ [j]; sent := sent s |}.
Definition log_sent (s : sys) (p : meta * list N) : sys :=
  {| bufs := bufs s; max_len := max_len s; simulator := simulator s; fillers := fillers s; tx := tx s;
     announced := announced s; sent := sent s ++ [p] |}.

(** One step of a thread: PHY thread f starts a packet, PHY thread f continues, or the transmit thread continues
    and, when it is sending, sends up to [chunk] + 1 samples. *)
Inductive act := AStart (f : nat) (j : job) | AFill (f : nat) | ATx (chunk : nat).

Definition fill_step (s : sys) (f : nat) : res sys :=
  match nth_error (fillers s) f with
  | None | Some FIdle => Ok s
  | Some (FScan i j) =>
      match nth_error (bufs s) i with
      | None => Abort                            (* no buffer left: worker_tx_rx.cpp 308-312 *)
      | Some b =>
          do o <- try_lock_outer b ;
          match o with
          | None => Ok (set_filler s f (FScan (S i) j))
          | Some b' => Ok (set_filler (set_buf s i b') f (FGot i j))
          end
      end
  | Some (FGot i j) =>
      do b <- rd (bufs s) i ;
      do b' <- get_ant_streams b (length (j_samples j)) (max_len s) ;
      Ok (set_filler (set_buf s i b') f (FPre i j (j_pre j)))
  | Some (FPre i j (c :: cs)) =>
      do b <- rd (bufs s) i ;
      do b' <- set_cnt b (j_samples j) c (max_len s) ;
      Ok (set_filler (set_buf s i b') f (FPre i j cs))
  | Some (FPre i j []) =>
      do b <- rd (bufs s) i ;
      do b' <- set_meta b (j_meta j) ;
      Ok (set_filler (set_buf s i b') f (FMeta i j))
  | Some (FMeta i j) =>
      do b <- rd (bufs s) i ;
      do b' <- lock_inner b ;
      Ok (log_announced (set_filler (set_buf s i b') f (match j_post j with [] => FIdle | cs => FPost i j cs end)) j)
  | Some (FPost i j []) => Ok s
  | Some (FPost i j (c :: cs)) =>
      do b <- rd (bufs s) i ;
      do b' <- set_cnt b (j_samples j) c (max_len s) ;
      Ok (set_filler (set_buf s i b') f (match cs with [] => FIdle | _ => FPost i j cs end))
  end.

Definition tx_step (s : sys) (chunk : nat) : res sys :=
  match tx s with
  | TScan e i =>
      match nth_error (bufs s) i with
      | None => Ok (set_tx s (TScan e 0))        (* not found, look again *)
      | Some b =>
          if b_inner b && (tx_order_id (b_meta b) =? e)%Z then Ok (set_tx s (TSend e i []))
          else Ok (set_tx s (TScan e (S i)))
      end
  | TSend e i done =>
      do b <- rd (bufs s) i ;
      if length done =? b_len b then
        (* all samples are gone *)
        do b' <- set_transmitted b ;
        let s' := log_sent (set_buf s i b') (b_meta b, done) in
        Ok (set_tx s' (if simulator s then TRead e i else TScan (advance e (b_meta b)) 0))
      else
        (* wait_for_samples_busy_nto: buffer_tx.cpp 117-131 *)
        let target := min (length done + S chunk) (b_len b) in
        guard (target <=? b_len b)
          (if b_cnt b <? target then Ok s
           else
             (* get_ant_streams_offset: buffer_tx.cpp 133-141 *)
             guard (b_outer b && b_inner b)
               (if target <=? length (b_mem b)
                then Ok (set_tx s (TSend e i (done ++ firstn (target - length done) (skipn (length done) (b_mem b)))))
                else Oob))
  | TRead e i =>
      (* hw_simulator.cpp 486: meta data read after set_transmitted_or_abort *)
      do b <- rd (bufs s) i ;
      Ok (set_tx s (TScan (advance e (b_meta b)) 0))
  end.

Definition bstep (s : sys) (a : act) : res sys :=
  match a with
  | AStart f j =>
      match nth_error (fillers s) f with
      | Some FIdle => Ok (set_filler s f (FScan 0 j))
      | _ => Ok s
      end
  | AFill f => fill_step s f
  | ATx c => tx_step s c
  end.

Fixpoint brun (s : sys) (l : list act) : res sys :=
  match l with
  | [] => Ok s
  | a :: t => do s' <- bstep s a ; brun s' t
  end.
