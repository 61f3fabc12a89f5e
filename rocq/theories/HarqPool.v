(** Model of the HARQ process pool and of the TX and RX processes.
    lib/src/phy/harq/process_pool.cpp, process_tx.cpp, process_rx.cpp, process.cpp, buffer_rx.cpp, buffer_tx.cpp,
    lib/include/dectnrp/phy/harq/finalize.hpp, lib/src/common/thread/lockable_outer_inner.cpp

    TX and RX processes share one record; a TX pool only uses requests without a redundancy version and the
    policies PReset, PInc, PKeep, an RX pool only requests with one and PReset, PKeep, PKeepUnlessCrc. *)
From Verif Require Import Base.
Open Scope nat_scope.

(** finalize.hpp 24-34 *)
Inductive policy := PReset | PInc | PKeep | PKeepUnlessCrc.

(** constants.hpp 83-84 *)
Definition rv_max : N := 3.
Definition rv_unwrapped_max : N := 7.

(** process.hpp 55-69, process_tx.hpp 53-62, process_rx.hpp 47-51, lockable_outer_inner.hpp. Of the packet sizes
    only the number of codeblocks C is kept. [soft] is the soft buffer, per codeblock the list of what was
    combined into it since it was cleared. [ending] is a ghost flag: the thread calling
    reset_and_terminate_func is between unlock_inner and unlock_outer. *)
Record proc := {
  outer : bool; inner : bool;
  plcf_type : N; network_id : N; ps_C : nat;
  rv : N; rv_unwrapped : N; pol : policy;
  soft : list (list N);
  ending : bool
}.

(** process_tx.cpp 30-43, process_rx.cpp 25-33 *)
Definition proc_new (cmax : nat) : proc :=
  {| outer := false; inner := false; plcf_type := 0; network_id := 0; ps_C := 0; rv := 0; rv_unwrapped := 0;
     pol := PReset; soft := repeat [] cmax; ending := false |}.

(** Arguments of get_process_tx / get_process_rx. [r_sizes]: result of get_packet_sizes, as N_TB_byte and C. *)
Record request := {
  r_plcf : N; r_net : N; r_sizes : option (N * nat); r_rv : option N; r_pol : policy
}.

(** process_pool.hpp 61-63. [max_tb] is hb_tb->a_len. [scan] is the position of the for loop of a running
    get_process_tx/rx call; these calls come from the firmware, one at a time (C05), while other threads may
    finalise processes between two iterations. *)
Record hpool := { procs : list proc; max_tb : N; scan : option (nat * request) }.

Definition hpool_new (n cmax : nat) (tb : N) : hpool :=
  {| procs := repeat (proc_new cmax) n; max_tb := tb; scan := None |}.

(** lockable_outer_inner.cpp 79-85 *)
Definition fully_locked (p : proc) : bool := outer p && inner p.

(** process_pool.cpp 55-64 and 89-99: fields set after try_lock_outer succeeded, then lock_inner. *)
Definition acquire (p : proc) (r : request) (tb : N) (C : nat) (max : N) : res proc :=
  guard (negb (inner p)) (* lockable_outer_inner.cpp 29 *)
    (guard (tb <=? max)%N
      (Ok {| outer := true; inner := true; plcf_type := r_plcf r; network_id := r_net r; ps_C := C;
             rv := match r_rv r with Some v => v | None => rv p end;
             rv_unwrapped := rv_unwrapped p; pol := r_pol r; soft := soft p; ending := ending p |})).

(** process_pool.cpp 106-116 and 119-131 *)
Definition acquire_running (p : proc) (pl : policy) (v : option N) : res (option proc) :=
  guard (outer p)
    (if inner p then Ok None
     else Ok (Some {| outer := true; inner := true; plcf_type := plcf_type p; network_id := network_id p;
                      ps_C := ps_C p; rv := match v with Some x => x | None => rv p end;
                      rv_unwrapped := rv_unwrapped p; pol := pl; soft := soft p; ending := ending p |})).

(** lockable_outer_inner.cpp 59-65 *)
Definition unlock_inner (p : proc) : res proc :=
  guard (fully_locked p)
    (Ok {| outer := outer p; inner := false; plcf_type := plcf_type p; network_id := network_id p; ps_C := ps_C p;
           rv := rv p; rv_unwrapped := rv_unwrapped p; pol := pol p; soft := soft p; ending := ending p |}).

(** process_tx.cpp 65-92: set_next_rv *)
Definition set_next_rv (p : proc) : res proc :=
  guard (fully_locked p)
    (do v <- (match rv p with
              | 0 => Ok 2 | 1 => Ok 0 | 2 => Ok 3 | 3 => Ok 1 | _ => Abort
              end)%N ;
     guard (rv_unwrapped p + 1 <=? rv_unwrapped_max)%N
       (Ok {| outer := outer p; inner := inner p; plcf_type := plcf_type p; network_id := network_id p;
              ps_C := ps_C p; rv := v; rv_unwrapped := rv_unwrapped p + 1; pol := pol p; soft := soft p;
              ending := ending p |})).

(** process_tx.cpp 94-106, process_rx.cpp 56-67, process.cpp 56-62: everything up to unlock_inner. The reset of
    the soft buffer clears the first C codeblocks only (srsran_softbuffer_*_reset_cb). *)
Definition reset_and_terminate_begin (p : proc) : res proc :=
  guard (fully_locked p)
    (Ok {| outer := outer p; inner := false; plcf_type := 0; network_id := 0; ps_C := 0; rv := 0;
           rv_unwrapped := 0; pol := PReset;
           soft := repeat [] (min (ps_C p) (length (soft p))) ++ skipn (ps_C p) (soft p); ending := true |}).

(** lockable_outer_inner.cpp 51-57: unlock_outer, the end of reset_and_terminate_func *)
Definition unlock_outer (p : proc) : res proc :=
  guard (outer p) (guard (negb (inner p))
    (Ok {| outer := false; inner := inner p; plcf_type := plcf_type p; network_id := network_id p; ps_C := ps_C p;
           rv := rv p; rv_unwrapped := rv_unwrapped p; pol := pol p; soft := soft p; ending := false |})).

(** process_tx.cpp 45-63, process_rx.cpp 35-54: finalize, up to a possible unlock_outer *)
Definition finalize (p : proc) (crc : bool) : res proc :=
  match pol p with
  | PReset => reset_and_terminate_begin p
  | PInc => do p' <- set_next_rv p ; unlock_inner p'
  | PKeep => unlock_inner p
  | PKeepUnlessCrc => if crc then reset_and_terminate_begin p else unlock_inner p
  end.

Inductive hop :=
| HGet (r : request)                                 (* get_process_tx / get_process_rx is called *)
| HProbe                                             (* one iteration of its loop *)
| HRunning (id : nat) (pl : policy) (v : option N)   (* get_process_tx_running / get_process_rx_running *)
| HInfo (id : nat)                                   (* the holder reads get_rv and the process state *)
| HCode (id cb : nat) (x : N)                        (* the holder encodes or combines a codeblock *)
| HFinalize (id : nat) (crc : bool)
| HRelease (id : nat).                               (* the finalising thread executes unlock_outer *)

Inductive hout :=
| RSkip | RScan | RBusy | RNull | RGot (id : nat) | RRun (ok : bool)
| RInfo (v : N) (net : N) (C : nat) (s : list (list N)) | RDone.

Definition set_proc (q : hpool) (i : nat) (p : proc) : hpool :=
  {| procs := upd (procs q) i p; max_tb := max_tb q; scan := scan q |}.
Definition set_scan (q : hpool) (s : option (nat * request)) : hpool :=
  {| procs := procs q; max_tb := max_tb q; scan := s |}.

Definition hstep (q : hpool) (o : hop) : res (hpool * hout) :=
  match o with
  | HGet r =>
      match scan q with
      | Some _ => Ok (q, RSkip)
      | None =>
          guard ((r_plcf r =? 1) || (r_plcf r =? 2))%N
            match r_sizes r with
            | None => Abort
            | Some _ => Ok (set_scan q (Some (0, r)), RScan)
            end
      end
  | HProbe =>
      match scan q with
      | None => Ok (q, RSkip)
      | Some (i, r) =>
          match nth_error (procs q) i, r_sizes r with
          | Some p, Some (tb, C) =>
              if outer p then Ok (set_scan q (Some (S i, r)), RBusy)
              else do p' <- acquire p r tb C (max_tb q) ; Ok (set_scan (set_proc q i p') None, RGot i)
          | _, _ => Ok (set_scan q None, RNull)
          end
      end
  | HRunning id pl v =>
      match nth_error (procs q) id with
      | None => Throw
      | Some p =>
          do o <- acquire_running p pl v ;
          match o with
          | None => Ok (q, RRun false)
          | Some p' => Ok (set_proc q id p', RRun true)
          end
      end
  | HInfo id =>
      match nth_error (procs q) id with
      | None => Ok (q, RSkip)
      | Some p => guard (fully_locked p) (guard (rv p <=? rv_max)%N
                    (Ok (q, RInfo (rv p) (network_id p) (ps_C p) (soft p))))
      end
  | HCode id cb x =>
      match nth_error (procs q) id with
      | None => Ok (q, RSkip)
      | Some p =>
          do l <- rd (soft p) cb ;
          Ok (set_proc q id
                {| outer := outer p; inner := inner p; plcf_type := plcf_type p; network_id := network_id p;
                   ps_C := ps_C p; rv := rv p; rv_unwrapped := rv_unwrapped p; pol := pol p;
                   soft := upd (soft p) cb (l ++ [x]); ending := ending p |}, RDone)
      end
  | HFinalize id crc =>
      match nth_error (procs q) id with
      | None => Ok (q, RSkip)
      | Some p => do p' <- finalize p crc ; Ok (set_proc q id p', RDone)
      end
  | HRelease id =>
      match nth_error (procs q) id with
      | None => Ok (q, RSkip)
      | Some p => if ending p then do p' <- unlock_outer p ; Ok (set_proc q id p', RDone) else Ok (q, RSkip)
      end
  end.

Fixpoint hrun (q : hpool) (ops : list hop) : res (hpool * list hout) :=
  match ops with
  | [] => Ok (q, [])
  | o :: os =>
      do qr <- hstep q o ;
      do qrs <- hrun (fst qr) os ;
      Ok (fst qrs, snd qr :: snd qrs)
  end.
