(** Model of the baton and of the synchronisation workers that share it.
    lib/src/phy/pool/baton.cpp, lib/src/phy/pool/worker_sync.cpp, lib/src/phy/rx/sync/sync_chunk.cpp,
    lib/include/dectnrp/phy/rx/sync/regular_report.hpp *)
From Verif Require Import Base.
Open Scope Z_scope.

(** common/adt/miscellaneous.hpp: UNDEFINED_EARLY_64 = INT64_MIN / 8 *)
Definition UNDEFINED_EARLY_64 : Z := -1152921504606846976.

(** baton.hpp members. [b_end] is baton.chunk_time_end_64; None is its initial INT64_MAX. *)
Record baton := {
  b_n : nat;               (* nof_worker_sync *)
  b_limit : Z;             (* sync_time_unique_limit_64 *)
  b_period : nat;          (* rx_job_regular_period *)
  b_holder : nat;          (* id_holder *)
  b_last : Z;              (* sync_time_last_64 *)
  b_cnt : nat;             (* rx_job_regular_period_cnt *)
  b_end : option Z
}.

(** baton.cpp 37-55 *)
Definition baton_new (n : nat) (limit : Z) (period : nat) : baton :=
  {| b_n := n; b_limit := limit; b_period := period; b_holder := 0;
     b_last := UNDEFINED_EARLY_64; b_cnt := 0; b_end := None |}.

(** baton.cpp 62-97: one registration; the boolean tells whether this caller is the last one and calls
    work_start (token and condition variable are not part of this model, see Token.v). *)
Definition register (n cnt : nat) (reg_now now : Z) : nat * Z * bool :=
  let cnt' := S cnt in
  let reg_now' := if reg_now <? now then now else reg_now in
  (cnt', reg_now', (cnt' =? n)%nat).

(** baton.cpp 139-155: pass_on. *)
Definition pass_on (b : baton) (id : nat) : res baton :=
  guard (id =? b_holder b)%nat
    (Ok {| b_n := b_n b; b_limit := b_limit b; b_period := b_period b;
           b_holder := ((b_holder b + 1) mod b_n b)%nat;
           b_last := b_last b; b_cnt := b_cnt b; b_end := b_end b |}).

(** baton.cpp 157-169: is_sync_time_unique. *)
Definition is_sync_time_unique (b : baton) (t : Z) : baton * bool :=
  if b_limit b <? t - b_last b
  then ({| b_n := b_n b; b_limit := b_limit b; b_period := b_period b; b_holder := b_holder b;
           b_last := t; b_cnt := b_cnt b; b_end := b_end b |}, true)
  else (b, false).

(** baton.cpp 171-184: is_job_regular_due. *)
Definition is_job_regular_due (b : baton) : baton * bool :=
  if (b_period b =? 0)%nat then (b, false)
  else
    let c := S (b_cnt b) in
    let due := (c =? b_period b)%nat in
    ({| b_n := b_n b; b_limit := b_limit b; b_period := b_period b; b_holder := b_holder b;
        b_last := b_last b; b_cnt := if due then 0%nat else c; b_end := b_end b |}, due).

(** Jobs put into the job queue by the sync workers: a packet with its fine peak time, or a regular report
    (regular_report.hpp 30-34) with chunk end and last unique packet time. *)
Inductive sjob := JPacket (t : Z) | JRegular (chunk_end sync_last : Z).

(** regular_report.hpp 34 *)
Definition barrier_time (chunk_end sync_last : Z) : Z := Z.max chunk_end sync_last.

(** The search inside one chunk is abstracted by an oracle: for the chunk starting at a given time, the fine
    peak times found by successive calls of search(), and whether the last of them completed the chunk: it was
    found at the very last step of the search range, or skip_after_peak moved beyond that range (then the chunk
    is already completely processed when search() returns the packet, sync_chunk.cpp 160-167, 203, 280-283 and
    autocorrelator_detection.cpp 184-283). *)
Definition oracle := Z -> list Z * bool.

(** sync_chunk_t: chunk start and what is left to be found; [c_done] is is_chunk_completely_processed(). *)
Record chunk := { c_start : Z; c_todo : list Z; c_done : bool }.

Definition load (det : oracle) (start : Z) : chunk :=
  {| c_start := start; c_todo := fst (det start); c_done := false |}.

(** sync_chunk.cpp 125-144: wait_for_first_chunk_nto(T). C's % truncates; T is never negative. *)
Definition first_chunk (det : oracle) (len stride offset T : Z) : chunk :=
  let s := T - Z.rem T stride + offset in
  load det (if s + len <=? T then s + stride else s).

(** sync_chunk.cpp 146-278: search(). A completely processed chunk makes it jump to the worker's next chunk
    first (154-157, 291-297). *)
Definition search (det : oracle) (stride : Z) (c : chunk) : chunk * option Z :=
  let c1 := if c_done c then load det (c_start c + stride) else c in
  match c_todo c1 with
  | [] => ({| c_start := c_start c1; c_todo := []; c_done := true |}, None)
  | t :: l =>
      ({| c_start := c_start c1; c_todo := l;
          c_done := match l with [] => snd (det (c_start c1)) | _ => false end |}, Some t)
  end.

(** sync_chunk.cpp 285-289 *)
Definition chunk_time_end (len : Z) (c : chunk) : Z := c_start c + (len - 1).

(** Where a worker_sync thread is inside work(), worker_sync.cpp 116-221. *)
Inductive spc :=
| SSearch    (* 121-157, first loop *)
| SAwait     (* 160-165 *)
| SHold      (* 167-190, holding the baton *)
| SGone.

Record sworker := { w_pc : spc; w_chunk : chunk; w_buf : list Z; w_cur : option Z }.

(** [s_fin] is a ghost log of finished chunks (worker id, chunk start); [s_jobs] is what was enqueued. *)
Record ssys := {
  s_baton : baton;
  s_workers : list sworker;
  s_jobs : list sjob;
  s_fin : list (nat * Z)
}.

Section Params.
  Variable det : oracle.
  Variable len : Z.       (* chunk_length_samples *)
  Variable maxbuf : nat.  (* RX_SYNC_PARAM_MAX_NOF_BUFFERABLE_SYNC_BEFORE_ACQUIRING_BATON *)

  Definition stride (b : baton) : Z := len * Z.of_nat (b_n b).

  (** worker_sync.cpp 319-329: enqueue_job_nto, without the irregular part (IrregularQueue.v). *)
  Definition enqueue_job (bj : baton * list sjob) (t : Z) : baton * list sjob :=
    let r := is_sync_time_unique (fst bj) t in
    (fst r, if snd r then snd bj ++ [JPacket t] else snd bj).

  Inductive saction :=
  | SSearchA (i : nat)   (* one iteration of the first loop *)
  | SAcquireA (i : nat)  (* wait_to returned true: enqueue buffered packets and the current one *)
  | SStepA (i : nat)     (* one iteration of the second loop, or the end of the chunk *)
  | SQuitA (i : nat).    (* keep_running seen false: 116 or 162-164 *)

  (** worker_sync.cpp 193-220: end of a chunk. *)
  Definition finish_chunk (s : ssys) (i : nat) (c : chunk) : res (baton * list sjob) :=
    let r := is_job_regular_due (s_baton s) in
    let jobs := if snd r then s_jobs s ++ [JRegular (chunk_time_end len c) (b_last (s_baton s))] else s_jobs s in
    let b := fst r in
    guard (match b_end b with None => true | Some e => (c_start c - e =? 1) end)
      (do b' <- pass_on {| b_n := b_n b; b_limit := b_limit b; b_period := b_period b;
                           b_holder := b_holder b; b_last := b_last b; b_cnt := b_cnt b;
                           b_end := Some (chunk_time_end len c) |} i ;
       Ok (b', jobs)).

  Definition sset (s : ssys) (b : baton) (i : nat) (w : sworker) (jobs : list sjob) (fin : list (nat * Z)) : ssys :=
    {| s_baton := b; s_workers := upd (s_workers s) i w; s_jobs := jobs; s_fin := fin |}.

  Definition opt_list {A} (o : option A) : list A := match o with Some x => [x] | None => [] end.

  Definition sstep (s : ssys) (a : saction) : res (option ssys) :=
    match a with
    | SSearchA i =>
        match nth_error (s_workers s) i with
        | Some w =>
            match w_pc w with
            | SSearch =>
                let r := search det (stride (s_baton s)) (w_chunk w) in
                let w' :=
                  match snd r with
                  | Some t =>
                      if (i =? b_holder (s_baton s))%nat
                      then {| w_pc := SAwait; w_chunk := fst r; w_buf := w_buf w; w_cur := Some t |}
                      else if (length (w_buf w) <? maxbuf)%nat
                      then {| w_pc := SSearch; w_chunk := fst r; w_buf := w_buf w ++ [t]; w_cur := None |}
                      else {| w_pc := SAwait; w_chunk := fst r; w_buf := w_buf w; w_cur := Some t |}
                  | None => {| w_pc := SAwait; w_chunk := fst r; w_buf := w_buf w; w_cur := None |}
                  end in
                Ok (Some (sset s (s_baton s) i w' (s_jobs s) (s_fin s)))
            | _ => Ok None
            end
        | None => Ok None
        end
    | SAcquireA i =>
        match nth_error (s_workers s) i with
        | Some w =>
            match w_pc w with
            | SAwait =>
                if (i =? b_holder (s_baton s))%nat then
                  let bj := fold_left enqueue_job (w_buf w ++ opt_list (w_cur w)) (s_baton s, s_jobs s) in
                  Ok (Some (sset s (fst bj) i
                        {| w_pc := SHold; w_chunk := w_chunk w; w_buf := []; w_cur := None |} (snd bj) (s_fin s)))
                else Ok None
            | _ => Ok None
            end
        | None => Ok None
        end
    | SStepA i =>
        match nth_error (s_workers s) i with
        | Some w =>
            match w_pc w with
            | SHold =>
                if c_done (w_chunk w) then
                  do bj <- finish_chunk s i (w_chunk w) ;
                  Ok (Some (sset s (fst bj) i
                        {| w_pc := SSearch; w_chunk := w_chunk w; w_buf := []; w_cur := None |} (snd bj)
                        (s_fin s ++ [(i, c_start (w_chunk w))])))
                else
                  let r := search det (stride (s_baton s)) (w_chunk w) in
                  let bj := fold_left enqueue_job (opt_list (snd r)) (s_baton s, s_jobs s) in
                  Ok (Some (sset s (fst bj) i
                        {| w_pc := SHold; w_chunk := fst r; w_buf := []; w_cur := None |} (snd bj) (s_fin s)))
            | _ => Ok None
            end
        | None => Ok None
        end
    | SQuitA i =>
        match nth_error (s_workers s) i with
        | Some w =>
            match w_pc w with
            | SSearch | SAwait =>
                Ok (Some (sset s (s_baton s) i
                      {| w_pc := SGone; w_chunk := w_chunk w; w_buf := w_buf w; w_cur := w_cur w |}
                      (s_jobs s) (s_fin s)))
            | _ => Ok None
            end
        | None => Ok None
        end
    end.

  Fixpoint srun (s : ssys) (acts : list saction) : res ssys :=
    match acts with
    | [] => Ok s
    | a :: r => do o <- sstep s a ; srun (match o with Some s' => s' | None => s end) r
    end.

  (** worker_sync.cpp 42-54 and 110: n workers, chunk offset len*id, common start time T. *)
  Definition ssys_new (n : nat) (limit : Z) (period : nat) (T : Z) : ssys :=
    {| s_baton := baton_new n limit period;
       s_workers := map (fun i => {| w_pc := SSearch;
                                     w_chunk := first_chunk det len (len * Z.of_nat n) (len * Z.of_nat i) T;
                                     w_buf := []; w_cur := None |}) (seq 0 n);
       s_jobs := []; s_fin := [] |}.
End Params.
