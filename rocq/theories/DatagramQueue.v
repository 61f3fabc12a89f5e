(** Model of the application datagram queue.
    lib/src/application/queue/queue.cpp, lib/include/dectnrp/application/queue/*.hpp *)
From Verif Require Import Base.

(** lib/include/dectnrp/common/... limits: application_max_queue_datagram,
    application_max_queue_datagram_byte, application_max_queue_level_reported
    (lib/include/dectnrp/limits.hpp). *)
Definition max_queue_datagram : nat := 256.
Definition max_queue_datagram_byte : nat := 1600.
Definition max_queue_level_reported : nat := 8.

(** queue_size.hpp 29-45: queue_size_t and is_valid(). *)
Record queue_size := { N_datagram : nat; N_datagram_max_byte : nat }.

Definition queue_size_is_valid (q : queue_size) : bool :=
  negb ((N_datagram q =? 0) || (max_queue_datagram <? N_datagram q)) &&
  negb ((N_datagram_max_byte q =? 0) || (max_queue_datagram_byte <? N_datagram_max_byte q)).

(** queue.hpp 93-106: members of queue_t.  datagram_vec is the list of heap arrays, each of
    N_datagram_max_byte bytes; datagram_level_vec the list of levels. Indices and levels are uint32_t in
    the code; they are bounded by 256 and 1600, so nat is exact. *)
Record queue := {
  q_size : queue_size;
  w_idx : nat;
  r_idx : nat;
  datagram_vec : list (list N);
  datagram_level_vec : list nat
}.

(** queue.cpp 30-37: constructor. The heap arrays are uninitialised in the code; [fill] is their
    arbitrary initial byte value. *)
Definition queue_new (sz : queue_size) (fill : N) : queue :=
  {| q_size := sz; w_idx := 0; r_idx := 0;
     datagram_vec := repeat (repeat fill (N_datagram_max_byte sz)) (N_datagram sz);
     datagram_level_vec := repeat 0 (N_datagram sz) |}.

(** queue.cpp 171-178 *)
Definition get_free (q : queue) : nat :=
  if w_idx q <? r_idx q then r_idx q - w_idx q - 1
  else r_idx q + N_datagram (q_size q) - w_idx q - 1.

(** queue.cpp 180-186 *)
Definition get_used (q : queue) : nat :=
  if r_idx q <=? w_idx q then w_idx q - r_idx q
  else w_idx q + N_datagram (q_size q) - r_idx q.

(** std::memcpy(dst, src, n) onto the first n bytes of the array dst. A copy longer than either
    array is out of bounds. *)
Definition memcpy (dst src : list N) (n : nat) : res (list N) :=
  if (n <=? length dst) && (n <=? length src)
  then Ok (firstn n src ++ skipn n dst)
  else Oob.

(** queue.cpp 139-153: write_under_lock(inp, n). *)
Definition write_under_lock (q : queue) (inp : list N) (n : nat) : res (queue * nat) :=
  if get_free q =? 0 then Ok (q, 0)
  else
    guard (n <=? N_datagram_max_byte (q_size q)) (
    do old <- rd (datagram_vec q) (w_idx q) ;
    do new <- memcpy old inp n ;
    Ok ({| q_size := q_size q;
           w_idx := (w_idx q + 1) mod N_datagram (q_size q);
           r_idx := r_idx q;
           datagram_vec := upd (datagram_vec q) (w_idx q) new;
           datagram_level_vec := upd (datagram_level_vec q) (w_idx q) n |}, n)).

(** queue.cpp 155-169: read_under_lock(dst). Returns the level and, if dst is not nullptr
    ([want] = true), the bytes copied to dst. *)
Definition read_under_lock (q : queue) (want : bool) : res (queue * nat * list N) :=
  if get_used q =? 0 then Ok (q, 0, [])
  else
    do n <- rd (datagram_level_vec q) (r_idx q) ;
    do arr <- rd (datagram_vec q) (r_idx q) ;
    do out <- (if want then (if n <=? length arr then Ok (firstn n arr) else Oob) else Ok []) ;
    Ok ({| q_size := q_size q;
           w_idx := w_idx q;
           r_idx := (r_idx q + 1) mod N_datagram (q_size q);
           datagram_vec := datagram_vec q;
           datagram_level_vec := datagram_level_vec q |}, n, out).

(** queue.cpp 131-134: loop of get_queue_level_under_lock. *)
Fixpoint level_loop (q : queue) (r : nat) (k : nat) : res (list nat) :=
  match k with
  | O => Ok []
  | S k' =>
      do x <- rd (datagram_level_vec q) r ;
      do xs <- level_loop q ((r + 1) mod N_datagram (q_size q)) k' ;
      Ok (x :: xs)
  end.

(** queue.cpp 118-137: get_queue_level_under_lock(n); queue_level_t is modelled as the list of its
    N_filled valid levels. *)
Definition get_queue_level_under_lock (q : queue) (n : nat) : res (list nat) :=
  guard (n <=? max_queue_level_reported) (level_loop q (r_idx q) (min n (get_used q))).

(** queue.cpp 111-116 *)
Definition clear (q : queue) : queue :=
  {| q_size := q_size q; w_idx := 0; r_idx := 0;
     datagram_vec := datagram_vec q; datagram_level_vec := datagram_level_vec q |}.

(** Public API, queue.cpp 45-116. Every call takes the mutex, so an execution is a sequence of calls;
    the _try variants return without effect when try_lock fails ([locked] = false); a _try call whose
    try_lock succeeds behaves as the _nto call. *)
Inductive op :=
| OWrite (inp : list N) (n : nat) (locked : bool)
| ORead (want : bool) (locked : bool)
| OLevel (n : nat) (locked : bool)
| OClear.

Inductive out :=
| RWrite (n : nat)
| RRead (n : nat) (bytes : list N)
| RLevel (l : list nat)
| RClear.

Definition step (q : queue) (o : op) : res (queue * out) :=
  match o with
  | OWrite inp n true => do qn <- write_under_lock q inp n ; Ok (fst qn, RWrite (snd qn))
  | OWrite _ _ false => Ok (q, RWrite 0)
  | ORead want true =>
      do qnb <- read_under_lock q want ;
      Ok (fst (fst qnb), RRead (snd (fst qnb)) (snd qnb))
  | ORead _ false => Ok (q, RRead 0 [])
  | OLevel n true => do l <- get_queue_level_under_lock q n ; Ok (q, RLevel l)
  | OLevel _ false => Ok (q, RLevel [])
  | OClear => Ok (clear q, RClear)
  end.

(** A history of calls and the outputs it produces. *)
Fixpoint run (q : queue) (ops : list op) : res (queue * list out) :=
  match ops with
  | [] => Ok (q, [])
  | o :: os =>
      do qr <- step q o ;
      do qrs <- run (fst qr) os ;
      Ok (fst qrs, snd qr :: snd qrs)
  end.
