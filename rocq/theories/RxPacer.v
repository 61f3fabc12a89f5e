(** Model of lib/src/phy/rx/rx_pacer.cpp and lib/src/phy/rx/localbuffer.cpp: the local buffers of a receiver, filled
    from the ring buffer of the radio layer (RxRing.v) unit by unit, either with the samples themselves (filter) or
    through the resampler (Resampler.v); of lib/src/phy/rx/rx_synced/rx_synced.cpp 218-236 and 711-746: cutting the
    resampled signal into OFDM symbols; and of the mixer, lib/src/phy/mix/mixer.cpp.
    Samples and the dot product of the resampler are arbitrary. *)
From Verif Require Import Base IntHelpers Cells RxRing Resampler.
Open Scope N_scope.

Section pacer.
Variables (smp coef : Type) (s0 : smp) (dot : list smp -> list coef -> smp).

(** rx_pacer.hpp 54-56: nof_antennas_limited, ant_streams_length_samples, ant_streams_unit_length_samples *)
Record pacer := mkPc { p_ant : nat; p_len : N; p_unit : N }.
(** rx_pacer.cpp 33-63. The division by an empty unit is undefined. *)
Definition create_pacer (ant : nat) (c : cfg) (unit : N) (rc : config coef) : res pacer :=
  guard (Nat.leb ant (cant c))
  (if unit =? 0 then Oob else
   guard (N.of_nat (cL c) mod unit =? 0)
   (guard (c_L _ rc <=? c_M _ rc)
   (guard (get_minimum_nof_input_samples _ rc <=? unit)
   (Ok (mkPc ant (N.of_nat (cL c)) unit))))).

(** localbuffer.hpp 48-53: ant_streams_time_64, cnt_w, buffer_vec *)
Record lbuf := mkLb { b_time : Z; b_cnt : N; b_mem : list (list smp) }.
(** localbuffer.cpp 31-41. [junk] is what the allocated memory contains; simplified: the same everywhere. *)
Definition create_lbuf (ant : nat) (n : N) (junk : smp) : lbuf :=
  mkLb (2 ^ 63 - 1)%Z 0 (repeat (repeat junk (N.to_nat n)) ant).

(** rx_pacer.cpp 145-160, LOCALBUFFER_FILTER; the assertion that this is the first call is not modelled. *)
Definition create_filter (p : pacer) (max : N) (junk : smp) : res lbuf :=
  do q <- ceil_divide_integer 32 max (p_unit p) ;
  Ok (create_lbuf (p_ant p) (w32 (q * p_unit p)) junk).
(** rx_pacer.cpp 164-184, LOCALBUFFER_RESAMPLE *)
Definition create_resample (p : pacer) (rc : config coef) (max : N) (junk : smp) : res lbuf :=
  do per <- pacer_bound (p_unit p) (c_L _ rc) (c_M _ rc) ;
  do q <- ceil_divide_integer 32 max per ;
  let nof_samples := w32 (per * w32 (1 + q)) in
  guard (max <=? nof_samples) (Ok (create_lbuf (p_ant p) nof_samples junk)).

(** A local buffer with the resampler, which only the one of LOCALBUFFER_RESAMPLE uses. *)
Definition st : Type := (lbuf * state smp)%type.
(** rx_pacer.cpp 187-201 *)
Definition reset_filter (t : Z) (b : lbuf) : lbuf := mkLb t 0 (b_mem b).
Definition reset_resample (rc : config coef) (t : Z) (s : st) : st :=
  (mkLb t 0 (b_mem (fst s)), reset _ _ s0 rc (snd s)).
(** rx_pacer.cpp 263 *)
Definition rewind (s : st) : st := (mkLb (b_time (fst s)) 0 (b_mem (fst s)), snd s).

(** srsran_vec_cf_copy to position [i] of a buffer *)
Definition store (m : list smp) (i : N) (x : list smp) : res (list smp) :=
  if i + len x <=? len m then Ok (put m (N.to_nat i) x) else Oob.
Fixpoint stores (ms : list (list smp)) (i : N) (xs : list (list smp)) : res (list (list smp)) :=
  match ms, xs with
  | m :: ms, x :: xs => do m <- store m i x ; do ms <- stores ms i xs ; Ok (m :: ms)
  | [], [] => Ok []
  | _, _ => Oob
  end.

(** rx_pacer.cpp 73-77 and 108-112: index and right, of type uint32_t *)
Definition index (p : pacer) (t : Z) : N := Z.to_N (Z.rem t (Z.of_N (p_len p)) mod 2 ^ 32)%Z.
Definition right (p : pacer) (t : Z) : N := w32 (p_len p + (2 ^ 32 - index p t)).

(** rx_pacer.cpp 71-104. [ring] holds the samples of the antennas of buffer_rx_t. *)
Definition filter_single_unit (p : pacer) (s : st) (ring : list (list smp)) : res st :=
  let b := fst s in
  let idx := index p (b_time b) in
  let right := right p (b_time b) in
  do m <-
    (if p_unit p <=? right then
       do xs <- mapM (fun r => slice _ r idx (p_unit p)) (firstn (p_ant p) ring) ;
       stores (b_mem b) (b_cnt b) xs
     else
       let left := p_unit p - right in
       do xs <- mapM (fun r => slice _ r idx right) (firstn (p_ant p) ring) ;
       do ys <- mapM (fun r => slice _ r 0 left) (firstn (p_ant p) ring) ;
       do m <- stores (b_mem b) (b_cnt b) xs ;
       stores m (w32 (b_cnt b + right)) ys) ;
  Ok (mkLb (b_time b) (w32 (b_cnt b + p_unit p)) m, snd s).

(** rx_pacer.cpp 106-143: the unit is read in place, or put together in ant_streams_edge, which has the length of
    a unit. The number of samples added is what the resampler returns, the same for all antennas. *)
Definition resample_single_unit (p : pacer) (rc : config coef) (s : st) (ring : list (list smp)) : res st :=
  let b := fst s in
  let idx := index p (b_time b) in
  let right := right p (b_time b) in
  do xs <-
    (if p_unit p <=? right then mapM (fun r => slice _ r idx (p_unit p)) (firstn (p_ant p) ring)
     else
       let left := p_unit p - right in
       mapM (fun r => do x <- slice _ r idx right ; do y <- slice _ r 0 left ; Ok (x ++ y)) (firstn (p_ant p) ring)) ;
  do (os, rs) <- resample _ _ dot rc (snd s) xs (p_unit p) ;
  do m <- stores (b_mem b) (b_cnt b) os ;
  Ok (mkLb (b_time b) (w32 (b_cnt b + len (hd [] os))) m, rs).

(** ** Waiting *)
(** The ring buffer is filled by another thread. [obs] are the states in which this thread meets it, one for each
    time it loads rx_time_passed_64 and one for each unit it reads.
    buffer_rx.cpp 97-118: wait_until_nto, as in RxRing.v, with the states not yet met. [None]: still waiting. *)
Fixpoint wait_loop (target : Z) (obs : list (ring smp)) : option (Z * list (ring smp)) :=
  match obs with
  | [] => None
  | o :: obs => if (rxt o <? target)%Z then wait_loop target obs else Some (rxt o, obs)
  end.
Definition wait_until_nto (target : Z) (obs : list (ring smp)) : option (Z * list (ring smp)) :=
  match obs with
  | [] => None
  | o :: obs => if (target <? rxt o)%Z then Some (rxt o, obs) else wait_loop target obs
  end.

(** What a call leaves behind: the buffer, the states not yet met and, for the statements only, the time and the
    state of the ring buffer of each unit read. [None]: still waiting. *)
Definition log : Type := list (Z * ring smp).
Definition outcome : Type := option (st * list (ring smp) * log).

(** rx_pacer.cpp 245-258 and 279-292, with filter_single_unit or resample_single_unit as [unit]; each round reads
    the ring, so there are at most as many as states *)
Fixpoint rounds (fuel : nat) (p : pacer) (unit : st -> list (list smp) -> res st) (cnt_w_min : N) (now : Z)
    (obs : list (ring smp)) (s : st) : res outcome :=
  if cnt_w_min <=? b_cnt (fst s) then Ok (Some (s, obs, []))
  else
    match fuel with
    | O => Ok None
    | S fuel =>
        let target := (b_time (fst s) + Z.of_N (p_unit p))%Z in
        match (if (now <? target)%Z then wait_until_nto target obs else Some (now, obs)) with
        | Some (now, o :: obs) =>
            do (b, rs) <- unit s (mem o) ;
            do r <- rounds fuel p unit cnt_w_min now obs (mkLb target (b_cnt b) (b_mem b), rs) ;
            Ok (match r with Some (s', obs, l) => Some (s', obs, (b_time (fst s), o) :: l) | None => None end)
        | _ => Ok None
        end
    end.
(** rx_pacer.cpp 231-261 and 265-295; the value returned is cnt_w *)
Definition until_nto (p : pacer) (unit : st -> list (list smp) -> res st) (cnt_w_min : N)
    (obs : list (ring smp)) (s : st) : res outcome :=
  if cnt_w_min <=? b_cnt (fst s) then Ok (Some (s, obs, []))
  else match obs with
       | [] => Ok None
       | o :: obs => rounds (length obs) p unit cnt_w_min (rxt o) obs s
       end.
Definition filter_until_nto (p : pacer) := until_nto p (filter_single_unit p).
Definition resample_until_nto (p : pacer) (rc : config coef) := until_nto p (resample_single_unit p rc).

(** Several calls with the given arguments; the results are the values returned. *)
Fixpoint filter_calls (p : pacer) (mins : list N) (obs : list (ring smp)) (s : st)
  : res (option (st * list (ring smp) * log * list N)) :=
  match mins with
  | [] => Ok (Some (s, obs, [], []))
  | m :: mins =>
      do r <- filter_until_nto p m obs s ;
      match r with
      | None => Ok None
      | Some (s, obs, l) =>
          do r' <- filter_calls p mins obs s ;
          Ok (match r' with
              | Some (s', obs, l', ns) => Some (s', obs, l ++ l', b_cnt (fst s) :: ns)
              | None => None
              end)
      end
  end.

(** ** Symbols *)
(** mixer.cpp 47-65: every antenna starts with the same phase. The phase, its rotation of a sample and its advance
    are arbitrary. Simplified: volk also normalizes the phase now and then. *)
Variables (phase : Type) (rot : phase -> smp -> smp) (adv : phase -> phase).
Fixpoint mix (ph : phase) (x : list smp) : list smp * phase :=
  match x with
  | [] => ([], ph)
  | y :: x => let (o, ph') := mix (adv ph) x in (rot ph y :: o, ph')
  end.
(** The phase left behind is the one of the last antenna. *)
Fixpoint mix_all (ph last : phase) (xs : list (list smp)) : list (list smp) * phase :=
  match xs with
  | [] => ([], last)
  | x :: xs => let (o, l) := mix ph x in let (os, l') := mix_all ph l xs in (o :: os, l')
  end.

(** rx_synced.hpp: localbuffer_cnt_w, localbuffer_cnt_r, mixer *)
Record cutter := mkCut { k_w : N; k_r : N; k_ph : phase }.
(** rx_synced.cpp 711-742. [stage] is the length of the buffers of mixer_stage, [n] the length of the symbol. *)
Definition run_mix_resample (p : pacer) (rc : config coef) (stage n : N) (obs : list (ring smp)) (s : st) (k : cutter)
  : res (option (st * list (ring smp) * log * cutter * list (list smp))) :=
  let have := w32 (k_w k + (2 ^ 32 - k_r k)) in
  if n <=? have then
    do xs <- mapM (fun m => slice _ m (k_r k) n) (b_mem (fst s)) ;
    if n <=? stage then
      let (ys, ph) := mix_all (k_ph k) (k_ph k) xs in
      Ok (Some (s, obs, [], mkCut (k_w k) (w32 (k_r k + n)) ph, ys))
    else Oob
  else
    do xs <- mapM (fun m => slice _ m (k_r k) have) (b_mem (fst s)) ;
    if have <=? stage then
      let (ys, ph) := mix_all (k_ph k) (k_ph k) xs in
      let need := n - have in
      do r <- resample_until_nto p rc need obs (rewind s) ;
      match r with
      | None => Ok None
      | Some (s, obs, l) =>
          do us <- mapM (fun m => slice _ m 0 need) (b_mem (fst s)) ;
          if have + need <=? stage then
            let (vs, ph) := mix_all ph ph us in
            Ok (Some (s, obs, l, mkCut (b_cnt (fst s)) need ph, map (fun q => fst q ++ snd q) (combine ys vs)))
          else Oob
      end
    else Oob.

(** rx_synced.cpp 285, 507, 1065 and 1141: the symbols of a packet. Before each of them the mixer may be changed
    (555, 851). The samples of the symbols are the result. *)
Fixpoint symbols (p : pacer) (rc : config coef) (stage : N) (ns : list (N * (phase -> phase))) (obs : list (ring smp))
    (s : st) (k : cutter) : res (option (st * log * list (list (list smp)))) :=
  match ns with
  | [] => Ok (Some (s, [], []))
  | (n, adj) :: ns =>
      do r <- run_mix_resample p rc stage n obs s (mkCut (k_w k) (k_r k) (adj (k_ph k))) ;
      match r with
      | None => Ok None
      | Some (s, obs, l, k, y) =>
          do r' <- symbols p rc stage ns obs s k ;
          Ok (match r' with Some (s', l', ys) => Some (s', l ++ l', y :: ys) | None => None end)
      end
  end.
(** rx_synced.cpp 218-239: a packet that starts at time [t] *)
Definition packet (p : pacer) (rc : config coef) (stage : N) (t : Z) (ph : phase) (ns : list (N * (phase -> phase)))
    (obs : list (ring smp)) (s : st) : res (option (st * log * list (list (list smp)))) :=
  symbols p rc stage ns obs (reset_resample rc t s) (mkCut 0 0 ph).

(** Calls of resample_until_nto as in sync_chunk.cpp 164, 184 and 309, and rewinding *)
Inductive call := Until (cnt_w_min : N) | Rewind.
Fixpoint resample_calls (p : pacer) (rc : config coef) (cs : list call) (obs : list (ring smp)) (s : st)
  : res (option (st * list (ring smp) * log * list N)) :=
  match cs with
  | [] => Ok (Some (s, obs, [], []))
  | Rewind :: cs => resample_calls p rc cs obs (rewind s)
  | Until m :: cs =>
      do r <- resample_until_nto p rc m obs s ;
      match r with
      | None => Ok None
      | Some (s, obs, l) =>
          do r' <- resample_calls p rc cs obs s ;
          Ok (match r' with
              | Some (s', obs, l', ns) => Some (s', obs, l ++ l', b_cnt (fst s) :: ns)
              | None => None
              end)
      end
  end.
End pacer.

(** rx_pacer.cpp 204-224, built with ENABLE_ASSERT, with rx_pacer_param.hpp 23 and 25. [start] is
    search_time_start_64, [now] the clock of the ring buffer, [t] the time to check. *)
Definition assert_time_lag (p : pacer) (samp_rate : N) (start now t : Z) : res unit :=
  guard (t <=? now)%Z
  (if (start + Z.of_N samp_rate * 2500 / 1000 <=? now)%Z then Ok tt
   else guard (now - t <=? Z.of_N (p_len p) * 9 / 10)%Z (Ok tt)).
