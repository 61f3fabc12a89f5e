(** Model of the estimator of the best beamforming matrix: lib/src/phy/rx/rx_synced/mimo/estimator_mimo.cpp, called at the end of a packet by
    lib/src/phy/rx/rx_synced/rx_synced.cpp 412-436. The metric is RX_SYNCED_PARAM_MODE_3_7_METRIC_HIGHEST_MIN_RX_POWER and the matrices with zeros are
    left out, as configured in lib/include/dectnrp/phy/rx/rx_synced/rx_synced_param.hpp 269-284.

    Channel estimates are complex numbers whose parts are integers. Amplitudes are only compared with each other, so they are represented by their squares:
    |sum| / sqrt(s) by |sum|^2 / s, a rational. *)
From Verif Require Import Base Beamforming.
From Coq Require Import ZArith QArith.
Open Scope nat_scope.

(** rx_synced_param.hpp 269 *)
Definition n_cells : nat := 4.
Definition c_add (a b : weight) : weight := (fst a + fst b, snd a + snd b)%Z.
Definition c_mul (a b : weight) : weight := (fst a * fst b - snd a * snd b, fst a * snd b + snd a * fst b)%Z.
Definition c_abs2 (a : weight) : Z := (fst a * fst a + snd a * snd a)%Z.

(** cpp 209-232: the products of [n] cells of stage from [i] on, accumulated *)
Fixpoint accumulate (stage : list weight) (i : nat) (w : weight) (n : nat) : res weight :=
  match n with
  | O => Ok (0, 0)%Z
  | S n => do h <- rd stage i ; do s <- accumulate stage (S i) w n ; Ok (c_add (c_mul h w) s)
  end.
(** cpp 213-232: the sum over the antennas [tx], ..., [n] left *)
Fixpoint sum_tx (stage : list weight) (wm : list weight) (tx n : nat) (sum : weight) : res weight :=
  match n with
  | O => Ok sum
  | S n => do w <- at_ wm tx ; do p <- accumulate stage (tx * n_cells) w n_cells ; sum_tx stage wm (S tx) n (c_add sum p)
  end.
(** cpp 208-243: the smallest amplitude, starting from 1.0e6 *)
Fixpoint min_rx (stages : list (list weight)) (wm : list weight) (n_tx rx n : nat) (inner : Z) : res Z :=
  match n with
  | O => Ok inner
  | S n => do st <- at_ stages rx ; do s <- sum_tx st wm 0 n_tx (0, 0)%Z ;
           min_rx stages wm n_tx (S rx) n (if (c_abs2 s <? inner)%Z then c_abs2 s else inner)
  end.
(** cpp 194-268: matrices [wm], ..., [n] left. [outer]: None stands for -1.0e6, which is below every amplitude; [ret]: None for -1 *)
Fixpoint search (W : list (list weight)) (S_ : list nat) (stages : list (list weight)) (n_tx n_rx wm n : nat) (outer : option Q) (ret : option nat) : res (option nat) :=
  match n with
  | O => Ok ret
  | S n =>
      do m <- rd W wm ; do inner <- min_rx stages m n_tx 0 n_rx 1000000000000%Z ; do s <- rd S_ wm ;
      let p := Qmake inner (Pos.of_nat s) in
      if match outer with None => true | Some o => negb (Qle_bool p o) end then search W S_ stages n_tx n_rx (S wm) n (Some p) (Some wm)
      else search W S_ stages n_tx n_rx (S wm) n outer ret
  end.
(** cpp 161-273: mode_single_spatial_stream_3_7 *)
Definition mode_3_7 (w : W_t) (n_tx n_rx : nat) (stages : list (list weight)) : res nat :=
  guard (1 <? n_tx)
  (do W <- get_W_all w 1 n_tx ; do S_ <- get_scaling_all w 1 n_tx ; do a <- codebook_index_nonzero 1 n_tx ;
   guard (a <? length W)
   (do r <- search W S_ stages n_tx n_rx a (length W - a) None None ;
    match r with Some i => Ok i | None => Abort end)).

(** cpp 112-117: reset_internal; drs.cpp: 14 b cells *)
Definition step_width (b : nat) : nat := 14 * b / n_cells.
Definition step_offset (b : nat) : nat := step_width b / 2.
(** cpp 138-142: the cells of one stream into a stage from position [d] on *)
Fixpoint copy_cells (est stage : list weight) (width i d n : nat) : res (list weight) :=
  match n with
  | O => Ok stage
  | S n => do x <- rd est i ; do _ <- rd stage d ; copy_cells est (upd stage d x) width (i + width) (S d) n
  end.
(** cpp 132-143: the streams [ts], ..., [n] left, of one antenna; [ests]: its estimates per stream *)
Fixpoint stage_rx (ests : list (list weight)) (stage : list weight) (width offset ts n : nat) : res (list weight) :=
  match n with
  | O => Ok stage
  | S n => do e <- rd ests ts ; do stage <- copy_cells e stage width offset (ts * n_cells) n_cells ; stage_rx ests stage width offset (S ts) n
  end.
(** cpp 127-144 *)
Fixpoint stages_rx (ch : list (list (list weight))) (old : list (list weight)) (width offset n_ts : nat) : res (list (list weight)) :=
  match ch, old with
  | [], [] => Ok []
  | e :: ch, st :: old => do s <- stage_rx e st width offset 0 n_ts ; do r <- stages_rx ch old width offset n_ts ; Ok (s :: r)
  | _, _ => Throw
  end.
(** cpp 151-158: srsran_vec_cf_copy of the cells of stream [ts] of each antenna *)
Fixpoint transpose_ts (stages : list (list weight)) (stage : list weight) (ts rx : nat) : res (list weight) :=
  match stages with
  | [] => Ok stage
  | s :: stages => do stage <- copy_cells s stage 1 (ts * n_cells) (rx * n_cells) n_cells ; transpose_ts stages stage ts (S rx)
  end.
(** cpp 146-159: streams [ts], ..., [n] left *)
Fixpoint transpose (stages old : list (list weight)) (ts n : nat) : res (list (list weight)) :=
  match n with
  | O => Ok old
  | S n => do st <- at_ old ts ; do st <- transpose_ts stages st ts 0 ; transpose stages (upd old ts st) (S ts) n
  end.

(** The stages of the estimator. cpp 34-56: the constructor allocates them; their contents are arbitrary. *)
Record est := mkEst { m_rx : nat; m_ts_max : nat; m_stages : list (list weight); m_transp : list (list weight) }.
(** mimo_report.hpp *)
Record mimo_report := mkMimo { p_rx : nat; p_ts : nat; p_idx : nat; p_rec : nat }.
(** cpp 79-108: process_drs; [first], [last]: the indices of the streams of the last reference symbol *)
Definition process_drs (w : W_t) (m : est) (ch : list (list (list weight))) (b n_ts first last : nat) : res (est * mimo_report) :=
  guard (m_rx m =? length ch) (guard (first =? 0) (guard (n_ts =? last + 1)
  (do st <- stages_rx ch (m_stages m) (step_width b) (step_offset b) (last + 1) ;
   do tr <- transpose st (m_transp m) 0 (last + 1) ;
   do idx <- (if n_ts =? 1 then Ok 0 else mode_3_7 w n_ts (m_rx m) st) ;
   do rec <- (if m_rx m =? 1 then Ok 0 else mode_3_7 w (m_rx m) n_ts tr) ;
   Ok (mkEst (m_rx m) (m_ts_max m) st tr, mkMimo (m_rx m) n_ts idx rec)))).

(** drs.cpp 93-98: the streams of a reference symbol, the first one being 0 or 4 *)
Definition drs_last (n_ts first : nat) : nat := if first =? 0 then Nat.min (n_ts - 1) 3 else 7.
(** rx_synced.cpp 417-431: the end of a packet with valid CRC *)
Definition packet_end (w : W_t) (m : est) (ch : list (list (list weight))) (b n_ts first : nat) : res (est * mimo_report) :=
  guard (drs_last n_ts first =? n_ts - 1) (process_drs w m ch b n_ts first (drs_last n_ts first)).
