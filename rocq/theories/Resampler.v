(** Model of lib/src/phy/resample/resampler.cpp: the rational resampler resampler_t.
    Samples, filter coefficients and the dot product (volk_32fc_32f_dot_prod_32fc_u) are arbitrary: the model
    has no arithmetic on samples, so what is proved holds bit by bit for any deterministic dot product.
    Not modelled: the design of the filter (filter::kaiser), its result [h], already scaled by L, is a parameter. *)
From Verif Require Import Base IntHelpers Cells.
Open Scope N_scope.

Definition w32 (x : N) : N := x mod 2 ^ 32.

(** ** Order of the subfilters *)
(** resampler.cpp 206-209: one input sample. The loop ends after at most L rounds when M is positive. *)
Fixpoint tab_row (fuel : nat) (L M idx : N) : list N * N :=
  match fuel with
  | O => ([], idx)
  | S fuel => if idx <? L then let (r, i) := tab_row fuel L M (w32 (idx + M)) in (idx :: r, i) else ([], idx)
  end.
(** resampler.cpp 203-221: the loop over the input samples of one period, [fuel] rounds at most *)
Fixpoint tab_rows (fuel : nat) (L M period idx : N) : list (list N) :=
  match fuel with
  | O => []
  | S fuel =>
      if period <? M then
        let (row, i) := tab_row (S (N.to_nat L)) L M idx in
        if w32 (2 * L) <=? i then row :: [] :: tab_rows fuel L M (period + 2) (i mod L)
        else row :: tab_rows fuel L M (period + 1) (i mod L)
      else []
  end.
(** resampler.cpp 224-227 *)
Definition tab_count (t : list (list N)) : N := fold_right (fun r n => len r + n) 0 t.

(** ** Manually unrolled loops *)
(** One line of an unrolled loop: a dot product with subfilter [l] that does or does not advance the input, or
    only the advance. *)
Inductive instr := Dot (l : N) (adv : bool) | Adv.
(** resampler.cpp 464-473 *)
Definition body_L10M9_223 : list instr :=
  [Dot 1 true; Dot 0 false; Dot 9 true; Dot 8 true; Dot 7 true; Dot 6 true; Dot 5 true; Dot 4 true; Dot 3 true; Dot 2 true].
(** resampler.cpp 491-500 *)
Definition body_L9M10_223 : list instr :=
  [Dot 3 true; Dot 4 true; Dot 5 true; Dot 6 true; Dot 7 true; Dot 8 true; Adv; Dot 0 true; Dot 1 true; Dot 2 true].
(** resampler.cpp 518-527 *)
Definition body_L10M9_45 : list instr :=
  [Dot 2 true; Dot 1 true; Dot 0 false; Dot 9 true; Dot 8 true; Dot 7 true; Dot 6 true; Dot 5 true; Dot 4 true; Dot 3 true].
(** resampler.cpp 545-554 *)
Definition body_L9M10_45 : list instr :=
  [Dot 4 true; Dot 5 true; Dot 6 true; Dot 7 true; Dot 8 true; Adv; Dot 0 true; Dot 1 true; Dot 2 true; Dot 3 true].

(** dispatcher_LXMX: the generic loop or an unrolled one with the length of the dot product *)
Inductive impl := Generic | Unrolled (body : list instr) (n : N).
(** resampler.cpp 268-277 *)
Definition dispatch (L M filter_length : N) : impl :=
  if (L =? 10) && (M =? 9) && (filter_length =? 223) then Unrolled body_L10M9_223 23
  else if (L =? 9) && (M =? 10) && (filter_length =? 223) then Unrolled body_L9M10_223 25
  else if (L =? 10) && (M =? 9) && (filter_length =? 45) then Unrolled body_L10M9_45 5
  else if (L =? 9) && (M =? 10) && (filter_length =? 45) then Unrolled body_L9M10_45 5
  else Generic.

Section resampler.
Variables (smp coef : Type) (s0 : smp) (f0 : coef) (dot : list smp -> list coef -> smp).

(** resampler.hpp 97-99, 141-152: what does not change after construction *)
Record config := mkCfg {
  c_L : N; c_M : N;
  c_sub_len : N;              (* subfilter_length *)
  c_sub : list (list coef);   (* subfilters *)
  c_skip : N;                 (* N_skip_input_samples_front *)
  c_tab : list (list N);      (* subfilter_indices *)
  c_hist : N;                 (* history_length *)
  c_impl : impl               (* dispatcher_LXMX *)
}.
(** resampler.hpp 146, 153-157: what does *)
Record state := mkSt {
  r_hist : list (list smp);   (* history_vec *)
  r_skip : N;                 (* N_skip_input_samples_current *)
  r_cnt : N                   (* input_sample_cnt *)
}.

(** srsran_vec_cf_copy: [n] samples starting at position [p] of a buffer *)
Definition slice (b : list smp) (p n : N) : res (list smp) :=
  if p + n <=? len b then Ok (firstn (N.to_nat n) (skipn (N.to_nat p) b)) else Oob.

(** resampler.cpp 359-367 *)
Definition reset (c : config) (s : state) : state :=
  mkSt (map (fun v => repeat s0 (N.to_nat (c_hist c)) ++ skipn (N.to_nat (c_hist c)) v) (r_hist s)) (c_skip c) 0.

(** resampler.cpp 128-139: subfilter [l], mirrored *)
Definition subfilter (h : list coef) (L sub_len l : N) : res (list coef) :=
  do f <- mapM (fun k => at_idx h (l + k * L)) (upto sub_len) ; Ok (rev f).
(** resampler.cpp 56-298. [junk] is what the allocated history buffers contain, one list for each of the
    N_TX_max antennas; it must have twice the length of the history. The checks of the pass and stop band
    (81-83), which depend on floating point parameters only, are taken as passed. *)
Definition create (L M : N) (h : list coef) (junk : list (list smp)) : res (config * state) :=
  if (L =? 1) && (M =? 1) then
    let c := mkCfg L M 0 [] 0 [] 0 Generic in Ok (c, reset c (mkSt [] 0 0))
  else
    let filter_length := len h in
    guard (negb (filter_length mod 2 =? 0))
    (let filter_delay := (filter_length - 1) / 2 in
     do q <- ceil_divide_integer 32 filter_length L ;
     let n_append_zeros := w32 (q * L) - filter_length in
     let sub_len := (filter_length + n_append_zeros) / L in
     do subs <- mapM (subfilter (h ++ repeat f0 (N.to_nat n_append_zeros)) L sub_len) (upto L) ;
     let skip := filter_delay / L in
     let tab := tab_rows (N.to_nat M) L M 0 (filter_delay mod L) in
     guard (tab_count tab =? L)
     (let hist := sub_len - 1 in
      guard (skip <=? hist)
      (let c := mkCfg L M sub_len subs skip tab hist (dispatch L M filter_length) in
       Ok (c, reset c (mkSt junk 0 0))))).

(** resampler.hpp 73 *)
Definition get_minimum_nof_input_samples (c : config) : N := c_hist c.
(** resampler.cpp 312-328 *)
Definition get_N_samples_after_resampling (c : config) (n : N) : res N :=
  let eff := (c_hist c + n + (2 ^ 32 - c_skip c)) mod 2 ^ 32 in
  let mult := eff / c_M c in
  let resid := eff - mult * c_M c in
  do rows <- mapM (at_idx (c_tab c)) (upto resid) ;
  Ok (fold_left (fun n r => w32 (n + len r)) rows (w32 (mult * c_L c))).

(** volk_32fc_32f_dot_prod_32fc_u of [n] samples at position [p] with subfilter [l]. The subfilters have the
    length subfilter_length, reading more than that is out of bounds. *)
Definition dot_at (c : config) (b : list smp) (p l n : N) : res smp :=
  do f <- at_idx (c_sub c) l ; do w <- slice b p n ;
  if n <=? len f then Ok (dot w (firstn (N.to_nat n) f)) else Oob.
(** resampler.cpp 433-454: [n] input samples from position [p], with input_sample_cnt = [cnt]. The results are
    the output samples and the new input_sample_cnt. *)
Fixpoint generic (c : config) (b : list smp) (n : nat) (p cnt : N) : res (list smp * N) :=
  match n with
  | O => Ok ([], cnt)
  | S n =>
      do row <- at_idx (c_tab c) cnt ;
      do o <- mapM (fun l => dot_at c b p l (c_sub_len c)) row ;
      do (o', cnt') <- generic c b n (p + 1) ((cnt + 1) mod c_M c) ;
      Ok (o ++ o', cnt')
  end.
(** The body of an unrolled loop, from position [p]. *)
Fixpoint exec (c : config) (b : list smp) (n : N) (body : list instr) (p : N) : res (list smp * N) :=
  match body with
  | [] => Ok ([], p)
  | Adv :: body => exec c b n body (p + 1)
  | Dot l adv :: body =>
      do y <- dot_at c b p l n ;
      do (o, p') <- exec c b n body (if adv then p + 1 else p) ; Ok (y :: o, p')
  end.
Fixpoint exec_times (c : config) (b : list smp) (n : N) (body : list instr) (k : nat) (p : N) : res (list smp) :=
  match k with
  | O => Ok []
  | S k => do (o, p') <- exec c b n body p ; do o' <- exec_times c b n body k p' ; Ok (o ++ o')
  end.
(** resampler.cpp 40-52 and 456-562, and the call through dispatcher_LXMX *)
Definition run_impl (c : config) (b : list smp) (n p cnt : N) : res (list smp * N) :=
  match c_impl c with
  | Generic => generic c b (N.to_nat n) p cnt
  | Unrolled body k =>
      let cnt_in := N.min n (c_M c - cnt) in
      do (o1, cnt) <- generic c b (N.to_nat cnt_in) p cnt ;
      let full_M := (n - cnt_in) / c_M c in
      do o2 <- exec_times c b k body (N.to_nat full_M) (p + cnt_in) ;
      let cnt_in := cnt_in + full_M * c_M c in
      if cnt_in <? n then
        do (o3, cnt) <- generic c b (N.to_nat (n - cnt_in)) (p + cnt_in) cnt ; Ok (o1 ++ o2 ++ o3, cnt)
      else Ok (o1 ++ o2, cnt)
  end.

(** resampler.cpp 406-425: one antenna. [v] is its history, [x] its input of [n] samples. The results are the
    output samples, the new history and the new input_sample_cnt. *)
Definition antenna (c : config) (skip cnt n : N) (v x : list smp) : res (list smp * list smp * N) :=
  let H := c_hist c in
  do new <- slice x 0 H ;
  do old <- slice v 0 H ;
  do (o1, cnt) <- run_impl c (old ++ new) (H - skip) skip cnt ;
  do (o2, cnt) <- run_impl c x (n - H) 0 cnt ;
  do last <- slice x (n - H) H ;
  Ok (o1 ++ o2, last ++ new, cnt).
(** The loop over the antennas: input_sample_cnt starts with the same value for each of them. Antennas without
    an output keep their history. The last input_sample_cnt remains. *)
Fixpoint antennas (f : list smp -> list smp -> res (list smp * list smp * N)) (vs xs : list (list smp)) (cnt : N)
  : res (list (list smp) * list (list smp) * N) :=
  match xs, vs with
  | [], _ => Ok ([], vs, cnt)
  | _ :: _, [] => Oob
  | x :: xs, v :: vs =>
      do (o, v', cnt) <- f v x ;
      do (os, vs', cnt) <- antennas f vs xs cnt ; Ok (o :: os, v' :: vs', cnt)
  end.
(** resampler.cpp 330-334, 383-431. One output buffer for each list of [xs]; the results are the output samples of each
    antenna, whose number is returned by the code, and the new state. *)
Definition resample (c : config) (s : state) (xs : list (list smp)) (n : N) : res (list (list smp) * state) :=
  if (c_L c =? 1) && (c_M c =? 1) then
    do os <- mapM (fun x => slice x 0 n) xs ; Ok (os, s)
  else
    guard (c_hist c <=? n)
    (do (os, vs, cnt) <- antennas (antenna c (r_skip s) (r_cnt s) n) (r_hist s) xs (r_cnt s) ;
     Ok (os, mkSt vs 0 cnt)).
(** resampler.cpp 336-357: [k] output buffers *)
Definition flush_antenna (c : config) (cnt : N) (v x : list smp) : res (list smp * list smp * N) :=
  let H := c_hist c in
  do old <- slice v 0 H ;
  let v' := old ++ repeat s0 (N.to_nat H) in
  do (o, cnt) <- generic c v' (N.to_nat H) 0 cnt ; Ok (o, v', cnt).
Definition resample_final_samples (c : config) (s : state) (k : nat) : res (list (list smp) * state) :=
  if (c_L c =? 1) && (c_M c =? 1) then Ok (repeat [] k, s)
  else
    do (os, vs, cnt) <- antennas (flush_antenna c (r_cnt s)) (r_hist s) (repeat [] k) (r_cnt s) ;
    Ok (os, mkSt vs (r_skip s) cnt).

(** Calls of the public functions. *)
Inductive op := Resample (xs : list (list smp)) (n : N) | Final (k : nat) | Reset.
Definition step (c : config) (s : state) (o : op) : res (list (list smp) * state) :=
  match o with
  | Resample xs n => resample c s xs n
  | Final k => resample_final_samples c s k
  | Reset => Ok ([], reset c s)
  end.
Fixpoint run (c : config) (s : state) (ops : list op) : res (list (list (list smp)) * state) :=
  match ops with
  | [] => Ok ([], s)
  | o :: ops => do (y, s) <- step c s o ; do (ys, s) <- run c s ops ; Ok (y :: ys, s)
  end.
End resampler.

(** resampler.cpp 369-381 *)
Definition get_samp_rate_converted (samp_rate L M : N) : res N :=
  if M =? 0 then Oob else
  guard (samp_rate mod M =? 0)
  (let r := (samp_rate * L) mod 2 ^ 64 / M in
   guard (r <=? 2 ^ 32 - 1) (Ok r)).

(** rx_pacer.cpp 165-167: the largest number of samples one call is expected to add *)
Definition pacer_bound (unit L M : N) : res N :=
  do q <- ceil_divide_integer 32 unit M ; Ok (w32 (q * L)).
