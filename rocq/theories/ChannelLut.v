(** Model of the tables a receiver interpolates its channel estimates with:
    lib/src/phy/rx/rx_synced/channel_estimation/channel_lut.cpp (below: lut), processing_stage.hpp (below: stage) and
    rx_synced.cpp 773-949 as far as it uses them.
    Real numbers are rational. The Euclidian distance (channel_lut.hpp 201-203) and the weights of the Wiener filter
    (lut 463-481, 489-532, wiener.hpp) are parameters, so that what is proved holds whatever they are, rounding included.
    Both optimizations (rx_synced_param.hpp 234, 235) are on, the weights are real (rx_synced_param.hpp 200). *)
From Coq Require Import QArith Qabs.
From Verif Require Import Base PacketSizes Cells RxSymbols.
Open Scope N_scope.

Definition Qlt_bool (x y : Q) : bool := negb (Qle_bool y x).
(** channel_lut.hpp 195-206 *)
Record coord := mkCoord { c_f : N; c_t : N }.
(** channel_statistics.hpp 65, 66: cells used for an estimate between two symbols, and from one symbol *)
Record stats := mkStats { n_lr : N; n_l : N }.

Fixpoint increasing (l : list N) : bool :=
  match l with x :: (y :: _) as r => (x <? y) && increasing r | _ => true end.
(** lut 353-394. [kl], [kr]: subcarriers of the reference cells of a stream in the left and in the right symbol *)
Definition s0_pilots (kl kr : list (list N)) (ts step : N) : res (list coord) :=
  do l <- at_idx kl ts ;
  do v <- if 0 <? step
          then do r <- at_idx kr ts ;
               do ps <- mapM (fun p => do x <- at_idx l p ; do y <- at_idx r p ;
                                Ok (if ts <=? 1 then [mkCoord x 1; mkCoord y (1 + step)] else [mkCoord y (1 + step); mkCoord x 1]))
                             (upto (len l)) ;
               Ok (concat ps)
          else Ok (map (fun k => mkCoord k 1) l) ;
  guard (increasing (map c_f v)) (Ok v).

(** [n] entries from [i] on *)
Definition window {A} (l : list A) (i n : N) : res (list A) := mapM (at_idx l) (nseq i (N.to_nat n)).

Section Lut.
Variable D : coord -> coord -> Q.
(** Weights for a point, from the pilots matrix Rpp was made of and the pilots vector rdp is made of. *)
Variable W : coord -> list coord -> list coord -> list Q.

(** lut 411-415 *)
Definition total (p : coord) (w : list coord) : Q := fold_left (fun s c => Qplus s (D p c)) w 0%Q.
(** lut 410-430: windows from [i] on, at most [m] *)
Fixpoint scan (m : nat) (p : coord) (cs : list coord) (n i : N) (best : Q) (opt : N) : res N :=
  match m with
  | O => Ok opt
  | S m =>
      do w <- window cs i n ;
      let x := total p w in
      let '(best, opt) := if Qlt_bool x best then (x, i) else (best, opt) in
      if Qlt_bool (best * (11 # 10)) x then Ok opt else scan m p cs n (i + 1) best opt
  end.
(** lut 396-436. If there are fewer pilots than a window has, the limit of the loop wraps and the first window is read beyond
    the end. *)
Definition s1_find (p : coord) (cs : list coord) (n prev : N) : res N :=
  if len cs <? n then do _ <- window cs prev n ; Oob
  else scan (N.to_nat (len cs - n + 1 - prev)) p cs n prev (1000000000 # 1) 0.
(** lut 438-535. [rpp]: the pilots of the matrix as it was last made. Weights that are not finite (517) are not modelled. *)
Definition s2_weights (p : coord) (cs : list coord) (n idx prev : N) (rpp : list coord) : res (list Q * list coord) :=
  do w <- window cs idx n ;
  let rpp := if (c_f p =? 0) || negb (prev =? idx) then w else rpp in
  Ok (W p rpp w, rpp).
(** srsran_vec_max_abs_fi (not part of the repository): the entry of largest magnitude *)
Definition largest (l : list Q) : res Q :=
  match l with [] => Oob | x :: l => Ok (fold_left (fun m y => if Qlt_bool (Qabs m) (Qabs y) then y else m) l x) end.
(** lut 583-598 *)
Fixpoint known (u : list Q) (vs : list (list Q)) (i : N) : res (option N) :=
  match vs with
  | [] => Ok None
  | v :: vs =>
      do sub <- mapM (fun j => do x <- at_idx u j ; do y <- at_idx v j ; Ok (x - y)%Q) (upto (len u)) ;
      do diff <- largest sub ;
      if Qlt_bool (Qabs diff) (1 # 10000) then Ok (Some i) else known u vs (i + 1)
  end.
(** lut 571-632. The cast to int32_t (596, 622) is not modelled. *)
Definition s3_index (u : list Q) (vs : list (list Q)) : res (N * list (list Q)) :=
  do k <- known u vs 0 ;
  let '(i, vs) := match k with Some i => (i, vs) | None => (len vs, vs ++ [u]) end in
  guard (i <=? 4294967295) (Ok (i, vs)).

(** A row of both tables: for each subcarrier the first pilot and the number of the weights. *)
Definition row := (list N * list N)%type.
Record fill := mkFill { f_prev : N; f_rpp : list coord; f_vs : list (list Q); f_row : row }.
(** lut 320-348 *)
Definition fill_cell (cs : list coord) (n t : N) (s : fill) (f : N) : res fill :=
  do i <- s1_find (mkCoord f t) cs n (f_prev s) ;
  do (u, rpp) <- s2_weights (mkCoord f t) cs n i (f_prev s) (f_rpp s) ;
  do (j, vs) <- s3_index u (f_vs s) ;
  Ok (mkFill i rpp vs (fst (f_row s) ++ [i], snd (f_row s) ++ [j])).
(** lut 297-349, one OFDM symbol [t] *)
Definition fill_symbol (cs : list coord) (n nf : N) (s : list (list Q) * list row) (t : N) : res (list (list Q) * list row) :=
  do x <- foldM (fill_cell cs n t) (mkFill 0 [] (fst s) ([], [])) (upto nf) ;
  Ok (f_vs x, snd s ++ [f_row x]).
(** lut 262-350, one stream [ts] *)
Definition fill_stream (kl kr : list (list N)) (step b n nf : N) (s : list (list Q) * list (list row)) (ts : N)
    : res (list (list Q) * list (list row)) :=
  do cs <- s0_pilots kl kr ts step ;
  guard (len cs =? (if 0 <? step then 2 * (b * 14) else b * 14))
  (do x <- foldM (fill_symbol cs n nf) (fst s, []) (nseq 1 (N.to_nat (step + 1))) ;
   Ok (fst x, snd s ++ [snd x])).
(** lut 233-351. The reference cells are those of a drs_t of four streams: drs.cpp 73-85, 95-109 switch from k_i_for_1_2 to
    k_i_for_6_or_11_12. *)
Definition init_lut (step b_idx : N) (st : stats) (vs : list (list Q)) : res (list (list Q) * list (list row)) :=
  do b <- b_idx2b b_idx ;
  do occ <- N_b_OCC_lut b_idx ;
  do tab <- drs_row 4 b_idx ;
  let n := if 0 <? step then n_lr st else n_l st in
  foldM (fill_stream (k_12 tab) (k_6 tab) step b n (occ + 1)) (vs, []) (upto 4).
(** Tables by bandwidth and the block of all weights; [fam_len]: rows per stream. *)
Record family := mkFam { fam_len : N; fam_luts : list (list (list row)); fam_block : list Q }.
(** lut 191-211 *)
Definition init_bandwidth (step bmax : N) (st : stats) (s : list (list Q) * list (list (list row))) (bi : N)
    : res (list (list Q) * list (list (list row))) :=
  do (vs, L) <- init_lut step bi st (fst s) ;
  guard (negb (bi <? bmax) || (len vs =? len (fst s))) (Ok (vs, L :: snd s)).
(** lut 168-231 *)
Definition init_family (step b_max : N) (st : stats) : res family :=
  do bmax <- b2b_idx b_max ;
  do s <- foldM (init_bandwidth step bmax st) ([], []) (rev (upto (bmax + 1))) ;
  do _ <- at_idx (fst s) 0 ;
  Ok (mkFam (step + 1) (snd s) (concat (fst s))).
(** lut 41-58 *)
Record tables := mkTables { lut_0 : family; lut_5 : family; lut_10 : family }.
Definition lut_new (b_max ts_max : N) (st : stats) : res tables :=
  do a <- init_family 0 b_max st ;
  do b <- init_family 5 b_max st ;
  do c <- if 4 <=? ts_max then init_family 10 b_max st else Ok (mkFam 11 [] []) ;
  Ok (mkTables a b c).
End Lut.

(** lut 71-94 *)
Definition choose (T : tables) (st : stats) (lr : bool) (e : N) : family * N :=
  if lr then (if e <=? 2 then lut_5 T else lut_10 T, n_lr st) else (lut_0 T, n_l st).
(** lut 156-166 *)
Definition swap_halves {A} (l : list A) : res (list A) :=
  guard (len l =? 4) (Ok (skipn 2 l ++ firstn 2 l)).
(** lut 96-150, stage 71-76, 90-96: the row of each stream for symbol [rel] of stage [ps] *)
Definition symbol_rows (F : family) (bi ps rel : N) : res (list row) :=
  do L <- at_idx (fam_luts F) bi ;
  guard (len L =? 4)
  (guard (rel <? fam_len F)
   (do rows <- mapM (fun r => at_idx r rel) L ;
    if ps mod 2 =? 1 then swap_halves rows else Ok rows)).

(** rx_synced.cpp 779-828: subcarriers of the cells of stream [t] in OFDM symbol [l], in the order in which they are stored.
    k_i_effective alternates from one such symbol to the next, see drs_step in Cells.v. *)
Definition stored (bi e t l : N) : res (list (N * N)) :=
  let first := if t <? 4 then 1 else 2 in
  do ks <- drs_k_i_single bi (t mod 4) ((l - first) / drs_N_step e) ;
  Ok (map (fun k => (k, l)) ks).
Definition interlace {A} (even odd : list A) : list A := flat_map (fun x => [fst x; snd x]) (combine even odd).
(** rx_synced.cpp 911-917: the array the estimate [x] of stream [t] is made of, by (subcarrier, symbol) *)
Definition pilots (bi e t : N) (x : est) : res (list (N * N)) :=
  match e_from x with
  | [Some l] => if e_both x then Oob else stored bi e t l
  | [Some l; Some l'] =>
      if e_both x then do a <- stored bi e t l ; do c <- stored bi e t l' ; Ok (interlace a c) else Oob
  | _ => Oob
  end.
(** rx_synced.cpp 893-949: the sum that is the estimate [x] of stream [t] for subcarrier [f], as weights and cells *)
Definition interpolate (T : tables) (st : stats) (bi e t : N) (x : est) (f : N) : res (list (Q * (N * N))) :=
  let '(F, n) := choose T st (e_both x) e in
  do rows <- symbol_rows F bi (e_stage x) (e_place x) ;
  do r <- at_idx rows (t mod 4) ;
  do i <- at_idx (fst r) f ;
  do j <- at_idx (snd r) f ;
  do hs <- pilots bi e t x ;
  do cells <- window hs i n ;
  do ws <- window (fam_block F) (j * n) n ;
  Ok (combine ws cells).

(** rx_synced.cpp 868-882: the number of the tables used, [snrs]: their SNRs, [now]: the measured one *)
Definition pick (now : Q) (snrs : list Q) : res N :=
  match snrs with
  | [] => Oob
  | s :: r =>
      Ok (fst (fold_left (fun a x => let d := Qabs (now - snd x) in if Qle_bool d (snd a) then (fst x, d) else a)
                 (combine (nseq 1 (length r)) r) (0, Qabs (now - s))))
  end.
