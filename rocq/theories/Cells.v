(** Model of the cells a packet is made of: physical_resources.{hpp,cpp}, drs.cpp, pcc.cpp and pdc.cpp in
    lib/src/sections_part3/, and of the index tables of transmit_diversity_precoding.cpp.
    A cell is a subcarrier of an OFDM symbol. Values of cells (complex numbers) are not modelled here. *)
From Coq Require Import FMapPositive.
From Verif Require Import Base PacketSizes.
Open Scope N_scope.

(** Loops of the code: for (i = a; i < a + n; ++i). *)
Fixpoint nseq (a : N) (n : nat) : list N := match n with O => [] | S n => a :: nseq (a + 1) n end.
Definition upto (n : N) : list N := nseq 0 (N.to_nat n).
Fixpoint mapM {A B : Type} (f : A -> res B) (l : list A) : res (list B) :=
  match l with [] => Ok [] | x :: l => do y <- f x ; do r <- mapM f l ; Ok (y :: r) end.
Fixpoint foldM {A S : Type} (f : S -> A -> res S) (s : S) (l : list A) : res S :=
  match l with [] => Ok s | x :: l => do s <- f s x ; foldM f s l end.
(** An array or vector element by operator[]. *)
Definition at_idx {A : Type} (l : list A) (i : N) : res A := rd l (N.to_nat i).
(** A vector element by at(). *)
Definition at_chk {A : Type} (l : list A) (i : N) : res A :=
  match nth_error l (N.to_nat i) with Some x => Ok x | None => Throw end.
Definition len {A : Type} (l : list A) : N := N.of_nat (length l).

(** physical_resources.hpp 31-38, 42 *)
Definition b2b_idx (b : N) : res N := at_idx [0; 0; 1; 0; 2; 0; 0; 0; 3; 0; 0; 0; 4; 0; 0; 0; 5] b.
Definition b_idx2b (i : N) : res N := at_idx [1; 2; 4; 8; 12; 16] i.
Definition N_b_DFT_lut (i : N) : res N := at_idx [64; 128; 256; 512; 768; 1024] i.
Definition N_b_OCC_lut (i : N) : res N := at_idx [56; 112; 224; 448; 672; 896] i.
Definition guards_top_lut (i : N) : res N := at_idx [3; 7; 15; 31; 47; 63] i.
Definition guards_bottom_lut (i : N) : res N := at_idx [4; 8; 16; 32; 48; 64] i.
Definition N_TS_2_N_TS_idx (n : N) : res N := at_idx [0; 0; 1; 0; 2; 0; 0; 0; 3] n.
(** physical_resources.cpp 50-69, one row *)
Definition k_b_OCC (occ : N) : list Z :=
  map (fun i => Z.of_N i - Z.of_N (occ / 2))%Z (upto (occ / 2)) ++ map (fun i => Z.of_N i + 1)%Z (upto (occ / 2)).

(** ** drs.cpp *)
(** drs.cpp 184-186 *)
Definition drs_N_step (n_ts : N) : N := if n_ts <=? 2 then 5 else 10.
(** drs.cpp 127-182. The loops run to n_symb - 1 and n_subc - 1 inclusive, both numbers are positive. *)
Definition drs_k_i_linear (u b n_packet n_ts : N) : res (list (list N)) :=
  guard (negb ((n_ts =? 4) && (n_packet <? 15)))
  (guard (negb ((u =? 8) && (n_ts =? 8) && ((n_packet <? 20) || negb (n_packet mod 10 =? 0))))
   (do bi <- b2b_idx b ; do dft <- N_b_DFT_lut bi ; do occ <- N_b_OCC_lut bi ;
    let ks := k_b_OCC occ in
    let n_subc := occ / 4 in
    do n_symb <- get_nof_DRS_symb u n_packet n_ts ;
    do rows <- mapM (fun t =>
        do parts <- mapM (fun n =>
            let l := 1 + t / 4 + n * drs_N_step n_ts in
            let off := dft / 2 + dft * l in
            mapM (fun i =>
              do k <- at_idx ks (i * 4 + (t + (n mod 2) * 2) mod 4) ;
              Ok (Z.to_N (k + Z.of_N off))) (upto n_subc)) (upto n_symb) ;
        Ok (concat parts)) (upto n_ts) ;
    do n_drs <- get_N_DRS_subc u n_packet n_ts occ ;
    guard (fold_right (fun r s => len r + s) 0 rows =? n_drs) (Ok rows))).
(** drs.cpp 206-225 *)
Definition drs_k_i_single (b_idx t n : N) : res (list N) :=
  do occ <- N_b_OCC_lut b_idx ;
  let ks := k_b_OCC occ in
  mapM (fun i => do k <- at_idx ks (i * 4 + (t + (n mod 2) * 2) mod 4) ; Ok (Z.to_N (k + Z.of_N (occ / 2))))
       (upto (occ / 4)).
(** drs.cpp 227-253: the reference values of stream [t]; a value is represented by its position in the constant
    table y_b_1 (drs.hpp) and by whether it is negated *)
Definition drs_y_single (b_idx t : N) : res (list (bool * N)) :=
  do occ <- N_b_OCC_lut b_idx ; Ok (map (fun i => (4 <=? t, (4 * i + t mod 4) mod 56)) (upto (occ / 4))).
(** drs.cpp 31-71: k_i_for_1_2, k_i_for_6_or_11_12, y_DRS_i_TS_0_to_3 and y_DRS_i_TS_4_to_7 of one bandwidth *)
Record drs_tables := mkDrs { k_12 : list (list N); k_6 : list (list N); y_03 : list (list (bool * N)); y_47 : list (list (bool * N)) }.
Definition drs_row (ts_max b_idx : N) : res drs_tables :=
  do a <- mapM (fun t => drs_k_i_single b_idx t 0) (upto (N.min 4 ts_max)) ;
  do c <- mapM (fun t => drs_k_i_single b_idx t 1) (upto (N.min 4 ts_max)) ;
  do y <- mapM (drs_y_single b_idx) (upto (N.min ts_max 4)) ;
  do z <- mapM (drs_y_single b_idx) (nseq 4 (N.to_nat (ts_max - 4))) ;
  Ok (mkDrs a c y z).

(** ** The virtual frame of pcc_t::get_k_i_linear() and pdc_t::get_k_i_linear(): a vector of int32_t.
    Positions are linear indices; the map holds exactly the positions below [f_size]. *)
Record frame := mkFrame { f_size : N; f_map : PositiveMap.t Z }.
Definition fget (f : frame) (i : N) : res Z :=
  match PositiveMap.find (N.succ_pos i) (f_map f) with Some z => Ok z | None => Throw end.
Definition fset (f : frame) (i : N) (z : Z) : res frame :=
  if i <? f_size f then Ok (mkFrame (f_size f) (PositiveMap.add (N.succ_pos i) z (f_map f))) else Throw.
Definition fmark (f : frame) (is : list N) (z : Z) : res frame := foldM (fun f i => fset f i z) f is.
(** pcc.cpp 126-149, pdc.cpp 238-261; OCCUPIED_DC, _GUARDS, _DRS, _PCC are distinct negative numbers
    (pcc.cpp 30-32, pdc.cpp 30-33), only the sign is used *)
Definition virtual_frame (n_symb dft top bottom : N) : res frame :=
  let size := n_symb * dft in
  do f <- foldM (fun f i => fset f i (Z.of_N i)) (mkFrame size (PositiveMap.empty Z)) (upto size) ;
  do f <- fmark f (map (fun l => l * dft + dft / 2) (upto n_symb)) (-1)%Z ;
  fmark f (flat_map (fun l => map (fun i => l * dft + i) (upto bottom ++ nseq (dft - top) (N.to_nat top))) (upto n_symb)) (-2)%Z.
(** pcc.cpp 177-183, pdc.cpp 299-304: the positions of one symbol that are still free *)
Definition row_free (f : frame) (dft l : N) : res (list N) :=
  do vs <- mapM (fun i => fget f (l * dft + i)) (upto dft) ;
  Ok (map Z.to_N (filter (fun z => (0 <=? z)%Z) vs)).

(** ** pcc.cpp *)
(** std::sort *)
Fixpoint insert (x : N) (l : list N) : list N :=
  match l with [] => [x] | y :: t => if x <=? y then x :: l else y :: insert x t end.
Definition sort (l : list N) : list N := fold_right insert [] l.
(** pcc.cpp 174-243. Step 8 stops after N_unalloc_subc of the U entries, which is between 1 and U there.
    [at] throws in symbol 20, so 20 rounds are enough. *)
Fixpoint pcc_alloc (fuel : nat) (f : frame) (dft l unalloc : N) (acc : list N) : res (list N) :=
  match fuel with
  | O => Throw
  | S fuel =>
      do ks <- row_free f dft l ;
      if len ks <? unalloc
      then pcc_alloc fuel f dft (l + 1) (unalloc - len ks) (acc ++ ks)
      else
        let R := 7 in
        let C := len ks / R in
        guard (len ks mod R =? 0)
        (let order := flat_map (fun c => map (fun r => r * C + c) (upto R)) (upto C) in
         do taken <- mapM (at_chk ks) (firstn (N.to_nat unalloc) order) ;
         let all := acc ++ taken in
         guard (len all =? 98) (Ok (sort all)))
  end.
(** pcc.cpp 110-246 *)
Definition pcc_k_i_linear (b n_ts : N) : res (list N) :=
  do bi <- b2b_idx b ; do dft <- N_b_DFT_lut bi ; do top <- guards_top_lut bi ; do bottom <- guards_bottom_lut bi ;
  do f <- virtual_frame 20 dft top bottom ;
  do drs <- drs_k_i_linear 8 b 20 n_ts ;
  do f <- foldM (fun f r => fmark f r (-3)%Z) f drs ;
  pcc_alloc 20 f dft 1 98 [].
(** pcc.cpp 248-271 *)
Fixpoint columns (dim last : N) (l : list N) : list N :=
  match l with
  | [] => []
  | x :: t => let c := x / dim in if c =? last then columns dim last t else c :: columns dim c t
  end.
Definition idx2sub_col (l : list N) (dim : N) : list N :=
  match l with [] => [] | x :: _ => x / dim :: columns dim (x / dim) l end.
(** pcc.cpp 273-315; the final assert (no empty column) holds by construction and is kept *)
Fixpoint group (dim off last : N) (acc : list N) (l : list N) : list (list N) :=
  match l with
  | [] => [rev acc]
  | x :: t =>
      let c := x / dim in
      let k := sub32 (sub32 x (mul32 c dim)) off in
      if c =? last then group dim off last (k :: acc) t else rev acc :: group dim off c [k] t
  end.
Definition idx2sub_row (l : list N) (dim off : N) : res (list (list N)) :=
  match l with
  | [] => Ok []
  | x :: _ =>
      let rows := group dim off (x / dim) [] l in
      guard (forallb (fun r => negb (len r =? 0)) rows) (Ok rows)
  end.
(** pcc.cpp 55-78: the entry of one bandwidth and number of streams *)
Definition pcc_entry (b_idx n_ts : N) : res (list N * list (list N)) :=
  do b <- b_idx2b b_idx ; do dft <- N_b_DFT_lut b_idx ; do g <- guards_bottom_lut b_idx ;
  do ks <- pcc_k_i_linear b n_ts ;
  guard (len ks =? 98)
  (let ls := idx2sub_col ks dft in
   do rows <- idx2sub_row ks dft g ;
   guard (len ls =? len rows)
   (guard (fold_right (fun r s => len r + s) 0 rows =? 98) (Ok (ls, rows)))).

(** ** pdc.cpp *)
(** pdc.cpp 221-310 *)
Definition pdc_k_i_linear (b n_ts : N) : res (list N) :=
  do bi <- b2b_idx b ; do dft <- N_b_DFT_lut bi ; do occ <- N_b_OCC_lut bi ;
  do top <- guards_top_lut bi ; do bottom <- guards_bottom_lut bi ;
  do f <- virtual_frame 30 dft top bottom ;
  do drs <- drs_k_i_linear 8 b 30 n_ts ;
  do f <- foldM (fun f r => fmark f r (-3)%Z) f drs ;
  do pcc <- pcc_k_i_linear b n_ts ;
  do f <- fmark f pcc (-4)%Z ;
  let n_df := get_N_DF_symb 8 30 in
  do n_pdc <- get_N_PDC_subc 30 8 n_ts occ ;
  guard (0 <? n_pdc)
  (do rows <- mapM (row_free f dft) (nseq 1 (N.to_nat n_df)) ;
   let ks := concat rows in
   if n_pdc <? len ks then Throw else guard (len ks =? n_pdc) (Ok ks)).
(** pdc.cpp 312-325; back() of an empty vector is undefined *)
Definition idx2sub_col_zero_vec (l : list N) (dim : N) : res (list N) :=
  match l with [] => Oob | _ => Ok (upto (last l 0 / dim + 1)) end.
(** pdc.cpp 327-353. The columns are filled in the order of the list; a column above the last is undefined. *)
Definition idx2sub_row_zero_vec (l : list N) (dim off : N) : res (list (list N)) :=
  match l with
  | [] => Oob
  | _ =>
      let last := last l 0 / dim in
      let placed := map (fun y => let c := y / dim in (c, sub32 (sub32 y (mul32 c dim)) off)) l in
      if forallb (fun p => fst p <=? last) placed
      then Ok (map (fun c => map snd (filter (fun p => fst p =? c) placed)) (upto (last + 1)))
      else Oob
  end.
(** pdc.cpp 61-103: the entry of one bandwidth and number of streams; 35: 10, 36: 21 *)
Definition shorten (occ : N) (ir : N * list N) : list N :=
  let '(i, r) := ir in if i =? 10 then r else if len r =? occ then firstn 1 r else r.
Definition pdc_entry (b_idx n_ts : N) : res (list (list N)) :=
  do b <- b_idx2b b_idx ; do dft <- N_b_DFT_lut b_idx ; do occ <- N_b_OCC_lut b_idx ; do g <- guards_bottom_lut b_idx ;
  do ks <- pdc_k_i_linear b n_ts ;
  do ls <- idx2sub_col_zero_vec ks dft ;
  do rows <- idx2sub_row_zero_vec ks dft g ;
  guard (21 <=? len ls)
  (guard (len ls =? len rows)
   (let rows := firstn 21 rows in
    Ok (map (shorten occ) (combine (upto (len rows)) rows)))).

(** ** The three components of a transmitter or receiver (tx_rx.cpp 72-74) *)
(** drs.cpp 31-71, pcc.cpp 37-81, pdc.cpp 40-106; rows by bandwidth, the latter two by 1, 2, 4, 8 streams *)
Record comps := mkComps {
  c_drs : list drs_tables;
  c_pcc : list (list (list N * list (list N)));
  c_pdc : list (list (list (list N))) }.
Definition ts_steps (ts_max : N) : list N := filter (fun n => n <=? ts_max) [1; 2; 4; 8].
Definition comps_new (b_max ts_max : N) : res comps :=
  do bi <- b2b_idx b_max ;
  do pcc <- mapM (fun i => mapM (pcc_entry i) (ts_steps ts_max)) (upto (bi + 1)) ;
  do drs <- mapM (drs_row ts_max) (upto (bi + 1)) ;
  do pdc <- mapM (fun i => mapM (pdc_entry i) (ts_steps ts_max)) (upto (bi + 1)) ;
  Ok (mkComps drs pcc pdc).

(** State of the components while a packet is processed symbol by symbol. [s_drs]: false while k_i_effective
    points to k_i_for_1_2, [s_y]: false while y_DRS_i_effective points to y_DRS_i_TS_0_to_3. *)
Record cstate := mkCstate {
  s_ts : N;
  s_l : list N; s_k : list (list N); s_cnt : N;                  (* pcc *)
  s_tab : drs_tables; s_drs : bool; s_y : bool; s_next : N; s_first : N;  (* drs *)
  s_pdc : list (list N); s_limit : N }.                          (* pdc *)
(** drs.cpp 73-85, pcc.cpp 83-87, pdc.cpp 108-125 *)
Definition set_configuration (c : comps) (b n_ts : N) : res cstate :=
  do bi <- b2b_idx b ; do ti <- N_TS_2_N_TS_idx n_ts ;
  do r <- at_idx (c_pcc c) bi ; do (ls, ks) <- at_idx r ti ;
  do tab <- at_idx (c_drs c) bi ;
  do r <- at_idx (c_pdc c) bi ; do pdc <- at_idx r ti ;
  Ok (mkCstate n_ts ls ks 0 tab false false 1 0 pdc (if n_ts <=? 2 then 6 else 11)).

(** What one OFDM symbol carries, as the components report it. None: is_symbol_index() returned false.
    Reference cells: the number of cells per stream and, for each stream of the symbol, its cells and values. *)
Record drs_report := mkReport { dr_size : N; dr_rows : list (N * list N * list (bool * N)) }.
Record cells := mkCells { a_pcc : option (list N); a_drs : option drs_report; a_pdc : option (list N) }.
(** pcc.cpp 89-108 *)
Definition pcc_step (s : cstate) (l : N) : res (option (list N) * N) :=
  if len (s_l s) <=? s_cnt s then Ok (None, s_cnt s)
  else
    do x <- at_chk (s_l s) (s_cnt s) ;
    if x =? l
    then do r <- at_chk (s_k s) (s_cnt s) ; Ok (Some r, s_cnt s + 1)
    else Ok (None, s_cnt s).
(** drs.cpp 87-125, 190-204, and the rows tx.cpp 977-996 takes from what it returns *)
Definition drs_step (s : cstate) (l : N) : res (option drs_report * (bool * bool * N * N)) :=
  if negb (l =? s_next s) then Ok (None, (s_drs s, s_y s, s_next s, s_first s))
  else
    let k_i := if s_drs s then k_6 (s_tab s) else k_12 (s_tab s) in
    let y := if s_y s then y_47 (s_tab s) else y_03 (s_tab s) in
    let last := if s_first s =? 0 then N.min (s_ts s - 1) 3 else 7 in
    do k0 <- at_idx k_i 0 ;
    do rows <- mapM (fun t => do k <- at_idx k_i (t mod 4) ; do v <- at_idx y (t mod 4) ; Ok (t, k, v))
                    (nseq (s_first s) (N.to_nat (last - s_first s + 1))) ;
    Ok (Some (mkReport (len k0) rows),
        if s_ts s <=? 2 then (negb (s_drs s), s_y s, s_next s + 5, s_first s)
        else if s_ts s =? 4 then (negb (s_drs s), s_y s, s_next s + 10, s_first s)
        else ((if s_next s mod 2 =? 1 then s_drs s else negb (s_drs s)), negb (s_y s),
              (if s_next s mod 2 =? 1 then s_next s + 1 else s_next s + 9),
              (if s_first s =? 0 then 4 else 0))).
(** pdc.cpp 127-153 *)
Definition pdc_step (s : cstate) (l : N) : res (option (list N)) :=
  let e := if l <=? s_limit s then l else l - ((l - s_limit s) / 10) * 10 in
  do r <- at_chk (s_pdc s) e ;
  let e := if len r =? 1 then 10 else e in
  do r <- at_chk (s_pdc s) e ;
  Ok (if len r =? 0 then None else Some r).
(** tx.cpp 250-264: the three queries of one OFDM symbol *)
Definition comps_step (s : cstate) (l : N) : res (cells * cstate) :=
  do (p, cnt) <- pcc_step s l ;
  do (r, (sel, y, next, first)) <- drs_step s l ;
  do d <- pdc_step s l ;
  Ok (mkCells p r d,
      mkCstate (s_ts s) (s_l s) (s_k s) cnt (s_tab s) sel y next first (s_pdc s) (s_limit s)).

(** transmit_diversity_precoding.cpp 49-72, 77-93: the pair of streams for two consecutive symbols *)
Definition index_N_TS (n_ts : N) : res (list (N * N)) :=
  guard (2 <=? n_ts)
  (do i <- at_idx [0; 0; 0; 0; 1; 0; 0; 0; 2] n_ts ;
   at_idx [ [(0, 1)];
            [(0, 1); (2, 3); (0, 2); (1, 3); (0, 3); (1, 2)];
            [(0, 1); (2, 3); (4, 5); (6, 7); (0, 4); (1, 5); (2, 6); (3, 7); (0, 2); (1, 3); (4, 6); (5, 7)] ] i).
Definition get_modulo (n_ts : N) : N := if n_ts =? 2 then 1 else if n_ts =? 4 then 6 else 12.
