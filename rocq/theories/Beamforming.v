(** Model of the codebook of beamforming matrices and of the antenna mapper of the transmitter.
    lib/src/sections_part3/beamforming_and_antenna_port_mapping.cpp, lib/include/dectnrp/sections_part3/beamforming_and_antenna_port_mapping.hpp,
    lib/src/phy/tx/tx.cpp 729-860, lib/src/phy/tx_rx.cpp 197-240.

    Weights are complex numbers whose parts are integers. A scaling factor 1/sqrt(n) is represented by n. *)
From Verif Require Import Base.
From Coq Require Import ZArith.
Open Scope nat_scope.

Definition weight : Type := Z * Z.
Definition weqb (a b : weight) : bool := Z.eqb (fst a) (fst b) && Z.eqb (snd a) (snd b).

(** hpp 83: the constant j *)
Definition j : Z := 2.
(** cpp 250-282: Table 6.3.4-1 to Table 6.3.4-6; a matrix is given row by row *)
Definition W_1 : list (list Z) := [[1; 0]; [0; 1]; [1; 1]; [1; -1]; [1; j]; [1; -j]]%Z.
Definition W_2 : list (list Z) :=
  [[1; 0; 0; 0]; [0; 1; 0; 0]; [0; 0; 1; 0]; [0; 0; 0; 1]; [1; 0; 1; 0]; [1; 0; -1; 0];
   [1; 0; j; 0]; [1; 0; -j; 0]; [0; 1; 0; 1]; [0; 1; 0; -1]; [0; 1; 0; j]; [0; 1; 0; -j];
   [1; 1; 1; 1]; [1; 1; j; j]; [1; 1; -1; -1]; [1; 1; -j; -j]; [1; j; 1; j]; [1; j; j; -1];
   [1; j; -1; -j]; [1; j; -j; 1]; [1; -1; 1; -1]; [1; -1; j; -j]; [1; -1; -1; 1]; [1; -1; -j; j];
   [1; -j; 1; -j]; [1; -j; j; 1]; [1; -j; -1; j]; [1; -j; -j; -1]]%Z.
Definition W_3 : list (list Z) := [[1; 0; 0; 1]; [1; 1; 1; -1]; [1; 1; j; -j]]%Z.
Definition W_4 : list (list Z) :=
  [[1; 0; 0; 1; 0; 0; 0; 0]; [1; 0; 0; 0; 0; 1; 0; 0]; [1; 0; 0; 0; 0; 0; 0; 1];
   [0; 0; 1; 0; 0; 1; 0; 0]; [0; 0; 1; 0; 0; 0; 0; 1]; [0; 0; 0; 0; 1; 0; 0; 1];
   [1; 0; 0; 1; 1; 0; 0; -j]; [1; 0; 0; 1; 1; 0; 0; j]; [1; 0; 0; 1; -j; 0; 0; 1];
   [1; 0; 0; 1; -j; 0; 0; -1]; [1; 0; 0; 1; -1; 0; 0; -j]; [1; 0; 0; 1; -1; 0; 0; j];
   [1; 0; 0; 1; j; 0; 0; 1]; [1; 0; 0; 1; j; 0; 0; -1]; [1; 1; 1; 1; 1; -1; 1; -1];
   [1; 1; 1; 1; j; -j; j; -j]; [1; 1; j; j; 1; -1; j; -j]; [1; 1; j; j; j; -j; -1; 1];
   [1; 1; -1; -1; 1; -1; -1; 1]; [1; 1; -1; -1; j; -j; -j; j]; [1; 1; -j; -j; 1; -1; -j; j];
   [1; 1; -j; -j; j; -j; 1; -1]]%Z.
Definition W_5 : list (list Z) :=
  [[1; 0; 0; 0; 0; 1; 0; 0; 0; 0; 1; 0; 0; 0; 0; 1];
   [1; 1; 0; 0; 0; 0; 1; 1; 1; -1; 0; 0; 0; 0; 1; -1];
   [1; 1; 0; 0; 0; 0; 1; 1; j; -j; 0; 0; 0; 0; j; -j];
   [1; 1; 1; 1; 1; -1; 1; -1; 1; 1; -1; -1; 1; -1; -1; 1];
   [1; 1; 1; 1; 1; -1; 1; -1; j; j; -j; -j; j; -j; -j; j]]%Z.
Definition W_6 : list (list Z) :=
  [[1; 0; 0; 0; 0; 0; 0; 0; 0; 1; 0; 0; 0; 0; 0; 0; 0; 0; 1; 0; 0; 0; 0; 0; 0; 0; 0; 1; 0; 0; 0; 0;
    0; 0; 0; 0; 1; 0; 0; 0; 0; 0; 0; 0; 0; 1; 0; 0; 0; 0; 0; 0; 0; 0; 1; 0; 0; 0; 0; 0; 0; 0; 0; 1]]%Z.

Fixpoint mapR {A B} (f : A -> res B) (l : list A) : res (list B) :=
  match l with [] => Ok [] | x :: l => do y <- f x ; do ys <- mapR f l ; Ok (y :: ys) end.
(** cpp 284-305: convert_to_cf32 *)
Definition cf_of (x : Z) : res weight :=
  if (x =? 1)%Z then Ok (1, 0)%Z else if (x =? -1)%Z then Ok (-1, 0)%Z else if (x =? j)%Z then Ok (0, 1)%Z else
  if (x =? -j)%Z then Ok (0, -1)%Z else if (x =? 0)%Z then Ok (0, 0)%Z else Abort.
Definition convert_to_cf32 : list Z -> res (list weight) := mapR cf_of.
(** cpp 307-320: the scaling factor is 1/sqrt of the result *)
Definition W_scaling (w : list Z) : nat := length (filter (fun x => negb (x =? 0)%Z) w).

(** The members; a factor of optimal_DAC is 1/sqrt of the entry. *)
Record W_t := mkW { W : list (list (list weight)); scaling : list (list nat); scaling_DAC : list (list nat) }.
(** cpp 71-94 *)
Definition shape_ok (W : list (list (list weight))) : bool :=
  forallb (fun p => (length (fst p) =? fst (snd p)) && forallb (fun m => length m =? snd (snd p)) (fst p))
          (combine W [(1, 1); (6, 2); (28, 4); (3, 4); (22, 8); (5, 16); (1, 64)])%nat.
(** cpp 30-194: the constructor *)
Definition W_new : res W_t :=
  do W <- mapR (mapR convert_to_cf32) [W_1; W_2; W_3; W_4; W_5; W_6] ;
  let W := [[(1, 0)%Z]] :: W in
  guard (length W =? 7)%nat (guard (shape_ok W)
  (Ok (mkW W ([1%nat] :: map (map W_scaling) [W_1; W_2; W_3; W_4; W_5; W_6])
       [[1]; repeat 1 6; repeat 1 28; [1; 2; 2]; repeat 1 14 ++ repeat 2 8; [1; 2; 2; 4; 4]; [1]]%nat))).

(** hpp 88-119: the three 9 x 9 tables *)
Definition table9 (row1 row2 row4 row8 : list nat) (n_ts n_tx : nat) : res nat :=
  let z := repeat 0%nat 9 in
  match nth_error [z; row1; row2; z; row4; z; z; z; row8] n_ts with
  | Some r => match nth_error r n_tx with Some x => Ok x | None => Throw end
  | None => Throw
  end.
Definition N_TS_N_TX_idx := table9 [0; 0; 1; 0; 2; 0; 0; 0; 0] [0; 0; 3; 0; 4; 0; 0; 0; 0] [0; 0; 0; 0; 5; 0; 0; 0; 0] [0; 0; 0; 0; 0; 0; 0; 0; 6].
Definition codebook_index_max := table9 [0; 0; 5; 0; 27; 0; 0; 0; 0] [0; 0; 2; 0; 21; 0; 0; 0; 0] [0; 0; 0; 0; 4; 0; 0; 0; 0] [0; 0; 0; 0; 0; 0; 0; 0; 0].
Definition codebook_index_nonzero := table9 [0; 0; 2; 0; 12; 0; 0; 0; 0] [0; 0; 1; 0; 14; 0; 0; 0; 0] [0; 0; 0; 0; 3; 0; 0; 0; 0] [0; 0; 0; 0; 0; 0; 0; 0; 0].
Definition at_ {A} (l : list A) (i : nat) : res A := match nth_error l i with Some x => Ok x | None => Throw end.
(** cpp 205-238 *)
Definition get_W (w : W_t) (n_ts n_tx idx : nat) : res (list weight) := do i <- N_TS_N_TX_idx n_ts n_tx ; do r <- at_ (W w) i ; at_ r idx.
Definition get_W_all (w : W_t) (n_ts n_tx : nat) : res (list (list weight)) := do i <- N_TS_N_TX_idx n_ts n_tx ; at_ (W w) i.
Definition get_scaling (w : W_t) (n_ts n_tx idx : nat) : res nat := do i <- N_TS_N_TX_idx n_ts n_tx ; do r <- at_ (scaling w) i ; at_ r idx.
Definition get_scaling_all (w : W_t) (n_ts n_tx : nat) : res (list nat) := do i <- N_TS_N_TX_idx n_ts n_tx ; at_ (scaling w) i.
Definition get_scaling_DAC (w : W_t) (n_ts n_tx idx : nat) : res nat := do i <- N_TS_N_TX_idx n_ts n_tx ; do r <- at_ (scaling_DAC w) i ; at_ r idx.
(** cpp 196-199 *)
Definition clamp_W (n_ts n_tx idx : nat) : res nat := do m <- codebook_index_max n_ts n_tx ; Ok (Nat.min idx m).

(** tx_rx.cpp 237-239, with numerologies.cpp 66-67 *)
Definition offset_lower_half (dft_os dft guards_bottom : nat) : nat := dft / 2 + 2 * ((dft_os - dft) / 2) + guards_bottom.
Definition guards_bottom (dft occ : nat) : nat := (dft - occ) / 2 - 1 + 1.

(** The antenna mapper. Samples are of any type; nothing is assumed about addition and multiplication, so rounding may be part of them. *)
Section Mapper.
  Variables (C : Type) (add : C -> C -> C) (mulw : weight -> C -> C).
  Variables (n_ts n_tx occ off : nat) (wmat : list weight).

  (** srsran_vec_add_fff_simd on [n] complex numbers *)
  Fixpoint add_vec (dst : list C) (d : nat) (src : list C) (s n : nat) : res (list C) :=
    match n with
    | O => Ok dst
    | S n => do a <- rd dst d ; do b <- rd src s ; add_vec (upd dst d (add a b)) (S d) src (S s) n
    end.
  (** tx.cpp 829-846 *)
  Definition add_ant (ants : list (list C)) (jc : nat) (src : list C) : res (list (list C)) :=
    do a <- rd ants jc ;
    do a <- add_vec a 0 src (occ / 2) (occ / 2 + 1) ;
    do a <- add_vec a off src 0 (occ / 2) ;
    Ok (upd ants jc a).
  (** tx.cpp 819-852: [n] rounds left. Line 820 tests bit [jj], not bit [jc]. *)
  Fixpoint inner (n : nat) (jj jc widx : nat) (w : weight) (src : list C) (ants : list (list C)) (mask : N) : res (list (list C) * N) :=
    match n with
    | O => Ok (ants, mask)
    | S n =>
        if N.testbit mask (N.of_nat jj) then inner n jj (S jc) (widx + n_ts) w src ants mask
        else
          do w' <- rd wmat widx ;
          if weqb w w' then do ants <- add_ant ants jc src ; inner n jj (S jc) (widx + n_ts) w src ants (N.setbit mask (N.of_nat jc))
          else inner n jj (S jc) (widx + n_ts) w src ants mask
    end.
  (** tx.cpp 779-855: antenna [jj], [n] rounds left; [ps]: the products computed so far, weight and stream *)
  Fixpoint outer (n : nat) (i jj widx : nat) (ts : list C) (ants : list (list C)) (mask : N) (ps : list (weight * nat)) :
      res (list (list C) * N * list (weight * nat)) :=
    match n with
    | O => Ok (ants, mask, ps)
    | S n =>
        if N.testbit mask (N.of_nat jj) then outer n i (S jj) (widx + n_ts) ts ants mask ps
        else
          do w <- rd wmat widx ;
          if weqb w (0, 0)%Z then outer n i (S jj) (widx + n_ts) ts ants (N.setbit mask (N.of_nat jj)) ps
          else
            let one := weqb w (1, 0)%Z in
            let src := if one then ts else map (mulw w) ts in
            do r <- inner (S n) jj jj widx w src ants mask ;
            outer n i (S jj) (widx + n_ts) ts (fst r) (snd r) (if one then ps else ps ++ [(w, i)])
    end.
  (** tx.cpp 767-859: streams [i], ... *)
  Fixpoint streams (n : nat) (i : nat) (tss : list (list C)) (ants : list (list C)) (ps : list (weight * nat)) : res (list (list C) * list (weight * nat)) :=
    match n with
    | O => Ok (ants, ps)
    | S n =>
        do ts <- rd tss i ;
        do r <- outer n_tx i 0 i ts ants 0 ps ;
        guard (snd (fst r) =? N.shiftl 1 (N.of_nat n_tx) - 1)%N (streams n (S i) tss (fst (fst r)) (snd r))
    end.
  (** tx.cpp 729-860: run_beamforming *)
  Definition run_beamforming (n_non_zero : nat) (tss ants : list (list C)) : res (list (list C) * list (weight * nat)) :=
    streams n_non_zero 0 tss ants [].
End Mapper.
