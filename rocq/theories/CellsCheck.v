(** The components compared with the specification: symbols 1 to 40 by evaluation for every bandwidth and number of
    streams, all later symbols by periodicity (CellsFacts.v). *)
From Verif Require Import Base PacketSizes PacketSizesSpec Cells TxCells CellsSpec.
Open Scope N_scope.

Definition nonempty {A} (l : list A) : option (list A) := match l with [] => None | _ => Some l end.
(** What the components should report for a symbol. *)
Definition active_streams (e l : N) : list N := filter (fun t => active e t l) (upto e).
Definition report_of (b e l : N) : option drs_report :=
  match active_streams e l with
  | [] => None
  | ts => Some (mkReport (14 * b)
            (map (fun t => (t, reference b e t l, map (fun i => (4 <=? t, (4 * i + t mod 4) mod 56)) (upto (14 * b)))) ts))
  end.
Definition cells_of (b e l : N) : cells := mkCells (nonempty (control b e l)) (report_of b e l) (nonempty (data b e l)).
Definition cells_from (b e l p : N) (fr : list N) : cells :=
  mkCells (nonempty (control_of fr p)) (report_of b e l) (nonempty (data_of fr p)).

(** Boolean comparison. *)
Fixpoint list_eqb {A} (f : A -> A -> bool) (x y : list A) : bool :=
  match x, y with [], [] => true | a :: x, b :: y => f a b && list_eqb f x y | _, _ => false end.
Definition opt_eqb {A} (f : A -> A -> bool) (x y : option A) : bool :=
  match x, y with None, None => true | Some a, Some b => f a b | _, _ => false end.
Definition row_eqb (x y : N * list N * list (bool * N)) : bool :=
  (fst (fst x) =? fst (fst y)) && list_eqb N.eqb (snd (fst x)) (snd (fst y)) &&
  list_eqb (fun p q => Bool.eqb (fst p) (fst q) && (snd p =? snd q)) (snd x) (snd y).
Definition report_eqb (x y : drs_report) : bool := (dr_size x =? dr_size y) && list_eqb row_eqb (dr_rows x) (dr_rows y).
Definition cells_eqb (x y : cells) : bool :=
  opt_eqb (list_eqb N.eqb) (a_pcc x) (a_pcc y) && opt_eqb report_eqb (a_drs x) (a_drs y) &&
  opt_eqb (list_eqb N.eqb) (a_pdc x) (a_pdc y).

(** Side conditions on the numbers of cells of a symbol with free cells [fr], [p] pending control cells and [n] data cells
    in the symbols before. *)
Definition counts_ok (b e l p n : N) (fr : list N) : bool :=
  let c := len (control_of fr p) in
  let d := len (data_of fr p) in
  (c + (p - len fr) =? p) && (d mod 2 =? 0) && (len (active_streams e l) * (14 * b) + len fr =? 56 * b) &&
  (c + d =? len fr) &&
  forallb (fun t => len (reference b e t l) =? (if active e t l then 14 * b else 0)) (upto e) &&
  (if d <? 24 then (d =? 0) || ((l <=? 20) && (n =? 0)) else true).

(** Follow the components from symbol [l] on. *)
Fixpoint follow (b e : N) (m : nat) (l p n : N) (s : cstate) : option (N * N * cstate) :=
  match m with
  | O => Some (p, n, s)
  | S m =>
      let fr := free b e l in
      match comps_step s l with
      | Ok (c, s') =>
          if cells_eqb c (cells_from b e l p fr) && counts_ok b e l p n fr
          then follow b e m (l + 1) (p - len fr) (n + len (data_of fr p)) s' else None
      | _ => None
      end
  end.
(** The state the components start from if they are built for exactly [e] streams. *)
Definition start (b_idx b e : N) : res cstate :=
  do (ls, ks) <- pcc_entry b_idx e ; do tab <- drs_row e b_idx ; do pdc <- pdc_entry b_idx e ;
  Ok (mkCstate e ls ks 0 tab false false 1 0 pdc (if e <=? 2 then 6 else 11)).
(** The parts of the state that change. *)
Definition moved (s s' : cstate) : bool :=
  (s_cnt s =? s_cnt s') && (s_cnt s =? len (s_l s)) && Bool.eqb (s_drs s) (s_drs s') && Bool.eqb (s_y s) (s_y s') &&
  (s_next s + 20 =? s_next s') && (s_first s =? s_first s').
Definition follows (b_idx b e : N) : bool :=
  match start b_idx b e with
  | Ok s0 =>
      match follow b e 20 1 98 0 s0 with
      | Some (p, n, s20) =>
          match follow b e 20 21 p n s20 with
          | Some (_, _, s40) => moved s20 s40 && (20 <? s_next s20) && (p =? 0)
          | None => false
          end
      | None => false
      end
  | _ => false
  end.
Definition bandwidths : list (N * N) := [(0, 1); (1, 2); (2, 4); (3, 8); (4, 12); (5, 16)].
