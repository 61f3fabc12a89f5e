(** Moving sums of the packet detector: movsum_t and movsum_uw_t.
    Models lib/include/dectnrp/phy/rx/sync/movsum.hpp, lib/src/phy/rx/sync/movsum_uw.cpp and the cover sequence of
    lib/include/dectnrp/sections_part3/stf.hpp, lib/src/sections_part3/stf.cpp. *)
From Verif Require Import Base.

(** The arithmetic of the element type T (float or lv_32fc_t). It is left open: the theorems say for which
    arithmetic they hold. [scale c v] is the product of v with the small whole float c (uw values and 2.0f);
    [acc] is volk_32f_accumulator_s32f / volk_32fc_accumulator_s32fc, whose order of additions is not fixed. *)
Record ops (V : Type) := Ops {
  zero : V; add : V -> V -> V; sub : V -> V -> V; scale : Z -> V -> V; acc : list V -> V }.
Arguments zero {V}. Arguments add {V}. Arguments sub {V}. Arguments scale {V}. Arguments acc {V}.

(** shiftreg, ptr, sum: movsum.hpp 92-95. length is the length of the register. Indices are natural numbers;
    they stay below length, so that uint32_t arithmetic does not wrap. *)
Record ms (V : Type) := Ms { reg : list V; ptr : nat; sum : V }.
Arguments Ms {V}. Arguments reg {V}. Arguments ptr {V}. Arguments sum {V}.

Section MovSum.
Context {V : Type} (O : ops V).

Definition len (m : ms V) : nat := length (reg m).

(** movsum_t(length_): movsum.hpp 38-42 *)
Definition make (n : nat) : ms V := Ms (repeat (zero O) n) 0 (zero O).

(** reset(): movsum.hpp 44-48 *)
Definition reset (m : ms V) : ms V := Ms (repeat (zero O) (len m)) 0 (zero O).

(** get_front() followed by a write of length values, reset_ptr(): movsum.hpp 50 and 87 *)
Definition fill (l : list V) (m : ms V) : ms V := Ms l 0 (sum m).

(** get_front_idx(): movsum.hpp 97-100; a remainder by zero is undefined *)
Definition front_idx (m : ms V) (n_backward : nat) : res nat :=
  if Nat.eqb (len m) 0 then Oob
  else let nbw := n_backward mod len m in
       Ok (if Nat.ltb (ptr m) nbw then len m - (nbw - ptr m) else ptr m - nbw).

(** get_back_idx(): movsum.hpp 102-104 *)
Definition back_idx (m : ms V) (n_forward : nat) : res nat :=
  if Nat.eqb (len m) 0 then Oob else Ok ((ptr m + 1 + n_forward) mod len m).

(** the loop of get_sum_front(): movsum.hpp 53-59 *)
Fixpoint front_loop (m : ms V) (k i : nat) (ret : V) : res V :=
  match k with
  | 0 => Ok ret
  | S k' => do j <- front_idx m i; do v <- rd (reg m) j; front_loop m k' (S i) (add O ret v)
  end.
Definition sum_front (m : ms V) (n : nat) : res V := front_loop m n 0 (zero O).

(** the loop of get_sum_back(): movsum.hpp 60-66 *)
Fixpoint back_loop (m : ms V) (k i : nat) (ret : V) : res V :=
  match k with
  | 0 => Ok ret
  | S k' => do j <- back_idx m i; do v <- rd (reg m) j; back_loop m k' (S i) (add O ret v)
  end.
Definition sum_back (m : ms V) (n : nat) : res V := back_loop m n 0 (zero O).

(** resum(): movsum.hpp 68-74 *)
Definition resum (m : ms V) : ms V := Ms (reg m) (ptr m) (acc O (reg m)).

(** pop_push(): movsum.hpp 78-84 *)
Definition pop_push (v : V) (m : ms V) : res (ms V) :=
  do old <- rd (reg m) (ptr m);
  Ok (Ms (upd (reg m) (ptr m) v) ((ptr m + 1) mod len m) (add O (sub O (sum m) old) v)).

(** movsum_uw_t: movsum_uw.cpp 30-41. uw is a list of whole numbers; the two lists of sign changes are computed
    in the constructor and constant afterwards. *)
Record ucfg := Ucfg { uw : list Z; rep : nat; pos_neg : list nat; neg_pos : list nat }.

(** the loop of get_uw_changes_idx(): movsum_uw.cpp 107-113 *)
Fixpoint changes_loop (u : list Z) (n_elem r : nat) (first second : Z) (k i : nat) : list nat :=
  match k with
  | 0 => []
  | S k' =>
      (if Z.eqb (nth (i - 1) u 0%Z) first && Z.eqb (nth i u 0%Z) second then [n_elem - i * r] else []) ++
      changes_loop u n_elem r first second k' (S i)
  end.

(** get_uw_changes_idx(): movsum_uw.cpp 89-121 *)
Definition changes (u : list Z) (r : nat) (pn : bool) : res (list nat) :=
  let second := if pn then 1%Z else (-1)%Z in
  let ret := changes_loop u (length u * r) r (- second)%Z second (length u - 1) 1 in
  guard (negb (forallb (fun x => Z.eqb x (hd 0%Z u)) u && Nat.ltb 0 (length ret))) (Ok ret).

(** movsum_uw_t(uw_, n_repelem_): movsum_uw.cpp 30-41; uw.back() of an empty vector is undefined *)
Definition make_uw (u : list Z) (r : nat) : res (ucfg * ms V) :=
  match u with
  | [] => Oob
  | _ =>
      do pn <- changes u r true;
      do np <- changes u r false;
      guard (Z.eqb (last u 0%Z) 1) (guard (Z.eqb (Z.abs (hd 0%Z u)) 1)
        (Ok (Ucfg u r pn np, make (length u * r))))
  end.

(** the two loops over the sign changes in pop_push(): movsum_uw.cpp 78-83 *)
Fixpoint phase_loop (m : ms V) (bin : V -> V -> V) (l : list nat) (s : V) : res V :=
  match l with
  | [] => Ok s
  | b :: l' => do j <- front_idx m b; do v <- rd (reg m) j; phase_loop m bin l' (bin s (scale O 2 v))
  end.

(** movsum_uw_t::pop_push(): movsum_uw.cpp 72-87 *)
Definition pop_push_uw (c : ucfg) (v : V) (m : ms V) : res (ms V) :=
  do old <- rd (reg m) (ptr m);
  let s1 := sub O (sum m) (scale O (hd 0%Z (uw c)) old) in
  let x := scale O (last (uw c) 0%Z) v in
  let m1 := Ms (upd (reg m) (ptr m) x) (ptr m) (add O s1 x) in
  do s2 <- phase_loop m1 (sub O) (pos_neg c) (sum m1);
  do s3 <- phase_loop m1 (add O) (neg_pos c) s2;
  Ok (Ms (reg m1) ((ptr m1 + 1) mod len m1) s3).

(** n values of the register from position b *)
Definition slice (l : list V) (b n : nat) : res (list V) :=
  if Nat.leb (b + n) (length l) then Ok (firstn n (skipn b l)) else Oob.

(** the loop of movsum_uw_t::resum(): movsum_uw.cpp 47-69 *)
Fixpoint resum_loop (c : ucfg) (m : ms V) (k i : nat) (s : V) : res V :=
  match k with
  | 0 => Ok s
  | S k' =>
      do b <- front_idx m (len m - i * rep c);
      do partial <-
        (if Nat.leb (b + rep c) (len m) then
           do l <- slice (reg m) b (rep c); Ok (acc O l)
         else
           do l1 <- slice (reg m) b (len m - b);
           do l2 <- slice (reg m) 0 (rep c - (len m - b));
           Ok (add O (acc O l1) (acc O l2)));
      resum_loop c m k' (S i) (add O s (scale O (nth i (uw c) 0%Z) partial))
  end.

(** movsum_uw_t::resum(): movsum_uw.cpp 43-70 *)
Definition resum_uw (c : ucfg) (m : ms V) : res (ms V) :=
  do s <- resum_loop c m (length (uw c)) 0 (zero O); Ok (Ms (reg m) (ptr m) s).

(** A user of a moving sum. *)
Inductive op := Push (v : V) | Resum | Reset.

Definition step (o : op) (m : ms V) : res (ms V) :=
  match o with Push v => pop_push v m | Resum => Ok (resum m) | Reset => Ok (reset m) end.
Definition step_uw (c : ucfg) (o : op) (m : ms V) : res (ms V) :=
  match o with Push v => pop_push_uw c v m | Resum => resum_uw c m | Reset => Ok (reset m) end.

Fixpoint run (os : list op) (m : ms V) : res (ms V) :=
  match os with [] => Ok m | o :: os' => do m' <- step o m; run os' m' end.
Fixpoint run_uw (c : ucfg) (os : list op) (m : ms V) : res (ms V) :=
  match os with [] => Ok m | o :: os' => do m' <- step_uw c o m; run_uw c os' m' end.

End MovSum.
Arguments Push {V}. Arguments Resum {V}. Arguments Reset {V}.

(** cover_sequence: stf.hpp 146-151, with SECTIONS_PART_3_STF_COVER_SEQUENCE_ACTIVE as in stf_param.hpp *)
Definition cover_sequence : list Z := [1; -1; 1; 1; -1; -1; -1; -1; -1]%Z.

(** get_N_stf_pattern(): stf.hpp 95-97 *)
Definition N_stf_pattern (u : nat) : nat := if Nat.eqb u 1 then 7 else 9.

(** get_equivalent_u(): stf.hpp 99-101 *)
Definition equivalent_u (n : nat) : nat := if Nat.eqb n 7 then 1 else 2.

(** get_cover_sequence(): stf.cpp 90-102 *)
Definition get_cover_sequence (u : nat) : res (list Z) :=
  guard (existsb (Nat.eqb u) [1; 2; 4; 8]) (Ok (firstn (N_stf_pattern u) cover_sequence)).

(** get_cover_sequence_pairwise_product(): stf.cpp 140-159, get_cover_sequence_pairwise_product_single():
    stf.hpp 119-121 *)
Definition pairwise_product (u : nat) : res (list Z) :=
  do cs <- get_cover_sequence u;
  guard (Nat.eqb (length cs) 7 || Nat.eqb (length cs) 9)
    (let p := map (fun i => nth i cover_sequence 0 * nth (i + 1) cover_sequence 0)%Z (seq 0 (length cs - 1)) in
     guard (negb (existsb (fun x => negb (Z.eqb (Z.abs x) 1)) p)) (Ok p)).
