(** Byte memory as the pack/unpack functions see it: the list of bytes from the pointer they are
    given to the end of the allocation. Every access is bounds checked ([Oob]). *)
From Verif Require Import Base.
Open Scope N_scope.

(** Conversion of an unsigned value to uint8_t. Fields are uint32_t or uint64_t; a left shift before
    the conversion may drop bits above the 32nd, none of which survive the conversion, so shifts are
    modelled on unbounded N. *)
Definition u8 (x : N) : N := N.land x 255.

(** a_ptr[i] (read). *)
Definition ld (m : list N) (i : nat) : res N := rd m i.

(** a_ptr[i] = v *)
Definition st (m : list N) (i : nat) (v : N) : res (list N) :=
  match nth_error m i with
  | Some _ => Ok (upd m i (u8 v))
  | None => Oob
  end.

(** a_ptr[i] |= v *)
Definition orst (m : list N) (i : nat) (v : N) : res (list N) :=
  match nth_error m i with
  | Some b => Ok (upd m i (u8 (N.lor b v)))
  | None => Oob
  end.

(** a_ptr[i] &= v *)
Definition andst (m : list N) (i : nat) (v : N) : res (list N) :=
  match nth_error m i with
  | Some b => Ok (upd m i (u8 (N.land b v)))
  | None => Oob
  end.

(** memcpy(&a_ptr[i], bs, size of bs) *)
Definition cp (m : list N) (i : nat) (bs : list N) : res (list N) :=
  if Nat.leb (i + length bs) (length m)
  then Ok (firstn i m ++ bs ++ skipn (i + length bs) m)
  else Oob.

(** The n bytes at &a_ptr[i]. *)
Definition seg (m : list N) (i n : nat) : res (list N) :=
  if Nat.leb (i + n) (length m) then Ok (firstn n (skipn i m)) else Oob.

(** A call f(&a_ptr[k]) on the memory behind that pointer. *)
Definition at_off (k : nat) (f : list N -> res (list N)) (m : list N) : res (list N) :=
  if Nat.leb k (length m) then do s <- f (skipn k m) ; Ok (firstn k m ++ s) else Oob.

(** Bytes of a T in memory on a little endian machine, lowest address first. *)
Fixpoint le_bytes (k : nat) (x : N) : list N :=
  match k with
  | O => []
  | S j => N.land x 255 :: le_bytes j (N.shiftr x 8)
  end.
(** The T stored in memory as these bytes. *)
Fixpoint le_val (l : list N) : N :=
  match l with
  | [] => 0
  | b :: t => N.lor b (N.shiftl (le_val t) 8)
  end.

(** common/adt/bitbyte.hpp l2b_lower 76-87: swap the bytes of a T of [t] bytes (4 or 8), copy the
    last [n]. *)
Definition l2b_lower_bytes (t : nat) (x : N) (n : nat) : list N :=
  skipn (t - n) (rev (le_bytes t x)).
Definition l2b_lower (m : list N) (i t : nat) (x : N) (n : nat) : res (list N) :=
  cp m i (l2b_lower_bytes t x n).

(** bitbyte.hpp l2b_upper 128-139: swap, copy the first [n]. *)
Definition l2b_upper (m : list N) (i t : nat) (x : N) (n : nat) : res (list N) :=
  cp m i (firstn n (rev (le_bytes t x))).

(** bitbyte.hpp b2l_lower 91-102: a zero T, its last [n] bytes read, swapped. *)
Definition b2l_lower (m : list N) (i t n : nat) : res N :=
  do s <- seg m i n ; Ok (le_val (rev (repeat 0 (t - n) ++ s))).

(** bitbyte.hpp b2l_upper 143-154: a zero T, its first [n] bytes read, swapped. *)
Definition b2l_upper (m : list N) (i t n : nat) : res N :=
  do s <- seg m i n ; Ok (le_val (rev (s ++ repeat 0 (t - n)))).
