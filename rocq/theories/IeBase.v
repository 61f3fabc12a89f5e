(** Common parts of the models of lib/src/sections_part4/mac_messages_and_ie: enumerations, channels, optional fields.
    Enumerations and fields of type uint32_t are [N], optional fields are [option]. *)
From Verif Require Import Base Bytes MacHeader Channels.
Open Scope N_scope.

(** common/adt/enumeration.hpp from_coded_value 34-44 for an enumeration with values 0 .. upper-1 *)
Definition from_coded (upper v : N) : N := if v <? upper then v else UNDEF32.
(** the same for an enumeration with values lower+1 .. upper-1 *)
Definition from_coded_lower (lower upper v : N) : N := if (lower <? v) && (v <? upper) then v else UNDEF32.
(** enumeration.hpp is_valid 51-69: only not_defined and the marker(s) are rejected *)
Definition enum_valid (upper v : N) : bool := negb (v =? UNDEF32) && negb (v =? upper).
Definition enum_valid_lower (lower upper v : N) : bool := negb (v =? UNDEF32) && negb (v =? lower) && negb (v =? upper).

(** sp2::is_absolute_channel_number_in_range as used in conditions; C32_in_range shows that it always returns. *)
Definition channel_in_range (n : N) : bool := match is_absolute_channel_number_in_range n with Ok b => b | _ => false end.

Definition is_some {A} (o : option A) : bool := match o with Some _ => true | None => false end.
(** !o.has_value() || p(o.value()) *)
Definition opt_all {A} (p : A -> bool) (o : option A) : bool := match o with Some x => p x | None => true end.
(** o.has_value() * k *)
Definition opt_size {A} (o : option A) (k : nat) : nat := match o with Some _ => k | None => 0%nat end.
(** (b >> i) & 1 as a bool *)
Definition flag (b i : N) : bool := negb (N.land (N.shiftr b i) 1 =? 0).

(** if (o.has_value()) { write at &mac_pdu_offset[offset]; offset += k; } *)
Definition put {A} (o : option A) (w : A -> list N -> nat -> res (list N)) (k : nat) (s : list N * nat) : res (list N * nat) :=
  match o with
  | None => Ok s
  | Some x => do m <- w x (fst s) (snd s) ; Ok (m, (snd s + k)%nat)
  end.
(** if (present) { read at &mac_pdu_offset[offset]; offset += k; } *)
Definition get {A} (present : bool) (r : list N -> nat -> res A) (k : nat) (m : list N) (off : nat) : res (option A * nat) :=
  if present then do x <- r m off ; Ok (Some x, (off + k)%nat) else Ok (None, off).

(** mac_pdu_offset[offset] = v *)
Definition wr_byte (v : N) (m : list N) (off : nat) : res (list N) := st m off v.
(** mac_pdu_offset[offset] & bitmask_lsb<4>() *)
Definition rd_low4 (m : list N) (off : nat) : res N := do b <- ld m off ; Ok (N.land b 15).
(** A channel number in two bytes, as all messages write and read it. *)
Definition wr_channel (v : N) (m : list N) (off : nat) : res (list N) :=
  do m <- st m off (N.shiftr v 8) ; st m (off + 1) (N.land v 255).
Definition rd_channel (m : list N) (off : nat) : res N :=
  do lo <- ld m (off + 1) ; do hi <- ld m off ; Ok (N.lor lo (N.shiftl (N.land hi 31) 8)).
(** l2b_lower / b2l_lower of a uint32_t in k bytes *)
Definition wr_num (k : nat) (v : N) (m : list N) (off : nat) : res (list N) := l2b_lower m off 4 v k.
Definition rd_num (k : nat) (m : list N) (off : nat) : res N := b2l_lower m off 4 k.
