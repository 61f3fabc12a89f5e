(** Model of lib/src/sections_part4/mac_architecture/identity.cpp and
    lib/include/dectnrp/sections_part4/mac_architecture/identity.hpp. *)
From Verif Require Import Base.
Open Scope N_scope.

(** identity.hpp 34-41 *)
Definition NetworkID_reserved : N := 0.
Definition LongRadioDeviceID_reserved : N := 0.
Definition LongRadioDeviceID_backend : N := 4294967294.
Definition LongRadioDeviceID_broadcast : N := 4294967295.
Definition ShortRadioDeviceID_reserved : N := 0.
Definition ShortRadioDeviceID_broadcast : N := 65535.

(** identity.hpp 43-45 *)
Definition full_to_short_network_id (n : N) : N := N.land n 255.

(** identity.hpp 47-51 *)
Record identity := mkId {
  NetworkID : N;
  ShortNetworkID : N;
  LongRadioDeviceID : N;
  ShortRadioDeviceID : N
}.

(** identity.cpp 28-45 *)
Definition identity_ctor (n l s : N) : res identity :=
  guard (negb (n =? NetworkID_reserved))
  (guard (negb (l =? LongRadioDeviceID_reserved) && negb (l =? LongRadioDeviceID_backend) &&
          negb (l =? LongRadioDeviceID_broadcast))
  (guard (negb (s =? ShortRadioDeviceID_reserved) && negb (s =? ShortRadioDeviceID_broadcast))
  (Ok (mkId n (full_to_short_network_id n) l s)))).

(** identity.cpp 47-53 *)
Definition is_valid_NetworkID (n : N) : bool := if n =? NetworkID_reserved then false else true.
(** identity.cpp 55-65, bitmask_lsb<8>() = 255 *)
Definition is_valid_ShortNetworkID (n : N) : bool :=
  if n =? NetworkID_reserved then false else if 255 <? n then false else true.
(** identity.cpp 67-73 *)
Definition is_valid_LongRadioDeviceID (n : N) : bool :=
  if n =? LongRadioDeviceID_reserved then false else true.
(** identity.cpp 75-85, bitmask_lsb<16>() = 65535 *)
Definition is_valid_ShortRadioDeviceID (n : N) : bool :=
  if n =? ShortRadioDeviceID_reserved then false else if 65535 <? n then false else true.
