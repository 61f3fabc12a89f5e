(** Power target and time announce elements (project extensions) and padding (ETSI TS 103 636-4, 6.4.3.8) on the wire. *)
From Verif Require Import Base WireSpec SmallIes.
Open Scope N_scope.

Definition ta_ok (t : time_announce) : Prop :=
  ta_type t <= 2 /\ ta_frames t <= 255 /\ (0 <= ta_sec t < 2 ^ 63)%Z /\ ta_tai t <= 255.
Definition ta_fields (t : time_announce) : list (N * N) :=
  [(8, ta_type t); (8, ta_frames t); (64, Z.to_N (ta_sec t)); (8, ta_tai t)].

(** 6.4.3.8: one octet of padding is MAC extension 11, length 0, IE type 00000; two octets are extension 11, length 1, IE
    type 00000 and a zero octet; more are extension 01, IE type 000000, an 8 bit length and that many zero octets. *)
Inductive padding_ie : list N -> Prop :=
| padding_1 : padding_ie [192]
| padding_2 : padding_ie [224; 0]
| padding_n : forall n, (1 <= n <= 255)%nat -> padding_ie (64 :: N.of_nat n :: repeat 0 n).
Definition paddings (l : list N) : Prop := exists ies, Forall padding_ie ies /\ l = concat ies.
