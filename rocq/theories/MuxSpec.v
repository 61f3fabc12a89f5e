(** MAC multiplexing header on the wire (ETSI TS 103 636-4, 6.3.4). *)
From Verif Require Import Base WireSpec MacHeader Mux.
Open Scope N_scope.

(** Tables 6.3.4-2 to 6.3.4-4: the IE types that exist (the two project specific ones 29 and 30
    included), for MAC extension 00, 01, 10 and for extension 11 with payload length 0 and 1. *)
Definition ie_types_00_01_10 : list N :=
  [0; 1; 2; 3; 4; 5; 6; 8; 9; 10; 11; 12; 13; 14; 15; 16; 17; 18; 19; 20; 21; 22; 23; 24; 25; 29; 30; 62; 63].
Definition ie_types_11_0 : list N := [0; 1; 16; 30].
Definition ie_types_11_1 : list N := [0; 1; 30].

(** Figure 6.3.4-1, options a) to f): MAC extension, IE type and length. An element without a length
    field has no length in its header. *)
Definition mux_ok (h : mmh) : Prop :=
  (mx_ext h = 0 /\ In (mx_ie h) ie_types_00_01_10 /\ mx_len h = UNDEF32) \/
  (mx_ext h = 1 /\ In (mx_ie h) ie_types_00_01_10 /\ mx_len h <= 255) \/
  (mx_ext h = 2 /\ In (mx_ie h) ie_types_00_01_10 /\ mx_len h <= 65535) \/
  (mx_ext h = 3 /\ In (mx_ie h) ie_types_11_0 /\ mx_len h = 0) \/
  (mx_ext h = 3 /\ In (mx_ie h) ie_types_11_1 /\ mx_len h = 1).

Definition mux_fields (h : mmh) : list (N * N) :=
  match mx_ext h with
  | 0 => [(2, 0); (6, mx_ie h)]
  | 1 => [(2, 1); (6, mx_ie h); (8, mx_len h)]
  | 2 => [(2, 2); (6, mx_ie h); (16, mx_len h)]
  | _ => [(2, 3); (1, mx_len h); (5, mx_ie h)]
  end.

(** Number of bytes as told by the first byte. *)
Definition mux_bytes (first : N) : nat :=
  match (first / 64)%N with 1%N => 2%nat | 2%N => 3%nat | _ => 1%nat end.

(** Which element a header announces, as (extension, lengths, IE type, element): the combinations of
    the tables the receiver knows. [None] as length stands for any. *)
Definition announcements : list (N * option N * N * kind) :=
  [(0, None, 0, Padding); (1, None, 0, Padding); (3, Some 0, 0, Padding); (3, Some 1, 0, Padding);
   (1, None, 1, Higher_Layer_Signalling); (1, None, 2, Higher_Layer_Signalling);
   (2, None, 1, Higher_Layer_Signalling); (2, None, 2, Higher_Layer_Signalling);
   (1, None, 3, User_Plane_Data); (1, None, 4, User_Plane_Data);
   (1, None, 5, User_Plane_Data); (1, None, 6, User_Plane_Data);
   (2, None, 3, User_Plane_Data); (2, None, 4, User_Plane_Data);
   (2, None, 5, User_Plane_Data); (2, None, 6, User_Plane_Data);
   (0, None, 8, Network_Beacon); (0, None, 9, Cluster_Beacon);
   (0, None, 10, Association_Request); (0, None, 11, Association_Response); (0, None, 12, Association_Release);
   (0, None, 13, Reconfiguration_Request); (0, None, 14, Reconfiguration_Response);
   (0, None, 16, Mac_Security_Info); (0, None, 17, Route_Info);
   (0, None, 18, Resource_Allocation); (0, None, 19, Random_Access_Resource);
   (0, None, 20, RD_Capability); (0, None, 21, Neighbouring); (0, None, 22, Broadcast_Indication);
   (1, None, 23, Group_Assignment); (2, None, 23, Group_Assignment);
   (0, None, 24, Load_Info); (0, None, 25, Measurement_Report);
   (3, Some 0, 1, Configuration_Request); (3, Some 1, 1, Radio_Device_Status);
   (0, None, 29, Power_Target); (0, None, 30, Time_Announce)].
Definition announces (h : mmh) (k : kind) : Prop :=
  exists l, In (mx_ext h, l, mx_ie h, k) announcements /\
    match l with None => True | Some x => mx_len h = x end.

(** Both unpack steps of the receiver on the bytes behind a pointer. *)
Definition receive (act : kind -> bool) (m : list N) : res (mmh * bool) :=
  do (h, ok) <- mmh_unpack_ext_ie act mmh_zero m ;
  do h <- mmh_unpack_length h m ;
  Ok (h, ok).
