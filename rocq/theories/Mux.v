(** Model of lib/{src,include/dectnrp}/sections_part4/mac_pdu/mac_multiplexing_header.{cpp,hpp}.
    Enumerations are their underlying uint32_t, the union ie_type_t is the uint32_t all its members
    share, the type_info pointer is an option of the message or information element it names. *)
From Verif Require Import Base Bytes MacHeader.
Open Scope N_scope.

(** The classes derived from mmie_t. *)
Inductive kind :=
| Padding | Higher_Layer_Signalling | User_Plane_Data | Network_Beacon | Cluster_Beacon
| Association_Request | Association_Response | Association_Release
| Reconfiguration_Request | Reconfiguration_Response | Mac_Security_Info | Route_Info
| Resource_Allocation | Random_Access_Resource | RD_Capability | Neighbouring
| Broadcast_Indication | Group_Assignment | Load_Info | Measurement_Report
| Configuration_Request | Radio_Device_Status | Power_Target | Time_Announce.
Definition kind_dec (a b : kind) : {a = b} + {a <> b}.
Proof. decide equality. Defined.

(** mac_messages_and_ie/mmie_activate.hpp: the macros ACTIVATE_* left defined in the repository. *)
Definition activated (k : kind) : bool :=
  match k with
  | Padding | User_Plane_Data | Cluster_Beacon | Power_Target | Time_Announce => true
  | _ => false
  end.

(** mac_multiplexing_header.hpp 134-139 *)
Record mmh := mkMmh { mx_ext : N; mx_ie : N; mx_len : N; mx_tinfo : option kind }.
(** mac_multiplexing_header.cpp 42-47 *)
Definition mmh_zero : mmh := mkMmh UNDEF32 UNDEF32 UNDEF32 None.

(** mac_multiplexing_header.cpp 49-80; common::adt::is_valid of the IE types (enumeration.hpp) only
    rejects not_defined *)
Definition mmh_valid (h : mmh) : bool :=
  match mx_ext h with
  | 3 => match mx_len h with
         | 0 => negb (mx_ie h =? UNDEF32)
         | 1 => negb (mx_ie h =? UNDEF32)
         | _ => false
         end
  | 1 => negb (255 <? mx_len h) && negb (65535 <? mx_len h) && negb (mx_ie h =? UNDEF32)
  | 2 => negb (65535 <? mx_len h) && negb (mx_ie h =? UNDEF32)
  | 0 => negb (mx_ie h =? UNDEF32)
  | _ => false
  end.
(** mac_multiplexing_header.cpp 82-97; is_valid of mac_ext_t rejects not_defined and upper = 4 *)
Definition mmh_size (h : mmh) : res nat :=
  guard (negb (mx_ext h =? UNDEF32) && negb (mx_ext h =? 4))
  (match mx_ext h with
   | 1 => Ok 2%nat
   | 2 => Ok 3%nat
   | _ => Ok 1%nat
   end).
(** mac_multiplexing_header.cpp 99-140 *)
Definition mmh_pack (h : mmh) (m : list N) : res (list N) :=
  guard (mmh_valid h)
  (do m <- st m 0 (N.shiftl (mx_ext h) 6) ;
   match mx_ext h with
   | 3 => do m <- orst m 0 (N.shiftl (mx_len h) 5) ; orst m 0 (mx_ie h)
   | 0 => orst m 0 (mx_ie h)
   | 1 => do m <- orst m 0 (mx_ie h) ; st m 1 (N.land (mx_len h) 255)
   | _ => do m <- orst m 0 (mx_ie h) ; l2b_lower m 1 4 (mx_len h) 2
   end).

(** mac_multiplexing_header.hpp 146-186 *)
Definition ie_000110 (v : N) : N :=
  if (v <=? 6) || ((8 <=? v) && (v <=? 25)) || (v =? 29) || (v =? 30) || (v =? 62) || (v =? 63)
  then v else UNDEF32.
(** mac_multiplexing_header.hpp 188-200 *)
Definition ie_11_len_0 (v : N) : N :=
  if (v =? 0) || (v =? 1) || (v =? 16) || (v =? 30) then v else UNDEF32.
(** mac_multiplexing_header.hpp 202-213 *)
Definition ie_11_len_1 (v : N) : N :=
  if (v =? 0) || (v =? 1) || (v =? 30) then v else UNDEF32.

(** A case label under #ifdef ACTIVATE_k. *)
Definition when (act : kind -> bool) (k : kind) : option kind := if act k then Some k else None.

(** mac_multiplexing_header.cpp 169-288, switch for No_Length_Field *)
Definition tinfo_ext0 (act : kind -> bool) (ie : N) : option kind :=
  match ie with
  | 0 => when act Padding
  | 8 => when act Network_Beacon
  | 9 => when act Cluster_Beacon
  | 10 => when act Association_Request
  | 11 => when act Association_Response
  | 12 => when act Association_Release
  | 13 => when act Reconfiguration_Request
  | 14 => when act Reconfiguration_Response
  | 16 => when act Mac_Security_Info
  | 17 => when act Route_Info
  | 18 => when act Resource_Allocation
  | 19 => when act Random_Access_Resource
  | 20 => when act RD_Capability
  | 21 => when act Neighbouring
  | 22 => when act Broadcast_Indication
  | 24 => when act Load_Info
  | 25 => when act Measurement_Report
  | 29 => when act Power_Target
  | 30 => when act Time_Announce
  | _ => None
  end.
(** mac_multiplexing_header.cpp 301-334, switch for Length_Field_8_Bit *)
Definition tinfo_ext1 (act : kind -> bool) (ie : N) : option kind :=
  match ie with
  | 0 => when act Padding
  | 1 => when act Higher_Layer_Signalling
  | 2 => when act Higher_Layer_Signalling
  | 3 => when act User_Plane_Data
  | 4 => when act User_Plane_Data
  | 5 => when act User_Plane_Data
  | 6 => when act User_Plane_Data
  | 23 => when act Group_Assignment
  | _ => None
  end.
(** mac_multiplexing_header.cpp 347-374, switch for Length_Field_16_Bit *)
Definition tinfo_ext2 (act : kind -> bool) (ie : N) : option kind :=
  match ie with
  | 1 => when act Higher_Layer_Signalling
  | 2 => when act Higher_Layer_Signalling
  | 3 => when act User_Plane_Data
  | 4 => when act User_Plane_Data
  | 5 => when act User_Plane_Data
  | 6 => when act User_Plane_Data
  | 23 => when act Group_Assignment
  | _ => None
  end.
(** mac_multiplexing_header.cpp 394-411 *)
Definition tinfo_ext3_0 (act : kind -> bool) (ie : N) : option kind :=
  match ie with
  | 0 => when act Padding
  | 1 => when act Configuration_Request
  | _ => None
  end.
(** mac_multiplexing_header.cpp 420-437 *)
Definition tinfo_ext3_1 (act : kind -> bool) (ie : N) : option kind :=
  match ie with
  | 0 => when act Padding
  | 1 => when act Radio_Device_Status
  | _ => None
  end.

(** mac_multiplexing_header.cpp 147-451. [act] tells which ACTIVATE_* macros are defined. The result
    is the header left behind and the value returned. *)
Definition mmh_unpack_ext_ie (act : kind -> bool) (h : mmh) (m : list N) : res (mmh * bool) :=
  guard ((mx_ext h =? UNDEF32) && (mx_len h =? UNDEF32) && match mx_tinfo h with None => true | _ => false end)
  (do b <- ld m 0 ;
   let ext := if N.shiftr b 6 <? 4 then N.shiftr b 6 else UNDEF32 in
   let '(ie, t) :=
     match ext with
     | 0 => let ie := ie_000110 (N.land b 63) in (ie, tinfo_ext0 act ie)
     | 1 => let ie := ie_000110 (N.land b 63) in (ie, tinfo_ext1 act ie)
     | 2 => let ie := ie_000110 (N.land b 63) in (ie, tinfo_ext2 act ie)
     | 3 => if N.land (N.shiftr b 5) 1 =? 0
            then let ie := ie_11_len_0 (N.land b 31) in (ie, tinfo_ext3_0 act ie)
            else let ie := ie_11_len_1 (N.land b 31) in (ie, tinfo_ext3_1 act ie)
     | _ => (mx_ie h, None)
     end in
   Ok (mkMmh ext ie (mx_len h) t, match t with None => false | _ => true end)).

(** mac_multiplexing_header.cpp 453-479 *)
Definition mmh_unpack_length (h : mmh) (m : list N) : res mmh :=
  guard (mx_len h =? UNDEF32)
  (match mx_ext h with
   | 0 => Ok (mkMmh (mx_ext h) (mx_ie h) UNDEF32 (mx_tinfo h))
   | 1 => do l <- ld m 1 ; Ok (mkMmh (mx_ext h) (mx_ie h) l (mx_tinfo h))
   | 2 => do l <- b2l_lower m 1 4 2 ; Ok (mkMmh (mx_ext h) (mx_ie h) l (mx_tinfo h))
   | 3 => do b <- ld m 0 ; Ok (mkMmh (mx_ext h) (mx_ie h) (N.land (N.shiftr b 5) 1) (mx_tinfo h))
   | _ => Abort
   end).
