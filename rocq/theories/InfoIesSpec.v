(** ETSI TS 103 636-4, 6.4.3: information elements as bit fields. The arguments [r], [r1], ... are the reserved bits, zero
    when sending. *)
From Verif Require Import Base WireSpec MacHeader ChannelsSpec BeaconsSpec AssociationSpec InfoIes CapabilityIes.
Open Scope N_scope.

Definition ds_ok (c : radio_status) : Prop := 1 <= ds_flag c <= 2 /\ ds_duration c <= 11.
Definition ds_fields (c : radio_status) (r : N) : list (N * N) := [(2, r); (2, ds_flag c); (4, ds_duration c)].

Definition si_ok (c : security_info) : Prop := si_key c < 4 /\ si_iv c <= 2 /\ si_hpc c < 2 ^ 32.
Definition si_fields (c : security_info) (version : N) : list (N * N) := [(2, version); (2, si_key c); (4, si_iv c); (32, si_hpc c)].

Definition ri_ok (c : route_info) : Prop := ri_sink c < 2 ^ 32 /\ ri_cost c < 256 /\ ri_seq c < 256.
Definition ri_fields (c : route_info) : list (N * N) := [(32, ri_sink c); (8, ri_cost c); (8, ri_seq c)].

(** One assignment if it is a single one, otherwise at least two. *)
Definition ga_ok (c : group_assignment) : Prop :=
  (ga_single c = 1 /\ length (ga_assignments c) = 1%nat \/ ga_single c = 0 /\ (2 <= length (ga_assignments c))%nat) /\
  ga_group c < 128 /\ Forall (fun a => fst a < 2 /\ snd a < 128) (ga_assignments c).
Definition ga_fields (c : group_assignment) : list (N * N) :=
  [(1, ga_single c); (7, ga_group c)] ++ flat_map (fun a => [(1, fst a); (7, snd a)]) (ga_assignments c).

Definition li_ok (c : load_info) : Prop :=
  li_max_assoc c < 2 /\ li_traffic c < 256 /\ li_max_nof c < (if li_max_assoc c =? 0 then 256 else 65536) /\ li_ft c < 256 /\
  if_present (fun p => p < 256) (li_pt c) /\ if_present (fun p => p < 256) (li_rach c) /\
  if_present (fun p => fst p < 256 /\ snd p < 256) (li_channel c).
Definition li_fields (c : load_info) (r : N) : list (N * N) :=
  [(4, r); (1, li_max_assoc c); (1, present (li_pt c)); (1, present (li_rach c)); (1, present (li_channel c)); (8, li_traffic c);
   (if li_max_assoc c =? 0 then 8 else 16, li_max_nof c); (8, li_ft c)] ++
  field_opt (li_pt c) (fun p => [(8, p)]) ++ field_opt (li_rach c) (fun p => [(8, p)]) ++
  field_opt (li_channel c) (fun p => [(8, fst p); (8, snd p)]).

Definition mr_ok (c : measurement_report) : Prop :=
  if_present (fun p => p < 256) (mr_snr c) /\ if_present (fun p => p < 256) (mr_rssi_2 c) /\
  if_present (fun p => p < 256) (mr_rssi_1 c) /\ if_present (fun p => p < 256) (mr_tx_count c) /\ mr_rach c < 2.
Definition mr_fields (c : measurement_report) (r : N) : list (N * N) :=
  [(3, r); (1, present (mr_snr c)); (1, present (mr_rssi_2 c)); (1, present (mr_rssi_1 c)); (1, present (mr_tx_count c)); (1, mr_rach c)] ++
  field_opt (mr_snr c) (fun p => [(8, p)]) ++ field_opt (mr_rssi_2 c) (fun p => [(8, p)]) ++
  field_opt (mr_rssi_1 c) (fun p => [(8, p)]) ++ field_opt (mr_tx_count c) (fun p => [(8, p)]).

(** The capabilities of the physical layer; [r]: the three groups of reserved bits *)
Definition pc_ok (p : phy_capability) : Prop :=
  pc_power_class p <= 2 /\ pc_nss p <= 3 /\ pc_diversity p <= 3 /\ pc_gain_index p <= 8 /\ pc_max_mcs p <= 9 /\
  pc_soft_buffer p <= 8 /\ pc_harq p <= 3 /\ pc_delay p <= 6.
Definition ad_ok (a : additional) : Prop := ad_mu a <= 3 /\ ad_beta a <= 5 /\ pc_ok (ad_phy a).
Definition pc_fields (p : phy_capability) (r : N * N * N) : list (N * N) :=
  [(1, fst (fst r)); (3, pc_power_class p); (2, pc_nss p); (2, pc_diversity p); (4, pc_gain_index p); (4, pc_max_mcs p);
   (4, pc_soft_buffer p); (2, pc_harq p); (2, snd (fst r)); (4, pc_delay p); (4, snd r)].
Definition ad_fields (a : additional) (r0 : N) (r : N * N * N) : list (N * N) :=
  [(3, ad_mu a); (4, ad_beta a); (1, r0)] ++ pc_fields (ad_phy a) r.
Definition cap_ok (c : rd_capability) : Prop :=
  (length (cap_additional c) <= 7)%nat /\ Forall ad_ok (cap_additional c) /\ 1 <= cap_release c <= 4 /\ cap_modes c <= 2 /\
  cap_security c <= 1 /\ cap_dlc c <= 4 /\ pc_ok (cap_phy c).
(** [rs]: the reserved bits of the additional capabilities, one entry for each *)
Definition cap_fields (c : rd_capability) (r1 r2 : N) (r3 : N * N * N) (rs : list (N * (N * N * N))) : list (N * N) :=
  [(3, N.of_nat (length (cap_additional c))); (5, cap_release c); (4, r1); (2, cap_modes c); (1, bit (cap_mesh c)); (1, bit (cap_scheduled c));
   (3, cap_security c); (3, cap_dlc c); (2, r2)] ++ pc_fields (cap_phy c) r3 ++
  flat_map (fun x => ad_fields (fst x) (fst (snd x)) (snd (snd x))) (combine (cap_additional c) rs).
Definition unreserved (c : rd_capability) : list (N * (N * N * N)) := map (fun _ => (0, (0, 0, 0))) (cap_additional c).

Definition ng_ok (c : neighbouring) : Prop :=
  ng_id c < 65536 /\ ng_nbp c <= 6 /\ ng_cbp c <= 10 /\ if_present channel (ng_channel c) /\ if_present (fun t => t < 2 ^ 32) (ng_time c) /\
  if_present (fun p => p < 256) (ng_rssi_2 c) /\ if_present (fun p => p < 256) (ng_snr c) /\
  if_present (fun v => fst v <= 3 /\ snd v <= 5) (ng_class c).
Definition ng_fields (c : neighbouring) (r1 r2 r3 : N) : list (N * N) :=
  [(16, ng_id c); (2, r1); (1, present (ng_class c)); (1, present (ng_snr c)); (1, present (ng_rssi_2 c)); (1, bit (ng_constraints c));
   (1, present (ng_channel c)); (1, present (ng_time c)); (4, ng_nbp c); (4, ng_cbp c)] ++
  field_opt (ng_channel c) (fun n => [(3, r2); (13, n)]) ++ field_opt (ng_time c) (fun t => [(32, t)]) ++
  field_opt (ng_rssi_2 c) (fun p => [(8, p)]) ++ field_opt (ng_snr c) (fun p => [(8, p)]) ++
  field_opt (ng_class c) (fun v => [(3, fst v); (4, snd v); (1, r3)]).

(** Broadcast indication: paging, with a short or a long identity *)
Definition paging (id_type id : N) : Prop := id_type = 0 /\ id < 65536 \/ id_type = 1 /\ id < 2 ^ 32.
(** the codebook indices of ETSI TS 103 636-3, 6.3.4 *)
Definition mimo_ok (antennas layers index : N) : Prop :=
  antennas = 2 /\ (layers = 0 /\ index <= 5 \/ layers = 1 /\ index <= 2) \/
  antennas = 4 /\ (layers = 0 /\ index <= 27 \/ layers = 1 /\ index <= 21 \/ layers = 2 /\ index <= 4).
(** The octets before the feedback; the number of bits of the identity depends on its type. *)
Definition bi_fields (type id_type ack feedback : N) (follows : bool) (id : N) : list (N * N) :=
  [(3, type); (1, id_type); (1, ack); (2, feedback); (1, bit follows); (if id_type =? 0 then 16 else 32, id)].
(** The receiver gain the standard has a code for: the smallest that is not less than [dB], at most 6 dB *)
Definition gain_for (dB g : Z) : Prop :=
  (exists k, 0 <= k <= 8 /\ g = -10 + 2 * k)%Z /\
  (dB <= g \/ g = 6)%Z /\ (forall k, 0 <= k <= 8 -> dB <= -10 + 2 * k -> g <= -10 + 2 * k)%Z.
