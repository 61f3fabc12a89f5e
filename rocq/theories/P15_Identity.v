(** C45: identities are well-formed. *)
From Verif Require Import Base BitSolve Identity.
Open Scope N_scope.

(** Construction succeeds exactly for unreserved IDs, and keeps them; the short network ID is the low
    byte of the network ID. *)
Theorem C45_identity_construction : forall n l s,
  n < 4294967296 -> l < 4294967296 -> s < 4294967296 ->
  match identity_ctor n l s with
  | Ok i => NetworkID i = n /\ LongRadioDeviceID i = l /\ ShortRadioDeviceID i = s /\
            ShortNetworkID i = n mod 256 /\
            1 <= n /\ 1 <= l <= 4294967293 /\ s <> 0 /\ s <> 65535
  | Abort => n = 0 \/ l = 0 \/ 4294967294 <= l \/ s = 0 \/ s = 65535
  | _ => False
  end.
Proof.
  intros n l s Hn Hl Hs. unfold identity_ctor, guard.
  unfold NetworkID_reserved, LongRadioDeviceID_reserved, LongRadioDeviceID_backend,
    LongRadioDeviceID_broadcast, ShortRadioDeviceID_reserved, ShortRadioDeviceID_broadcast.
  destruct (N.eqb_spec n 0); cbn [negb]; [lia|].
  destruct (N.eqb_spec l 0), (N.eqb_spec l 4294967294), (N.eqb_spec l 4294967295); cbn [negb andb]; try lia.
  destruct (N.eqb_spec s 0), (N.eqb_spec s 65535); cbn [negb andb]; try lia.
  cbn [NetworkID LongRadioDeviceID ShortRadioDeviceID ShortNetworkID].
  repeat split; try lia. unfold full_to_short_network_id. change 255 with (N.ones 8). now rewrite N.land_ones.
Qed.

(** The short network ID is valid exactly if the low byte of the network ID is not zero: a quarter of a
    percent of the valid network IDs give a header that cannot be packed. *)
Theorem C45_short_network_id_validity : forall n, n < 4294967296 ->
  (is_valid_ShortNetworkID (full_to_short_network_id n) = true <-> n mod 256 <> 0).
Proof.
  intros n Hn. unfold full_to_short_network_id. change 255 with (N.ones 8). rewrite N.land_ones.
  change (2 ^ 8) with 256. unfold is_valid_ShortNetworkID, NetworkID_reserved.
  pose proof (N.mod_lt n 256 ltac:(discriminate)).
  destruct (N.eqb_spec (n mod 256) 0); [split; [discriminate|lia]|].
  destruct (N.ltb_spec 255 (n mod 256)); [lia|]. split; auto.
Qed.

(** So a network ID can be valid, accepted by the constructor, and unusable. *)
Theorem C45_valid_network_id_unusable_refuted : exists n,
  is_valid_NetworkID n = true /\
  (match identity_ctor n 1 1 with Ok i => is_valid_ShortNetworkID (ShortNetworkID i) = false | _ => False end).
Proof. exists 256. vm_compute. split; reflexivity. Qed.

(** A constructor-accepted short radio device ID need not fit the sixteen bits of the wire format. *)
Theorem C45_short_rd_id_not_checked_refuted : exists s,
  (match identity_ctor 1 1 s with Ok i => is_valid_ShortRadioDeviceID (ShortRadioDeviceID i) = false | _ => False end).
Proof. exists 65536. vm_compute. reflexivity. Qed.

(** The validity predicates, in words: not reserved, and not wider than the wire field. *)
Theorem C45_validity_predicates : forall x, x < 4294967296 ->
  (is_valid_NetworkID x = true <-> 1 <= x) /\ (is_valid_LongRadioDeviceID x = true <-> 1 <= x) /\
  (is_valid_ShortNetworkID x = true <-> 1 <= x <= 255) /\ (is_valid_ShortRadioDeviceID x = true <-> 1 <= x <= 65535).
Proof.
  intros x Hx. unfold is_valid_NetworkID, is_valid_LongRadioDeviceID, is_valid_ShortNetworkID,
    is_valid_ShortRadioDeviceID, NetworkID_reserved, LongRadioDeviceID_reserved, ShortRadioDeviceID_reserved.
  destruct (N.eqb_spec x 0), (N.ltb_spec 255 x), (N.ltb_spec 65535 x); repeat split; try discriminate; try lia; auto.
Qed.

Example C45_hypotheses_met : identity_ctor 305419896 1000 2000 = Ok (mkId 305419896 120 1000 2000).
Proof. vm_compute. reflexivity. Qed.

Print Assumptions C45_identity_construction.
Print Assumptions C45_short_network_id_validity.
Print Assumptions C45_valid_network_id_unusable_refuted.
Print Assumptions C45_short_rd_id_not_checked_refuted.
Print Assumptions C45_validity_predicates.
