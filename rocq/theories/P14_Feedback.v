(** C18: feedback info round-trips. *)
From Verif Require Import Base Bytes WireSpec ByteFacts Feedback FeedbackSpec FeedbackFacts P12_Plcf.
Open Scope N_scope.

(** Sendable feedback of any format is written to the low twelve bits, the four high bits stay. *)
Theorem C18_layout : forall p fmt m,
  (2 <= length m)%nat -> nth 0 m 0 < 256 -> fb_ok (fb_view fmt p) -> fb_buf (fb_view fmt p) < 4294967296 ->
  exists m' level, pool_pack p fmt m = Ok m' /\
    writes 2 m m' ((4, N.shiftr (nth 0 m 0) 4) :: fb_fields (fb_view fmt p) level) /\
    buffer_level (fb_buf (fb_view fmt p)) level.
Proof.
  intros p fmt m Hl Hb Hok Hs. destruct (pool_pack_fields p fmt m Hl Hb Hok) as (m' & E & W).
  eexists _, _. split; [exact E|]. split; [exact W|]. now apply status_level.
Qed.

(** Anything else, including unknown formats, aborts. *)
Theorem C18_unsendable_aborts : forall p fmt m,
  (2 <= length m)%nat -> ~ fb_ok (fb_view fmt p) -> pool_pack p fmt m = Abort.
Proof. exact pool_pack_abort. Qed.

(** Round trip: every field arrives; the buffer size arrives as the lower end of its level; what the
    receiver holds for other formats is untouched. *)
Theorem C18_round_trip : forall p old fmt m,
  (2 <= length m)%nat -> nth 0 m 0 < 256 -> fb_ok (fb_view fmt p) -> fb_buf (fb_view fmt p) < 4294967296 ->
  exists m' level p', pool_pack p fmt m = Ok m' /\
    buffer_level (fb_buf (fb_view fmt p)) level /\
    pool_unpack old fmt m' = Ok (p', true) /\
    fb_view fmt p' = with_buf (fb_view fmt p) (level_min level) /\
    (forall k, k <> fmt -> fb_view k p' = fb_view k old).
Proof.
  intros p old fmt m Hl Hb Hok Hs. destruct (pool_pack_fields p fmt m Hl Hb Hok) as (m' & E & W).
  pose proof W as (W1 & W2 & W3 & W4).
  destruct (pool_unpack_complete old fmt m' p _ _ ltac:(lia) W3 Hok (status_le _) W4) as (p' & E' & Ho & Hv).
  eexists m', _, p'. split; [exact E|]. split; [now apply status_level|]. auto.
Qed.

(** Received bytes never abort, and are accepted exactly if they spell sendable feedback. *)
Theorem C18_unpack_exact : forall p fmt m, (2 <= length m)%nat -> bytes (firstn 2 m) ->
  exists p' ok, pool_unpack p fmt m = Ok (p', ok) /\
    (forall k, k <> fmt -> fb_view k p' = fb_view k p) /\
    (ok = true <-> exists q hi level, fb_ok (fb_view fmt q) /\ level <= 15 /\
       spells 2 m ((4, hi) :: fb_fields (fb_view fmt q) level)) /\
    (ok = true -> fb_ok (fb_view fmt p') /\ exists hi level, level <= 15 /\
       with_buf (fb_view fmt p') (level_min level) = fb_view fmt p' /\
       spells 2 m ((4, hi) :: fb_fields (fb_view fmt p') level)).
Proof.
  intros p fmt m Hl Hb. destruct (pool_unpack_total p fmt m Hl) as (p' & ok & E & Hs).
  exists p', ok. split; [exact E|]. split; [exact Hs|].
  assert (S : ok = true -> fb_ok (fb_view fmt p') /\ exists hi level, level <= 15 /\
       with_buf (fb_view fmt p') (level_min level) = fb_view fmt p' /\
       spells 2 m ((4, hi) :: fb_fields (fb_view fmt p') level)).
  { intros ->. destruct (pool_unpack_sound p fmt m p' Hl Hb E) as (Hok & level & L1 & L2 & L3).
    split; [exact Hok|]. eauto. }
  split; [|exact S]. split.
  - intros H. destruct (S H) as (Hok & hi & level & L1 & _ & L3). eauto 6.
  - intros (q & hi & level & Hok & Hlv & Hsp).
    destruct (pool_unpack_complete p fmt m q hi level Hl Hb Hok Hlv Hsp) as (p'' & E' & _). congruence.
Qed.

(** The received buffer size never exceeds the true one, and is below it unless the buffer is empty. *)
Theorem C18_received_size_below_true : forall size level,
  buffer_level size level -> level_min level <= size /\ (size <> 0 -> level_min level < size).
Proof.
  intros size level H. destruct (N.eq_dec level 0) as [->|Hn].
  - change (level_min 0) with 0. lia.
  - pose proof (level_min_lt _ _ H Hn). lia.
Qed.

(** Drift: forwarding a received size sends the next lower level, so a non-empty buffer is reported
    empty after as many hops as its level. *)
Theorem C18_forwarding_lowers_level : forall level, 1 <= level <= 15 -> buffer_level (level_min level) (level - 1).
Proof. exact level_of_min. Qed.
Theorem C18_nonempty_reported_empty_refuted : exists size, size <> 0 /\ buffer_level size 1 /\ level_min 1 = 0.
Proof.
  exists 16. split; [discriminate|]. split; [|reflexivity]. exact (status_level 16 eq_refl).
Qed.

Example C18_hypotheses_met :
  fb_ok (fb_view 1 ex_pool) /\ fb_buf (fb_view 1 ex_pool) = 100 /\
  pool_pack ex_pool 1 [255; 7; 9] = Ok [247; 70; 9] /\
  (match pool_unpack ex_pool 1 [247; 70; 9] with Ok (p, true) => pf1 p = mkF1 3 ACK 64 5 | _ => False end).
Proof. cbn. unfold tf_ok. repeat split; auto; try lia; try (right; reflexivity); vm_compute; reflexivity. Qed.

Print Assumptions C18_layout.
Print Assumptions C18_unsendable_aborts.
Print Assumptions C18_round_trip.
Print Assumptions C18_unpack_exact.
Print Assumptions C18_received_size_below_true.
Print Assumptions C18_forwarding_lowers_level.
Print Assumptions C18_nonempty_reported_empty_refuted.
