(** C20: the MAC multiplexing header round-trips and is self-delimiting. *)
From Verif Require Import Base Bytes WireSpec BitSolve ByteFacts MacHeader Mux MuxSpec MuxFacts.
Open Scope N_scope.

(** Every valid header occupies exactly the announced bytes, in the layout of the standard, and the
    announced size is what the first byte tells. *)
Theorem C20_layout : forall h m, mux_ok h ->
  exists n, mmh_size h = Ok n /\ (1 <= n <= 3)%nat /\
    ((n <= length m)%nat -> exists b m', mmh_pack h m = Ok (b :: m') /\ writes n m (b :: m') (mux_fields h) /\
                                        mux_bytes b = n).
Proof.
  intros h m Hok.
  assert (E : exists n, mmh_size h = Ok n /\ (1 <= n <= 3)%nat).
  { unfold mmh_size. destruct Hok as [(E & _)|[(E & _)|[(E & _)|[(E & _)|(E & _)]]]]; rewrite E; cbn;
      eexists; (split; [reflexivity|lia]). }
  destruct E as (n & Hs & Hn). exists n. split; [exact Hs|]. split; [exact Hn|]. intros Hl.
  destruct (mux_pack_writes h m n Hok Hs Hl) as (m' & P & W).
  pose proof W as (L & K & B & Sp). destruct m' as [|b m']; [cbn [length] in L; lia|].
  exists b, m'. split; [exact P|]. split; [exact W|].
  (* the bytes behind the header do not matter for the first byte *)
  destruct n as [|n]; [lia|]. cbn [firstn] in B. inv_bytes.
  assert (S' : spells (S n) (b :: firstn n m') (mux_fields h)).
  { destruct Sp as (S1 & S2 & S3 & S4). split; [cbn [length] in *; rewrite firstn_length; lia|]. split; [exact S2|]. split; [exact S3|].
    rewrite <- S4. cbn [firstn]. rewrite firstn_firstn, Nat.min_id. reflexivity. }
  destruct (first_byte h (S n) b (firstn n m')) as (_ & _ & E); auto.
Qed.

(** The number of bytes needed is known from the first byte; once that many are there, unpacking
    reads no other byte and never aborts. *)
Theorem C20_self_delimiting : forall act b m, b < 256 -> bytes m ->
  (exists h ok, mmh_unpack_ext_ie act mmh_zero [b] = Ok (h, ok) /\
     mmh_unpack_ext_ie act mmh_zero (b :: m) = Ok (h, ok) /\ mmh_size h = Ok (mux_bytes b)) /\
  ((mux_bytes b <= length (b :: m))%nat ->
   exists h ok, receive act (b :: m) = Ok (h, ok) /\ receive act (firstn (mux_bytes b) (b :: m)) = Ok (h, ok)).
Proof.
  intros act b m Hb Hm. split.
  - unfold mmh_unpack_ext_ie, mmh_zero. cbn [mx_ext mx_len mx_tinfo mx_ie]. rewrite N.eqb_refl.
    cbn [andb guard ld rd nth_error bind].
    match goal with |- context [let '(_, _) := ?p in _] => destruct p as [i t] end.
    pose proof (shiftr6_lt b Hb) as He.
    replace (N.shiftr b 6 <? 4) with true by (symmetry; apply N.ltb_lt; lia).
    eexists. eexists. split; [reflexivity|]. split; [reflexivity|].
    unfold mmh_size, mux_bytes. cbn [mx_ext]. rewrite <- shiftr6_div.
    destruct (lt4 _ He) as [K|[K|[K|K]]]; rewrite K; reflexivity.
  - intros Hl. eexists. eexists. split; [now apply receive_raw|].
    assert (F : exists j, mux_bytes b = S j) by (unfold mux_bytes; destruct (b / 64) as [|[[]|[]|]]; eauto).
    destruct F as (j & F). rewrite F in *. cbn [firstn length] in *.
    rewrite receive_raw; [|assumption| |].
    + assert (R : raw_len b (firstn j m) = raw_len b m).
      { unfold raw_len. unfold mux_bytes in F. rewrite <- shiftr6_div in F. pose proof (shiftr6_lt b Hb) as He.
        destruct (lt4 _ He) as [K|[K|[K|K]]]; rewrite K in *; try reflexivity; injection F as <-.
        - cells m 1%nat. reflexivity.
        - cells m 2%nat. reflexivity. }
      rewrite R. reflexivity.
    + rewrite <- (firstn_skipn j m) in Hm. apply Forall_app in Hm. tauto.
    + rewrite F. cbn [length]. rewrite firstn_length. lia.
Qed.

(** A header is returned exactly if the received bytes spell it. *)
Theorem C20_unpack_exact : forall act b m h, b < 256 -> bytes m -> (mux_bytes b <= length (b :: m))%nat -> mux_ok h ->
  ((exists t ok, receive act (b :: m) = Ok (mkMmh (mx_ext h) (mx_ie h) (mx_len h) t, ok)) <->
   spells (mux_bytes b) (b :: m) (mux_fields h)).
Proof.
  intros act b m h Hb Hm Hl Hok. split.
  - intros (t & ok & R). rewrite receive_raw in R by assumption. injection R as E1 E2 E3 _ _.
    destruct (raw_spells b m Hb Hm Hl) as [U|(_ & _ & Sp)].
    + exfalso. rewrite U in E2. destruct Hok as [(_ & I & _)|[(_ & I & _)|[(_ & I & _)|[(_ & I & _)|(_ & I & _)]]]];
        rewrite <- E2 in I; vm_compute in I; intuition discriminate.
    + rewrite E1, E2, E3 in Sp. destruct h. exact Sp.
  - intros Sp. assert (Hs : mmh_size h = Ok (mux_bytes b)).
    { pose proof Sp as (_ & W & _). unfold mmh_size.
      assert (R : mux_bytes b = match mx_ext h with 1 => 2%nat | 2 => 3%nat | _ => 1%nat end).
      { unfold mux_fields in W. destruct Hok as [(E & _)|[(E & _)|[(E & _)|[(E & _)|(E & _)]]]]; rewrite E in *; cbn in W; lia. }
      rewrite R. destruct Hok as [(E & _)|[(E & _)|[(E & _)|[(E & _)|(E & _)]]]]; rewrite E; reflexivity. }
    destruct (receive_spelled act h _ b m Hb Hm Hok Hs Sp) as (_ & _ & _ & _ & R).
    eexists. eexists. exact R.
Qed.

(** The receiver announces an element exactly for the combinations of the tables that are activated. *)
Theorem C20_recognition : forall act b m h ok, b < 256 -> bytes m -> (mux_bytes b <= length (b :: m))%nat ->
  receive act (b :: m) = Ok (h, ok) ->
  (forall k, mx_tinfo h = Some k <-> act k = true /\ announces h k) /\
  (ok = true <-> exists k, act k = true /\ announces h k) /\
  (ok = true -> mux_ok h).
Proof.
  intros act b m h ok Hb Hm Hl R. rewrite receive_raw in R by assumption. injection R as <- <-.
  cbn [mx_tinfo].
  assert (T : forall k, tinfo_of act (N.shiftr b 6) (raw_ie b) (raw_len b m) = Some k <->
      act k = true /\ announces (mkMmh (N.shiftr b 6) (raw_ie b) (raw_len b m) None) k).
  { intros k. apply tinfo_announces.
    - now apply shiftr6_lt.
    - unfold raw_ie. destruct (N.shiftr b 6) as [|[[]|[]|]].
      all: try (rewrite ie_000110_spec by apply land63_lt; destruct inb; [left; apply land63_lt|right; reflexivity]).
      all: destruct (N.land (N.shiftr b 5) 1 =? 0);
        [rewrite ie_11_len_0_spec by apply land31_lt|rewrite ie_11_len_1_spec by apply land31_lt];
        (destruct inb; [left; pose proof (land31_lt b); lia|right; reflexivity]).
    - intros E. unfold raw_len. rewrite E. apply land1_lt. }
  assert (T2 : forall k, tinfo_of act (N.shiftr b 6) (raw_ie b) (raw_len b m) = Some k <->
      act k = true /\ announces (mkMmh (N.shiftr b 6) (raw_ie b) (raw_len b m)
         (tinfo_of act (N.shiftr b 6) (raw_ie b) (raw_len b m))) k) by exact T.
  split; [exact T2|]. split.
  - split.
    + intros H. destruct (tinfo_of act (N.shiftr b 6) (raw_ie b) (raw_len b m)) as [k|] eqn:E; [|discriminate].
      exists k. rewrite <- E. now apply T2.
    + intros (k & A & B). assert (K : tinfo_of act (N.shiftr b 6) (raw_ie b) (raw_len b m) = Some k) by (apply T2; auto).
      now rewrite K.
  - intros H. destruct (raw_spells b m Hb Hm Hl) as [U|(M & _)]; [|exact M].
    exfalso. rewrite U in H.
    destruct (tinfo_of act (N.shiftr b 6) UNDEF32 (raw_len b m)) as [k|] eqn:E; [|discriminate].
    rewrite tinfo_when, tinfo_undef in E. destruct E as [_ E]. discriminate.
Qed.

(** What is sent arrives. *)
Theorem C20_round_trip : forall act h m n, mux_ok h -> mmh_size h = Ok n -> bytes m -> (n <= length m)%nat ->
  exists m' t ok, mmh_pack h m = Ok m' /\ receive act m' = Ok (mkMmh (mx_ext h) (mx_ie h) (mx_len h) t, ok).
Proof.
  intros act h m n Hok Hs Hm Hl. destruct (mux_pack_writes h m n Hok Hs Hl) as (m' & P & W).
  pose proof W as (L & K & B & Sp). exists m'.
  assert (Bm : bytes m').
  { rewrite <- (firstn_skipn n m'). apply Forall_app. split; [exact B|]. rewrite K.
    rewrite <- (firstn_skipn n m) in Hm. apply Forall_app in Hm. tauto. }
  destruct m' as [|b m'].
  - exfalso. assert (n = 0%nat) by (cbn [length] in L; lia). subst n.
    unfold mmh_size in Hs. destruct Hok as [(E & _)|[(E & _)|[(E & _)|[(E & _)|(E & _)]]]]; rewrite E in Hs; discriminate.
  - inv_bytes. destruct (receive_spelled act h n b m') as (_ & _ & _ & _ & R); auto.
    eexists. eexists. split; [exact P|exact R].
Qed.

(** A header without a defined extension or IE type, or with a length its field cannot hold, is not packed. *)
Theorem C20_invalid_headers_abort : forall h m,
  mx_ie h = UNDEF32 \/ 3 < mx_ext h \/ (mx_ext h = 1 /\ 255 < mx_len h) \/
  (mx_ext h = 2 /\ 65535 < mx_len h) \/ (mx_ext h = 3 /\ 1 < mx_len h) -> mmh_pack h m = Abort.
Proof.
  intros [e i l t] m H. cbn [mx_ext mx_ie mx_len] in H. unfold mmh_pack.
  replace (mmh_valid (mkMmh e i l t)) with false; [reflexivity|]. symmetry.
  unfold mmh_valid. cbn [mx_ext mx_ie mx_len].
  destruct H as [->|[H|[[-> H]|[[-> H]|[-> H]]]]].
  - rewrite N.eqb_refl. cbn [negb]. rewrite !andb_false_r.
    destruct e as [|[[]|[]|]]; try reflexivity. destruct l as [|[]]; reflexivity.
  - destruct e as [|[[]|[]|]]; try reflexivity; lia.
  - replace (255 <? l) with true by (symmetry; apply N.ltb_lt; lia). reflexivity.
  - replace (65535 <? l) with true by (symmetry; apply N.ltb_lt; lia). reflexivity.
  - destruct l as [|[]]; try reflexivity; lia.
Qed.

(** The 16 bit length field starts where the 8 bit one ends; the same element may arrive with either,
    but padding only with the short forms: a padding element announced with a 16 bit length, which
    packs, is not recognised. *)
Theorem C20_long_padding_not_recognised :
  exists m, mmh_pack (mkMmh 2 0 300 None) [0; 0; 0] = Ok m /\
            receive activated m = Ok (mkMmh 2 0 300 None, false).
Proof. eexists. split; vm_compute; reflexivity. Qed.

Example C20_hypotheses_met :
  mux_ok (mkMmh 2 3 1500 None) /\ mmh_size (mkMmh 2 3 1500 None) = Ok 3%nat /\
  mmh_pack (mkMmh 2 3 1500 None) [9; 9; 9; 9] = Ok [131; 5; 220; 9] /\ mux_bytes 131 = 3%nat /\
  receive activated [131; 5; 220; 9] = Ok (mkMmh 2 3 1500 (Some User_Plane_Data), true) /\
  announces (mkMmh 2 3 1500 None) User_Plane_Data.
Proof.
  split; [right; right; left; split; [reflexivity|]; split; [vm_compute; tauto|vm_compute; discriminate]|].
  split; [reflexivity|]. split; [vm_compute; reflexivity|]. split; [reflexivity|]. split; [vm_compute; reflexivity|].
  exists None. split; [vm_compute; tauto|exact I].
Qed.

Print Assumptions C20_layout.
Print Assumptions C20_self_delimiting.
Print Assumptions C20_unpack_exact.
Print Assumptions C20_recognition.
Print Assumptions C20_round_trip.
Print Assumptions C20_invalid_headers_abort.
