(** Lemmas about the MAC multiplexing header. *)
From Verif Require Import Base Bytes WireSpec BitSolve ByteFacts MacHeader Mux MuxSpec.
Open Scope N_scope.

Lemma in_lt l x b : In x l -> forallb (fun y => y <? b) l = true -> x < b.
Proof. intros H F. rewrite forallb_forall in F. apply F in H. lia. Qed.
Lemma ie_lt x : In x ie_types_00_01_10 -> x < 64.
Proof. intros H. eapply in_lt; [exact H|reflexivity]. Qed.
Lemma ie0_lt x : In x ie_types_11_0 -> x < 32.
Proof. intros H. eapply in_lt; [exact H|reflexivity]. Qed.
Lemma ie1_lt x : In x ie_types_11_1 -> x < 32.
Proof. intros H. eapply in_lt; [exact H|reflexivity]. Qed.

(** A statement about numbers below a bound, checked for each. *)
Fixpoint below (n : nat) : list N := match n with O => [] | S k => N.of_nat k :: below k end.
Lemma below_in n x : x < N.of_nat n -> In x (below n).
Proof.
  induction n as [|n IH]; intros H; [lia|]. cbn [below].
  destruct (N.eq_dec x (N.of_nat n)) as [->|E]; [left; reflexivity|right; apply IH; lia].
Qed.
Lemma below_all (P : N -> bool) n : forallb P (below n) = true -> forall x, x < N.of_nat n -> P x = true.
Proof. intros H x Hx. rewrite forallb_forall in H. apply H. now apply below_in. Qed.

Definition inb (x : N) (l : list N) : bool := existsb (N.eqb x) l.
Lemma inb_in x l : inb x l = true <-> In x l.
Proof.
  unfold inb. rewrite existsb_exists. split.
  - intros (y & H & E). apply N.eqb_eq in E. now subst.
  - intros H. exists x. split; [auto|apply N.eqb_refl].
Qed.

Lemma ie_000110_spec v : v < 64 -> ie_000110 v = if inb v ie_types_00_01_10 then v else UNDEF32.
Proof.
  intros H. apply N.eqb_eq.
  refine (below_all (fun v => ie_000110 v =? (if inb v ie_types_00_01_10 then v else UNDEF32)) 64 eq_refl v _). lia.
Qed.
Lemma ie_11_len_0_spec v : v < 32 -> ie_11_len_0 v = if inb v ie_types_11_0 then v else UNDEF32.
Proof.
  intros H. apply N.eqb_eq.
  refine (below_all (fun v => ie_11_len_0 v =? (if inb v ie_types_11_0 then v else UNDEF32)) 32 eq_refl v _). lia.
Qed.
Lemma ie_11_len_1_spec v : v < 32 -> ie_11_len_1 v = if inb v ie_types_11_1 then v else UNDEF32.
Proof.
  intros H. apply N.eqb_eq.
  refine (below_all (fun v => ie_11_len_1 v =? (if inb v ie_types_11_1 then v else UNDEF32)) 32 eq_refl v _). lia.
Qed.

Lemma mux_ok_valid h : mux_ok h -> mmh_valid h = true.
Proof.
  destruct h as [e i l t]. unfold mux_ok, mmh_valid. cbn [mx_ext mx_ie mx_len].
  assert (U : forall x b, x < b -> b <= UNDEF32 -> (x =? UNDEF32) = false) by (intros; apply N.eqb_neq; lia).
  intros [(-> & I & ->)|[(-> & I & L)|[(-> & I & L)|[(-> & I & ->)|(-> & I & ->)]]]].
  - now rewrite (U _ _ (ie_lt _ I)) by discriminate.
  - rewrite (U _ _ (ie_lt _ I)) by discriminate.
    replace (255 <? l) with false by (symmetry; apply N.ltb_ge; lia).
    replace (65535 <? l) with false by (symmetry; apply N.ltb_ge; lia). reflexivity.
  - rewrite (U _ _ (ie_lt _ I)) by discriminate.
    replace (65535 <? l) with false by (symmetry; apply N.ltb_ge; lia). reflexivity.
  - now rewrite (U _ _ (ie0_lt _ I)) by discriminate.
  - now rewrite (U _ _ (ie1_lt _ I)) by discriminate.
Qed.

Lemma mux_pack_writes h m n : mux_ok h -> mmh_size h = Ok n -> (n <= length m)%nat ->
  exists m', mmh_pack h m = Ok m' /\ writes n m m' (mux_fields h).
Proof.
  intros Hok Hs Hl. unfold mmh_pack. rewrite (mux_ok_valid _ Hok). cbn [guard].
  destruct h as [e i l t]. unfold mux_ok, mmh_size, mux_fields in *. cbn [mx_ext mx_ie mx_len] in *.
  destruct Hok as [(-> & I & ->)|[(-> & I & L)|[(-> & I & L)|[(-> & I & ->)|(-> & I & ->)]]]];
    cbn in Hs; injection Hs as <-.
  - pose proof (ie_lt _ I). cells m 1%nat. mcbn. eexists. split; [reflexivity|]. writes_tac.
  - pose proof (ie_lt _ I). cells m 2%nat. mcbn. eexists. split; [reflexivity|]. writes_tac.
  - pose proof (ie_lt _ I). cells m 3%nat. mcbn. eexists. split; [reflexivity|]. writes_tac.
  - pose proof (ie0_lt _ I). cells m 1%nat. mcbn. eexists. split; [reflexivity|]. writes_tac.
  - pose proof (ie1_lt _ I). cells m 1%nat. mcbn. eexists. split; [reflexivity|]. writes_tac.
Qed.

Lemma lt4 x : x < 4 -> x = 0 \/ x = 1 \/ x = 2 \/ x = 3.
Proof. lia. Qed.
Lemma shiftr6_lt b : b < 256 -> N.shiftr b 6 < 4.
Proof. intros. change 4 with (2 ^ 2). bits_lt 2%nat. Qed.
Lemma shiftr6_div b : N.shiftr b 6 = b / 64.
Proof. now rewrite N.shiftr_div_pow2. Qed.
Lemma land63_lt b : N.land b 63 < 64.
Proof. change 64 with (2 ^ 6). change 63 with (N.ones 6). apply land_lt. Qed.
Lemma land31_lt b : N.land b 31 < 32.
Proof. change 32 with (2 ^ 5). change 31 with (N.ones 5). apply land_lt. Qed.
Lemma land1_lt b : N.land b 1 < 2.
Proof. change 2 with (2 ^ 1). change 1 with (N.ones 1) at 1. apply land_lt. Qed.

(** The header the receiver makes of arbitrary bytes. *)
Definition tinfo_of (act : kind -> bool) (e ie l : N) : option kind :=
  match e with
  | 0 => tinfo_ext0 act ie
  | 1 => tinfo_ext1 act ie
  | 2 => tinfo_ext2 act ie
  | _ => if l =? 0 then tinfo_ext3_0 act ie else tinfo_ext3_1 act ie
  end.
Definition raw_len (b : N) (m : list N) : N :=
  match N.shiftr b 6 with
  | 0 => UNDEF32
  | 1 => nth 0 m 0
  | 2 => N.lor (N.shiftl (nth 0 m 0) 8) (nth 1 m 0)
  | _ => N.land (N.shiftr b 5) 1
  end.
Definition raw_ie (b : N) : N :=
  match N.shiftr b 6 with
  | 3 => if N.land (N.shiftr b 5) 1 =? 0 then ie_11_len_0 (N.land b 31) else ie_11_len_1 (N.land b 31)
  | _ => ie_000110 (N.land b 63)
  end.
Definition has {A} (o : option A) : bool := match o with None => false | _ => true end.

Lemma receive_raw act b m : b < 256 -> bytes m -> (mux_bytes b <= length (b :: m))%nat ->
  let t := tinfo_of act (N.shiftr b 6) (raw_ie b) (raw_len b m) in
  receive act (b :: m) = Ok (mkMmh (N.shiftr b 6) (raw_ie b) (raw_len b m) t, has t).
Proof.
  intros Hb Hm Hl. unfold mux_bytes in Hl. rewrite <- shiftr6_div in Hl.
  unfold receive, mmh_unpack_ext_ie, mmh_zero. cbn [mx_ext mx_len mx_tinfo mx_ie].
  rewrite N.eqb_refl. cbn [andb guard]. cbn [ld rd nth_error bind].
  pose proof (shiftr6_lt b Hb) as He.
  replace (N.shiftr b 6 <? 4) with true by (symmetry; apply N.ltb_lt; lia).
  unfold raw_len, raw_ie, tinfo_of.
  destruct (lt4 _ He) as [K|[K|[K|K]]]; rewrite K in *.
  - unfold mmh_unpack_length. cbn [bind mx_ext mx_len mx_tinfo mx_ie]. rewrite N.eqb_refl. reflexivity.
  - unfold mmh_unpack_length. cbn [bind mx_ext mx_len mx_tinfo mx_ie]. rewrite N.eqb_refl. cbn [guard].
    cells m 1%nat. reflexivity.
  - unfold mmh_unpack_length. cbn [bind mx_ext mx_len mx_tinfo mx_ie]. rewrite N.eqb_refl. cbn [guard].
    cells m 2%nat. inv_bytes. mcbn. cbn [nth].
    replace (N.lor b1 (N.shiftl (N.lor b0 (N.shiftl (N.lor 0 (N.shiftl (N.lor 0 (N.shiftl 0 8)) 8)) 8)) 8))
      with (N.lor (N.shiftl b0 8) b1) by bits. reflexivity.
  - pose proof (land1_lt (N.shiftr b 5)) as L1.
    unfold mmh_unpack_length.
    destruct (N.land (N.shiftr b 5) 1 =? 0) eqn:E; cbn [bind mx_ext mx_len mx_tinfo mx_ie];
      rewrite N.eqb_refl; cbn [guard ld rd nth_error bind]; rewrite ?E; reflexivity.
Qed.

(** The first byte of a spelled header. *)
Lemma first_byte h n b m : b < 256 -> bytes m -> mux_ok h -> mmh_size h = Ok n -> spells n (b :: m) (mux_fields h) ->
  match mx_ext h with
  | 3 => b = N.lor (N.shiftl 3 6) (N.lor (N.shiftl (mx_len h) 5) (mx_ie h))
  | e => b = N.lor (N.shiftl e 6) (mx_ie h)
  end /\ mx_len h = raw_len b m /\ n = mux_bytes b.
Proof.
  intros Hb Hm Hok Hs S. destruct h as [e i l t]. unfold mux_ok, mmh_size, mux_fields in *. cbn [mx_ext mx_ie mx_len] in *.
  unfold mux_bytes, raw_len. rewrite <- shiftr6_div.
  assert (X1 : forall x, x = 0 \/ x = 1 \/ x = 2 -> i < 64 -> b = N.lor (N.shiftl x 6) i -> N.shiftr b 6 = x).
  { intros x Hx Hi ->. destruct Hx as [->|[->| ->]]; bits. }
  destruct Hok as [(-> & I & ->)|[(-> & I & L)|[(-> & I & L)|[(-> & I & ->)|(-> & I & ->)]]]];
    cbn in Hs; injection Hs as <-.
  - pose proof (ie_lt _ I). destruct S as (_ & _ & _ & C). unfold be_number, cat_fields in C. cbn [firstn fold_left fst snd] in C.
    assert (E : b = N.lor (N.shiftl 0 6) i).
    { transitivity (N.lor (N.shiftl 0 8) b); [bits|]. rewrite C. bits. }
    split; [exact E|]. now rewrite (X1 0) by auto.
  - pose proof (ie_lt _ I).
    destruct S as (Hl & _ & _ & C). cells m 1%nat. inv_bytes. unfold be_number, cat_fields in C. cbn [firstn fold_left fst snd] in C.
    change (N.lor (N.shiftl 0 8) b) with b in C. change (N.lor (N.shiftl 0 2) 1) with 1 in C.
    apply lor_shiftl_inj in C; [|assumption|lia]. destruct C as [C1 C2].
    split; [exact C1|]. rewrite (X1 1) by auto. auto.
  - pose proof (ie_lt _ I).
    destruct S as (Hl & _ & _ & C). cells m 2%nat. inv_bytes. unfold be_number, cat_fields in C. cbn [firstn fold_left fst snd] in C.
    change (N.lor (N.shiftl 0 8) b) with b in C. change (N.lor (N.shiftl 0 2) 2) with 2 in C.
    assert (C' : N.lor (N.shiftl b 16) (N.lor (N.shiftl b0 8) b1) = N.lor (N.shiftl (N.lor (N.shiftl 2 6) i) 16) l).
    { rewrite <- C. bits. }
    apply lor_shiftl_inj in C'; [|change (2 ^ 16) with 65536; change 65536 with (2 ^ 16); bits_lt 16%nat|change (2 ^ 16) with 65536; lia].
    destruct C' as [C1 C2].
    split; [exact C1|]. rewrite (X1 2) by auto. cbn [nth]. auto.
  - pose proof (ie0_lt _ I). destruct S as (_ & _ & _ & C). unfold be_number, cat_fields in C. cbn [firstn fold_left fst snd] in C.
    assert (E : b = N.lor (N.shiftl 3 6) (N.lor (N.shiftl 0 5) i)).
    { transitivity (N.lor (N.shiftl 0 8) b); [bits|]. rewrite C. bits. }
    split; [exact E|]. assert (K : N.shiftr b 6 = 3) by (subst b; bits). rewrite K. split; [|reflexivity]. subst b. bits.
  - pose proof (ie1_lt _ I). destruct S as (_ & _ & _ & C). unfold be_number, cat_fields in C. cbn [firstn fold_left fst snd] in C.
    assert (E : b = N.lor (N.shiftl 3 6) (N.lor (N.shiftl 1 5) i)).
    { transitivity (N.lor (N.shiftl 0 8) b); [bits|]. rewrite C. bits. }
    split; [exact E|]. assert (K : N.shiftr b 6 = 3) by (subst b; bits). rewrite K. split; [|reflexivity]. subst b. bits.
Qed.

Lemma inb_true x l : In x l -> inb x l = true.
Proof. apply inb_in. Qed.

Lemma receive_spelled act h n b m : b < 256 -> bytes m -> mux_ok h -> mmh_size h = Ok n ->
  spells n (b :: m) (mux_fields h) ->
  N.shiftr b 6 = mx_ext h /\ raw_ie b = mx_ie h /\ raw_len b m = mx_len h /\ n = mux_bytes b /\ let t := tinfo_of act (mx_ext h) (mx_ie h) (mx_len h) in
  receive act (b :: m) = Ok (mkMmh (mx_ext h) (mx_ie h) (mx_len h) t, has t).
Proof.
  intros Hb Hm Hok Hs S. pose proof (proj1 S) as Hl.
  destruct (first_byte h n b m Hb Hm Hok Hs S) as (F1 & F2 & F3). subst n.
  assert (G : N.shiftr b 6 = mx_ext h /\ raw_ie b = mx_ie h).
  { clear F2 S. unfold raw_ie. unfold mux_ok in Hok.
    destruct Hok as [(E & I & L)|[(E & I & L)|[(E & I & L)|[(E & I & L)|(E & I & L)]]]]; rewrite E in *.
    - pose proof (ie_lt _ I). assert (K : N.shiftr b 6 = 0) by (rewrite F1; bits). rewrite K. split; [reflexivity|].
      replace (N.land b 63) with (mx_ie h) by (rewrite F1; bits).
      rewrite ie_000110_spec, inb_true by assumption. reflexivity.
    - pose proof (ie_lt _ I). assert (K : N.shiftr b 6 = 1) by (rewrite F1; bits). rewrite K. split; [reflexivity|].
      replace (N.land b 63) with (mx_ie h) by (rewrite F1; bits).
      rewrite ie_000110_spec, inb_true by assumption. reflexivity.
    - pose proof (ie_lt _ I). assert (K : N.shiftr b 6 = 2) by (rewrite F1; bits). rewrite K. split; [reflexivity|].
      replace (N.land b 63) with (mx_ie h) by (rewrite F1; bits).
      rewrite ie_000110_spec, inb_true by assumption. reflexivity.
    - pose proof (ie0_lt _ I). rewrite L in F1. assert (K : N.shiftr b 6 = 3) by (rewrite F1; bits). rewrite K. split; [reflexivity|].
      replace (N.land (N.shiftr b 5) 1) with 0 by (rewrite F1; bits). cbn [N.eqb].
      replace (N.land b 31) with (mx_ie h) by (rewrite F1; bits).
      rewrite ie_11_len_0_spec, inb_true by assumption. reflexivity.
    - pose proof (ie1_lt _ I). rewrite L in F1. assert (K : N.shiftr b 6 = 3) by (rewrite F1; bits). rewrite K. split; [reflexivity|].
      replace (N.land (N.shiftr b 5) 1) with 1 by (rewrite F1; bits). cbn [N.eqb].
      replace (N.land b 31) with (mx_ie h) by (rewrite F1; bits).
      rewrite ie_11_len_1_spec, inb_true by assumption. reflexivity. }
  destruct G as [G1 G2]. split; [exact G1|]. split; [exact G2|]. split; [symmetry; exact F2|]. split; [reflexivity|].
  rewrite (receive_raw act b m Hb Hm Hl), G1, G2, <- F2. reflexivity.
Qed.

Ltac hide6 b K :=
  let D := fresh in let L := fresh in
  assert (D : b = N.lor (N.shiftl (N.shiftr b 6) 6) (N.land b 63)) by bits;
  rewrite K in D; assert (L := land63_lt b);
  set (x := N.land b 63) in *; clearbody x; rewrite D; clear D.
Ltac hide5 b K :=
  let D := fresh in let L := fresh in let L1 := fresh in
  assert (D : b = N.lor (N.shiftl (N.shiftr b 6) 6) (N.lor (N.shiftl (N.land (N.shiftr b 5) 1) 5) (N.land b 31))) by bits;
  rewrite K in D; assert (L := land31_lt b); assert (L1 := land1_lt (N.shiftr b 5));
  set (x := N.land b 31) in *; clearbody x; set (y := N.land (N.shiftr b 5) 1) in *; clearbody y; rewrite D; clear D.
(** Bytes that do not announce a known IE type leave the type undefined; all others spell the header. *)
Lemma raw_spells b m : b < 256 -> bytes m -> (mux_bytes b <= length (b :: m))%nat ->
  let h := mkMmh (N.shiftr b 6) (raw_ie b) (raw_len b m) None in
  raw_ie b = UNDEF32 \/ (mux_ok h /\ mmh_size h = Ok (mux_bytes b) /\ spells (mux_bytes b) (b :: m) (mux_fields h)).
Proof.
  intros Hb Hm Hl h. subst h. unfold mux_ok, mmh_size, mux_fields, mux_bytes in *. rewrite <- shiftr6_div in *.
  cbn [mx_ext mx_ie mx_len]. unfold raw_ie, raw_len.
  pose proof (land63_lt b) as L6. pose proof (land31_lt b) as L5. pose proof (land1_lt (N.shiftr b 5)) as L1.
  pose proof (shiftr6_lt b Hb) as He.
  destruct (lt4 _ He) as [K|[K|[K|K]]]; rewrite K in *; cbn [N.eqb negb andb guard Pos.eqb].
  - rewrite ie_000110_spec by assumption. destruct (inb (N.land b 63) ie_types_00_01_10) eqn:I; [right|left; reflexivity].
    apply inb_in in I. split; [left; auto|]. split; [reflexivity|].
    split; [cbn [length]; lia|]. split; [reflexivity|]. split; [fit_tac|].
    unfold be_number, cat_fields. cbn [firstn fold_left fst snd]. hide6 b K. bits.
  - rewrite ie_000110_spec by assumption. destruct (inb (N.land b 63) ie_types_00_01_10) eqn:I; [right|left; reflexivity].
    apply inb_in in I. cells m 1%nat. inv_bytes. cbn [nth]. split; [right; left; split; [reflexivity|]; split; [assumption|lia]|]. split; [reflexivity|].
    split; [cbn [length]; lia|]. split; [reflexivity|]. split; [fit_tac|].
    unfold be_number, cat_fields. cbn [firstn fold_left fst snd]. hide6 b K. bits.
  - rewrite ie_000110_spec by assumption. destruct (inb (N.land b 63) ie_types_00_01_10) eqn:I; [right|left; reflexivity].
    apply inb_in in I. cells m 2%nat. inv_bytes. cbn [nth].
    assert (B : N.lor (N.shiftl b0 8) b1 < 65536) by (change 65536 with (2 ^ 16); bits_lt 16%nat).
    split; [right; right; left; split; [reflexivity|]; split; [assumption|lia]|]. split; [reflexivity|].
    split; [cbn [length]; lia|]. split; [reflexivity|]. split; [fit_tac|].
    unfold be_number, cat_fields. cbn [firstn fold_left fst snd]. hide6 b K. bits.
  - destruct (N.land (N.shiftr b 5) 1 =? 0) eqn:E.
    + apply N.eqb_eq in E.
      rewrite ie_11_len_0_spec by assumption. destruct (inb (N.land b 31) ie_types_11_0) eqn:I; [right|left; reflexivity].
      apply inb_in in I. split; [do 3 right; left; auto|]. split; [reflexivity|].
      split; [cbn [length]; lia|]. split; [reflexivity|]. split; [fit_tac|].
      unfold be_number, cat_fields. cbn [firstn fold_left fst snd]. hide5 b K. bits.
    + apply N.eqb_neq in E.
      rewrite ie_11_len_1_spec by assumption. destruct (inb (N.land b 31) ie_types_11_1) eqn:I; [right|left; reflexivity].
      apply inb_in in I. split; [do 4 right; split; [reflexivity|]; split; [assumption|lia]|]. split; [reflexivity|].
      split; [cbn [length]; lia|]. split; [reflexivity|]. split; [fit_tac|].
      unfold be_number, cat_fields. cbn [firstn fold_left fst snd]. hide5 b K. bits.
Qed.

(** Recognition agrees with the table of announcements. *)
Definition ann_b (e l ie : N) (k : kind) : bool :=
  existsb (fun '(e', l', i', k') => (e =? e') && (ie =? i') && (if kind_dec k k' then true else false) &&
                                     match l' with None => true | Some x => l =? x end) announcements.
Lemma ann_b_spec h k : ann_b (mx_ext h) (mx_len h) (mx_ie h) k = true <-> announces h k.
Proof.
  unfold ann_b, announces. rewrite existsb_exists. split.
  - intros ((((e, l), i), k') & I & E). rewrite !andb_true_iff in E. destruct E as (((E1 & E2) & E3) & E4).
    apply N.eqb_eq in E1, E2. destruct (kind_dec k k'); [|discriminate]. subst. exists l. split; [exact I|].
    destruct l; [now apply N.eqb_eq in E4|exact Logic.I].
  - intros (l & I & E). eexists. split; [exact I|]. cbv beta iota. rewrite !N.eqb_refl.
    destruct (kind_dec k k); [|congruence]. destruct l; [now apply N.eqb_eq|reflexivity].
Qed.
Definition all_kinds : list kind :=
  [Padding; Higher_Layer_Signalling; User_Plane_Data; Network_Beacon; Cluster_Beacon;
   Association_Request; Association_Response; Association_Release;
   Reconfiguration_Request; Reconfiguration_Response; Mac_Security_Info; Route_Info;
   Resource_Allocation; Random_Access_Resource; RD_Capability; Neighbouring;
   Broadcast_Indication; Group_Assignment; Load_Info; Measurement_Report;
   Configuration_Request; Radio_Device_Status; Power_Target; Time_Announce].
Lemma all_kinds_in k : In k all_kinds.
Proof. destruct k; vm_compute; tauto. Qed.
Definition one (k : kind) (k' : kind) : bool := if kind_dec k k' then true else false.
(** A switch with every case label present names [k] iff the one with only that label does. *)
Definition opt_is (o : option kind) (k : kind) : bool := match o with Some k' => one k k' | None => false end.

Lemma tinfo_when act e ie l k :
  tinfo_of act e ie l = Some k <-> act k = true /\ tinfo_of (fun _ => true) e ie l = Some k.
Proof.
  assert (W : forall j, when act j = Some k <-> act k = true /\ when (fun _ => true) j = Some k).
  { intros j. unfold when. destruct (act j) eqn:A; split.
    - intros E. injection E as <-. auto.
    - intros [_ E]. exact E.
    - discriminate.
    - intros [H E]. injection E as <-. congruence. }
  assert (Z : None = Some k <-> act k = true /\ (None : option kind) = Some k) by (split; [discriminate|intros [_ H]; exact H]).
  unfold tinfo_of, tinfo_ext0, tinfo_ext1, tinfo_ext2, tinfo_ext3_0, tinfo_ext3_1.
  repeat match goal with
  | |- context [match ?x with N0 => _ | Npos _ => _ end] => destruct x
  | |- context [match ?x with xI _ => _ | xO _ => _ | xH => _ end] => destruct x
  | |- context [if ?c then _ else _] => destruct c
  end; first [apply W | apply Z].
Qed.
Lemma tinfo_table : forallb (fun e => forallb (fun l => forallb (fun ie => forallb (fun k =>
    Bool.eqb (opt_is (tinfo_of (fun _ => true) e ie l) k) (ann_b e l ie k)) all_kinds) (below 64)) [0; 1]) (below 4) = true.
Proof. vm_compute. reflexivity. Qed.
Lemma ann_len e l ie k : e < 3 -> ann_b e l ie k = ann_b e 0 ie k.
Proof.
  intros H. destruct (lt4 e ltac:(lia)) as [->|[->|[->| ->]]]; [| | |lia]; unfold ann_b, announcements;
    cbn [existsb N.eqb Pos.eqb andb orb]; reflexivity.
Qed.
Lemma ann_undef e l k : ann_b e l UNDEF32 k = false.
Proof.
  unfold ann_b, announcements, UNDEF32. cbn [existsb N.eqb Pos.eqb andb orb]. rewrite !andb_false_r. reflexivity.
Qed.
Lemma tinfo_undef e l : tinfo_of (fun _ => true) e UNDEF32 l = None.
Proof.
  unfold tinfo_of, UNDEF32. cbn.
  repeat match goal with
  | |- context [match ?x with N0 => _ | Npos _ => _ end] => destruct x
  | |- context [match ?x with xI _ => _ | xO _ => _ | xH => _ end] => destruct x
  | |- context [if ?c then _ else _] => destruct c
  end; reflexivity.
Qed.
Lemma tinfo_announces act e ie l k : e < 4 -> (ie < 64 \/ ie = UNDEF32) -> (e = 3 -> l < 2) ->
  tinfo_of act e ie l = Some k <-> act k = true /\ announces (mkMmh e ie l None) k.
Proof.
  intros He Hi Hl. rewrite tinfo_when. rewrite <- ann_b_spec. cbn [mx_ext mx_len mx_ie].
  enough (G : tinfo_of (fun _ => true) e ie l = Some k <-> ann_b e l ie k = true) by (rewrite G; tauto).
  destruct Hi as [Hi| ->].
  2:{ rewrite ann_undef, tinfo_undef. split; discriminate. }
  assert (T : forall e l ie k, e < 4 -> l < 2 -> ie < 64 ->
    opt_is (tinfo_of (fun _ => true) e ie l) k = ann_b e l ie k).
  { clear. intros e l ie k He Hl Hi. apply eqb_prop.
    pose proof tinfo_table as T. rewrite forallb_forall in T.
    specialize (T e (below_in 4 e ltac:(lia))). rewrite forallb_forall in T.
    assert (L : In l [0; 1]) by (cbn; lia). specialize (T l L). rewrite forallb_forall in T.
    specialize (T ie (below_in 64 ie ltac:(lia))). rewrite forallb_forall in T.
    exact (T k (all_kinds_in k)). }
  assert (O : forall o, o = Some k <-> opt_is o k = true).
  { intros [k'|]; cbn; [|split; discriminate]. unfold one. destruct (kind_dec k k'); split; congruence. }
  destruct (N.eq_dec e 3) as [E|E].
  - rewrite O, T by (auto; lia). reflexivity.
  - rewrite ann_len by lia.
    replace (tinfo_of (fun _ => true) e ie l) with (tinfo_of (fun _ => true) e ie 0).
    + rewrite O, T by lia. reflexivity.
    + destruct (lt4 e He) as [->|[->|[->| ->]]]; try reflexivity. congruence.
Qed.
