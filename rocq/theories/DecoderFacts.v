(** Facts about the MAC PDU decoder. *)
From Verif Require Import Base Bytes WireSpec BitSolve ByteFacts Fields MacHeader Mux MuxSpec MuxFacts IeBase Beacons BeaconsSpec IeFacts BeaconsFacts P26_Beacons SmallIes Decoder DecoderSpec.
Open Scope N_scope.

Definition four (k : kind) : Prop := k = User_Plane_Data \/ k = Cluster_Beacon \/ k = Power_Target \/ k = Time_Announce.
Lemma announced_four mu l k f h n : announced mu l = Some (k, f, h, n) -> four k /\ (1 <= h <= 3)%nat /\ (h <= length l)%nat.
Proof.
  unfold announced, four. destruct l as [|b t]; [discriminate|].
  destruct (b =? 9); [destruct t as [|? [|? ?]]; try discriminate; intros E; injection E as <- <- <- <-; cbn [length]; split; [tauto|lia]|].
  destruct (b =? 29); [intros E; injection E as <- <- <- <-; cbn [length]; split; [tauto|lia]|].
  destruct (b =? 30); [intros E; injection E as <- <- <- <-; cbn [length]; split; [tauto|lia]|].
  destruct (_ && _); [destruct t; try discriminate; intros E; injection E as <- <- <- <-; cbn [length]; split; [tauto|lia]|].
  destruct (_ && _); [destruct t as [|? [|? ?]]; try discriminate; intros E; injection E as <- <- <- <-; cbn [length]; split; [tauto|lia]|].
  discriminate.
Qed.
Lemma items_ext f mu c1 c2 l : (forall k, four k -> c1 k = c2 k) -> items_in f mu c1 l = items_in f mu c2 l.
Proof.
  revert c1 c2 l. induction f as [|f IH]; intros c1 c2 l E; [reflexivity|]. cbn [items_in].
  destruct (announced mu l) as [[[[k fl] h] n]|] eqn:A; [|reflexivity]. destruct (announced_four _ _ _ _ _ _ A) as (F & _).
  rewrite <- (E k F). destruct (_ && _); [|reflexivity]. destruct (meaning _ _ _ _).
  - f_equal. apply IH. intros j J. unfold less, at_kind. destruct (kind_dec j k); [now rewrite E|auto].
  - now apply IH.
Qed.
Lemma items_fuel f g mu c l : (length l <= f)%nat -> (length l <= g)%nat -> items_in f mu c l = items_in g mu c l.
Proof.
  revert g c l. induction f as [|f IH]; intros g c l L1 L2.
  - destruct l; [|cbn in L1; lia]. destruct g; reflexivity.
  - destruct g as [|g]; [destruct l; [reflexivity|cbn in L2; lia]|]. cbn [items_in].
    destruct (announced mu l) as [[[[k fl] h] n]|] eqn:A; [|reflexivity]. destruct (announced_four _ _ _ _ _ _ A) as (_ & H & L).
    destruct (_ && _); [|reflexivity]. assert (length (skipn (h + n) l) <= length l - 1)%nat by (rewrite skipn_length; lia).
    rewrite (IH g) by lia. rewrite (IH g c) by lia. reflexivity.
Qed.
Lemma items_step mu c l : items mu c l =
  match announced mu l with
  | None => []
  | Some (k, flow, h, n) =>
    if ((0 <? c k) && (h + n <=? length l))%nat then
      match meaning k mu flow (firstn n (skipn h l)) with
      | Some i => i :: items mu (less c k) (skipn (h + n) l)
      | None => items mu c (skipn (h + n) l)
      end
    else []
  end.
Proof.
  unfold items at 1. destruct l as [|b t]; [reflexivity|]. cbn [length items_in].
  destruct (announced mu (b :: t)) as [[[[k fl] h] n]|] eqn:A; [|reflexivity]. destruct (announced_four _ _ _ _ _ _ A) as (_ & H & L).
  assert (Q : (length (skipn (h + n) (b :: t)) <= length t)%nat) by (rewrite skipn_length; cbn [length]; lia).
  change (S (length t)) with (length (b :: t)). destruct (_ && _); [|reflexivity].
  unfold items. rewrite (items_fuel (length t) (length (skipn (h + n) (b :: t)))) by lia. destruct (meaning _ _ _ _); [reflexivity|].
  now rewrite (items_fuel (length t) (length (skipn (h + n) (b :: t)))) by lia.
Qed.

(** *** The first byte of a multiplexing header *)
Definition mmh_eqb (a b : mmh) : bool :=
  (mx_ext a =? mx_ext b) && (mx_ie a =? mx_ie b) && (mx_len a =? mx_len b) &&
  match mx_tinfo a, mx_tinfo b with Some j, Some k => if kind_dec j k then true else false | None, None => true | _, _ => false end.
Lemma mmh_eqb_eq a b : mmh_eqb a b = true -> a = b.
Proof.
  destruct a as [a1 a2 a3 a4], b as [b1 b2 b3 b4]. unfold mmh_eqb. cbn [mx_ext mx_ie mx_len mx_tinfo]. rewrite !andb_true_iff, !N.eqb_eq.
  intros (((-> & ->) & ->) & E). f_equal. destruct a4 as [j|], b4 as [k|]; try discriminate; [|reflexivity].
  destruct (kind_dec j k); [now subst|discriminate].
Qed.
Definition first (b : N) : option mmh :=
  if b =? 9 then Some (mkMmh 0 9 UNDEF32 (Some Cluster_Beacon))
  else if b =? 29 then Some (mkMmh 0 29 UNDEF32 (Some Power_Target))
  else if b =? 30 then Some (mkMmh 0 30 UNDEF32 (Some Time_Announce))
  else if (64 + 3 <=? b) && (b <=? 64 + 6) then Some (mkMmh 1 (b - 64) UNDEF32 (Some User_Plane_Data))
  else if (128 + 3 <=? b) && (b <=? 128 + 6) then Some (mkMmh 2 (b - 128) UNDEF32 (Some User_Plane_Data))
  else None.
Definition first_check (b : N) : bool :=
  match mmh_unpack_ext_ie activated mmh_zero [b] with
  | Ok (h, v) => match first b with
                 | Some h' => v && mmh_eqb h h'
                 | None => negb v || match mx_tinfo h with Some Padding => true | _ => false end
                 end
  | _ => false
  end.
Lemma first_checked : forallb first_check (below 256) = true.
Proof. vm_compute. reflexivity. Qed.
Lemma first_exact b t : b < 256 -> exists h v, mmh_unpack_ext_ie activated mmh_zero (b :: t) = Ok (h, v) /\
  match first b with Some h' => v = true /\ h = h' | None => v = false \/ mx_tinfo h = Some Padding end.
Proof.
  intros H. pose proof (below_all _ _ first_checked b H) as C. unfold first_check in C.
  change (mmh_unpack_ext_ie activated mmh_zero (b :: t)) with (mmh_unpack_ext_ie activated mmh_zero [b]).
  destruct (mmh_unpack_ext_ie activated mmh_zero [b]) as [[h v]| | |]; try discriminate. exists h, v. split; [reflexivity|].
  destruct (first b) as [h'|].
  - apply andb_true_iff in C. destruct C as (-> & C). split; [reflexivity|]. now apply mmh_eqb_eq.
  - apply orb_true_iff in C. destruct C as [C|C]; [left; now destruct v|right]. destruct (mx_tinfo h) as [[]|]; try discriminate. reflexivity.
Qed.
Lemma announced_none mu b t : first b = None -> announced mu (b :: t) = None.
Proof.
  unfold first, announced. destruct (b =? 9); [discriminate|]. destruct (b =? 29); [discriminate|]. destruct (b =? 30); [discriminate|].
  destruct (_ && _); [discriminate|]. destruct (_ && _); [discriminate|]. reflexivity.
Qed.

(** *** Reading at a position of the part written so far *)
Lemma split_at (m p : list N) (r n : nat) : p = firstn (length p) m -> (r + n <= length p)%nat ->
  exists x y, skipn r p = x ++ y /\ length x = n /\ skipn r m = x ++ skipn (r + n) m.
Proof.
  intros P L. exists (firstn n (skipn r p)), (skipn n (skipn r p)). split; [now rewrite firstn_skipn|].
  split; [rewrite firstn_length, skipn_length; lia|].
  assert (E : firstn n (skipn r p) = firstn n (skipn r m)).
  { rewrite P, skipn_firstn_comm, firstn_firstn. f_equal. lia. }
  rewrite E, <- (firstn_skipn n (skipn r m)) at 1. f_equal. apply skipn_add.
Qed.
Ltac cells_of x := repeat (destruct x as [|? x]; try (cbn [length] in *; lia)).
Lemma mht_total b : exists h v, forall y, mht_unpack (b :: y) = Ok (h, v).
Proof. eexists _, _. intros y. reflexivity. Qed.
Lemma mht_bound b y h : mht_unpack (b :: y) = Ok (h, true) -> mht_type h <= 4.
Proof.
  unfold mht_unpack. mcbn. intros E. injection E as <- V. unfold mht_valid in V. cbn [mht_version mht_security mht_type] in *.
  unfold get_mac_header_type_ec in *. destruct (N.leb_spec (N.land b 15) 4); [assumption|]. rewrite andb_false_r in V. discriminate.
Qed.
Lemma common_size_small t : N.of_nat (common_size t) < 65536.
Proof. unfold common_size. repeat match goal with |- context [match ?x with _ => _ end] => destruct x end; lia. Qed.
Lemma mch_sizes t n : t <= 4 -> mch_type_size t = Ok n <-> n = N.of_nat (common_size t).
Proof.
  intros H. assert (t = 0 \/ t = 1 \/ t = 2 \/ t = 3 \/ t = 4) as [->|[->|[->|[->| ->]]]] by lia; cbn; split; intros E; try congruence; injection E as <-; reflexivity.
Qed.
Definition total_on {A} (f : list N -> res A) (n : nat) : Prop :=
  forall x, length x = n -> exists v, f x = Ok v /\ forall y, f (x ++ y) = Ok v.
Lemma dh_total : total_on dh_unpack 2. Proof. intros x L. cells_of x. eexists. split; [reflexivity|]. intros y. reflexivity. Qed.
Lemma bh_total : total_on bh_unpack 7. Proof. intros x L. cells_of x. eexists. split; [reflexivity|]. intros y. reflexivity. Qed.
Lemma uh_total : total_on uh_unpack 10. Proof. intros x L. cells_of x. eexists. split; [reflexivity|]. intros y. reflexivity. Qed.
Lemma rh_total : total_on rh_unpack 6. Proof. intros x L. cells_of x. eexists. split; [reflexivity|]. intros y. reflexivity. Qed.
Lemma pt_total : total_on pt_unpack 1. Proof. intros x L. cells_of x. eexists. split; [reflexivity|]. intros y. reflexivity. Qed.
Lemma ta_total : total_on ta_unpack 11. Proof. intros x L. cells_of x. eexists. split; [reflexivity|]. intros y. reflexivity. Qed.
Lemma mch_total t x : t <= 4 -> length x = common_size t -> exists c v, (forall y, mch_unpack t (x ++ y) = Ok (c, v)) /\
  forall y, common_header t (x ++ y) = if v then Some c else None.
Proof.
  intros H. assert (t = 0 \/ t = 1 \/ t = 2 \/ t = 3 \/ t = 4) as [->|[->|[->|[->| ->]]]] by lia; cbn [common_size]; intros L.
  - destruct (dh_total x L) as ([h v] & _ & E). exists (MchData h), v. cbn [mch_unpack common_header]. split; intros y; rewrite E; [reflexivity|]. now destruct v.
  - destruct (bh_total x L) as ([h v] & _ & E). exists (MchBeacon h), v. cbn [mch_unpack common_header]. split; intros y; rewrite E; [reflexivity|]. now destruct v.
  - destruct (uh_total x L) as ([h v] & _ & E). exists (MchUnicast h), v. cbn [mch_unpack common_header]. split; intros y; rewrite E; [reflexivity|]. now destruct v.
  - destruct (rh_total x L) as ([h v] & _ & E). exists (MchRdb h), v. cbn [mch_unpack common_header]. split; intros y; rewrite E; [reflexivity|]. now destruct v.
  - exists MchEmpty, true. split; reflexivity.
Qed.

Lemma to_i64_small s : s < 2 ^ 63 -> to_i64 s = Z.of_N s.
Proof. intros H. unfold to_i64. apply N.ltb_lt in H. now rewrite H. Qed.
Lemma to_i64_large s : 2 ^ 63 <= s -> s < 2 ^ 64 -> (to_i64 s < 0)%Z.
Proof. intros H L. unfold to_i64. destruct (N.ltb_spec s (2 ^ 63)); lia. Qed.
Lemma be8 x : length x = 8%nat -> bytes x -> le_val (rev (repeat 0 (8 - 8) ++ x)) = be_number x.
Proof.
  intros L B. change (repeat 0 (8 - 8)) with (@nil N). cbn [app]. clear L. revert B. induction x as [|b x IH] using rev_ind; intros B; [reflexivity|].
  rewrite rev_app_distr. cbn [rev app le_val]. unfold bytes in B. apply Forall_app in B. rewrite IH by apply B. rewrite be_number_snoc. apply N.lor_comm.
Qed.
Lemma ta_meaning x fl : length x = 11%nat -> bytes x -> exists t v, ta_unpack x = Ok (t, v) /\
  forall mu, meaning Time_Announce mu fl x = if v then Some (Time_announcement t) else None.
Proof.
  intros L B. assert (exists a b c d, x = a :: b :: c ++ [d] /\ length c = 8%nat) as (a & b & c & d & -> & Lc).
  { destruct x as [|a [|b x]]; try (cbn [length] in L; lia). destruct (exists_last (l := x)) as (c & d & ->); [intros ->; cbn in L; lia|].
    exists a, b, c, d. split; [reflexivity|]. cbn [length] in L. rewrite app_length in L. cbn [length] in L. lia. }
  assert (Bc : bytes c) by (apply Forall_cons_iff in B; destruct B as (_ & B); apply Forall_cons_iff in B; destruct B as (_ & B); apply Forall_app in B; tauto).
  assert (Hb : a < 256 /\ b < 256 /\ d < 256).
  { apply Forall_cons_iff in B. destruct B as (? & B). apply Forall_cons_iff in B. destruct B as (? & B). apply Forall_app in B. destruct B as (_ & B). apply Forall_cons_iff in B. tauto. }
  assert (Sec : b2l_lower (a :: b :: c ++ [d]) 2 8 8 = Ok (be_number c)).
  { unfold b2l_lower, seg. cbn [skipn]. replace (2 + 8 <=? length (a :: b :: c ++ [d]))%nat with true by (symmetry; apply Nat.leb_le; cbn [length]; rewrite app_length; cbn [length]; lia).
    rewrite firstn_app, firstn_all2, Lc by lia. change (8 - 8)%nat with 0%nat. rewrite firstn_O, app_nil_r. cbn [bind]. f_equal. now apply be8. }
  assert (D : ld (a :: b :: c ++ [d]) 10 = Ok d).
  { unfold ld, rd. change (nth_error (a :: b :: c ++ [d]) 10) with (nth_error (c ++ [d]) 8). rewrite <- Lc at 1. rewrite nth_error_app2, Nat.sub_diag by lia. reflexivity. }
  unfold ta_unpack. rewrite Sec, D. mcbn. eexists _, _. split; [reflexivity|]. intros mu. unfold meaning. change (nth 10 (a :: b :: c ++ [d]) 0) with (nth 8 (c ++ [d]) 0). change (skipn 2 (a :: b :: c ++ [d])) with (c ++ [d]). change (nth 0 (a :: b :: c ++ [d]) 0) with a. change (nth 1 (a :: b :: c ++ [d]) 0) with b.
  replace (firstn 8 (c ++ [d])) with c by (rewrite firstn_app, firstn_all2, Lc by lia; cbn; now rewrite app_nil_r).
  replace (nth 8 (c ++ [d]) 0) with d by (rewrite <- Lc, app_nth2, Nat.sub_diag by lia; reflexivity).
  pose proof (be_number_lt c Bc) as Hs. rewrite Lc in Hs. change (8 * N.of_nat 8) with 64 in Hs.
  unfold ta_valid. cbn [ta_type ta_frames ta_sec ta_tai]. unfold from_coded, enum_valid.
  destruct (N.leb_spec a 2); destruct (N.ltb_spec a 3); try lia.
  - destruct (N.ltb_spec (be_number c) (2 ^ 63)) as [Q|Q].
    + rewrite (to_i64_small _ Q). replace (negb (a =? UNDEF32) && negb (a =? 3)) with true by (unfold UNDEF32; lia).
      replace (255 <? b) with false by lia. replace (255 <? d) with false by lia. replace (Z.of_N (be_number c) <? 0)%Z with false by lia. reflexivity.
    + pose proof (to_i64_large _ Q Hs). replace (to_i64 (be_number c) <? 0)%Z with true by lia. cbn [negb]. rewrite !andb_false_r. reflexivity.
  - reflexivity.
Qed.
Lemma pt_meaning x fl : length x = 1%nat -> bytes x -> exists t v, pt_unpack x = Ok (t, v) /\
  forall mu, meaning Power_Target mu fl x = if v then Some (Power_target t) else None.
Proof.
  intros L B. destruct x as [|b [|? ?]]; try (cbn in L; lia). eexists _, _. split; [reflexivity|]. intros mu. unfold meaning, pt_valid.
  assert (E : be_number [b] = b) by (unfold be_number; cbn [fold_left]; now rewrite N.shiftl_0_l). now rewrite E.
Qed.
Lemma cb_peek_first mu a f t : cb_peek mu (a :: f :: t) = Ok (4 + count (N.testbit f 4) 1 + count (N.testbit f 2) (if (mu <=? 4)%N then 1 else 2) + count (N.testbit f 1) 2 + count (N.testbit f 0) 4)%nat.
Proof.
  assert (B : forall i, N.to_nat (N.land (N.shiftr f i) 1) = count (N.testbit f i) 1).
  { intros i. change 1 with (N.ones 1). rewrite N.land_ones. change (2 ^ 1) with 2. rewrite <- N.bit0_mod, N.shiftr_spec' . rewrite N.add_0_l. destruct (N.testbit f i); reflexivity. }
  assert (B0 : N.to_nat (N.land f 1) = count (N.testbit f 0) 1) by (rewrite <- B, N.shiftr_0_r; reflexivity).
  unfold cb_peek. mcbn. rewrite !B, B0. f_equal. unfold count, fo_size. repeat destruct (N.testbit _ _); destruct (mu <=? 4); reflexivity.
Qed.
Lemma cb_meaning mu x fl : bytes x -> cb_peek mu x = Ok (length x) -> exists c v,
  (forall y, bytes y -> cb_unpack mu (x ++ y) = Ok (c, v)) /\ meaning Cluster_Beacon mu fl x = if v then Some (Beacon c) else None.
Proof.
  intros B P. destruct (C24_unpack_exact mu x (length x) B P (le_n _)) as ((c & v & E & E') & _). exists c, v. split.
  - intros y By. assert (Q : cb_peek mu (x ++ y) = Ok (length x)).
    { destruct x as [|a [|f t]]; try discriminate. rewrite cb_peek_first in P. cbn [app]. rewrite cb_peek_first. exact P. }
    destruct (C24_unpack_exact mu (x ++ y) (length x)) as ((c' & v' & F & F') & _); [now apply Forall_app|exact Q|rewrite app_length; lia|].
    rewrite firstn_app, Nat.sub_diag, firstn_O, app_nil_r in F. rewrite F in E. congruence.
  - unfold meaning. rewrite E'. now destruct v.
Qed.

(** *** The invariant *)
Definition R (d : decoder) : nat := N.to_nat (d_r d).
Definition slot (d : decoder) (p : kind * nat) : element := nth (snd p) (d_pool d (fst p)) (mkEl mmh_zero Never).
Definition mu_ok (mu : N) : Prop := mu = 1 \/ mu = 2 \/ mu = 4 \/ mu = 8.
Record generic (m : list N) (mu : N) (d : decoder) (caps : kind -> nat) (es : list item) : Prop := mkG {
  g_tb : d_tb d = N.of_nat (length m);
  g_mu : d_mu d = mu;
  g_r : d_r d <= d_tb d;
  g_req : d_req d < 65536;
  g_pool : forall k, length (d_pool d k) = capacity k;
  g_idx : forall k, four k -> (d_index d k + caps k = capacity k)%nat;
  g_dec : forall p, In p (d_decoded d) -> (snd p < d_index d (fst p))%nat;
  g_del : delivered m d = map Some es }.
Definition tells (m : list N) (mu : N) (d : decoder) (l : list item) : Prop := read_pdu mu m = mkPdu (d_mht d) (common_of d) l.
Definition special (m : list N) (mu : N) (d : decoder) (caps : kind -> nat) (es : list item) : Prop :=
  match d_state d with
  | MAC_HEADER_TYPE => d_r d = 0 /\ d_req d = 1 /\ d_mht d = None /\ d_mch d = None /\ es = [] /\ forall k, four k -> caps k = room k
  | MAC_COMMON_HEADER => exists h, d_mht d = Some h /\ d_mch d = Some (mht_type h, None) /\ d_r d = 1 /\ mht_unpack m = Ok (h, true) /\
      mht_type h <= 4 /\ d_req d = N.of_nat (common_size (mht_type h)) /\ es = [] /\ forall k, four k -> caps k = room k
  | MUX_EXT_IE_TYPE => d_req d = 1 /\ tells m mu d (es ++ items mu caps (skipn (R d) m))
  | A_LENGTH_OR_FIXED_SIZE => exists k b t, d_mmie d = Some (k, d_index d k) /\ four k /\ (0 < caps k)%nat /\ first b = Some (d_mmh d) /\
      mx_tinfo (d_mmh d) = Some k /\ b <> 9 /\ skipn (R d) m = b :: t /\ d_req d = (match mx_ext (d_mmh d) with 1 => 2 | 2 => 3 | _ => 1 end) /\
      tells m mu d (es ++ items mu caps (skipn (R d) m))
  | B_PEEK => exists s t, d_r d = N.of_nat (S s) /\ skipn s m = 9 :: t /\ d_mmie d = Some (Cluster_Beacon, d_index d Cluster_Beacon) /\
      (0 < caps Cluster_Beacon)%nat /\ d_req d = 2 /\ mx_tinfo (el_mmh (slot d (Cluster_Beacon, d_index d Cluster_Beacon))) = Some Cluster_Beacon /\
      tells m mu d (es ++ items mu caps (skipn s m))
  | IE_UNPACK => exists k fl n, d_req d = N.of_nat n /\ four k /\ d_mmie d = Some (k, d_index d k) /\ (0 < caps k)%nat /\
      let h := el_mmh (slot d (k, d_index d k)) in
      mx_tinfo h = Some k /\ (k = User_Plane_Data -> get_flow_id h = fl /\ mx_len h = d_req d) /\
      (k = Power_Target -> n = 1%nat) /\ (k = Time_Announce -> n = 11%nat) /\
      (k = Cluster_Beacon -> exists a f t, skipn (R d) m = a :: f :: t /\ cb_peek mu (a :: f :: t) = Ok n) /\
      tells m mu d (es ++ if (R d + n <=? length m)%nat then
        match meaning k mu fl (firstn n (skipn (R d) m)) with
        | Some i => i :: items mu (less caps k) (skipn (R d + n) m)
        | None => items mu caps (skipn (R d + n) m)
        end else [])
  | CHECK_IF_DONE => d_req d = 0 /\ tells m mu d (es ++ items mu caps (skipn (R d) m))
  | DONE => d_r d = d_tb d /\ tells m mu d es
  | PREMATURE_ABORT => d_req d = 0 /\ tells m mu d es
  end.
Definition inv (m : list N) (mu : N) (d : decoder) : Prop := exists caps es, generic m mu d caps es /\ special m mu d caps es.

Definition rank (s : dstate) : nat :=
  match s with
  | MAC_HEADER_TYPE => 6 | B_PEEK => 5 | IE_UNPACK => 4 | CHECK_IF_DONE => 3 | MAC_COMMON_HEADER => 3 | MUX_EXT_IE_TYPE => 2
  | A_LENGTH_OR_FIXED_SIZE => 1 | _ => 0
  end.
Definition measure (d : decoder) : nat := (6 * (N.to_nat (d_tb d) - R d) + rank (d_state d))%nat.
Definition goes_on (m p : list N) (mu : N) (d : decoder) (r : res (bool * decoder)) : Prop :=
  exists b d', r = Ok (b, d') /\ inv m mu d' /\ (R d' <= length p)%nat /\ d_tb d' = d_tb d /\
  if b then (measure d' < measure d)%nat else d_state d' = DONE \/ (d_state d' = PREMATURE_ABORT /\ R d' = length p).

Lemma announced_first mu b t h n k fl : announced mu (b :: t) = Some (k, fl, h, n) -> exists g, first b = Some g /\ mx_tinfo g = Some k.
Proof.
  unfold announced, first.
  destruct (b =? 9); [destruct t as [|? [|? ?]]; try discriminate; intros E; injection E as <- <- <- <-; eauto|].
  destruct (b =? 29); [intros E; injection E as <- <- <- <-; eauto|]. destruct (b =? 30); [intros E; injection E as <- <- <- <-; eauto|].
  destruct (_ && _); [destruct t; try discriminate; intros E; injection E as <- <- <- <-; eauto|].
  destruct (_ && _); [destruct t as [|? [|? ?]]; try discriminate; intros E; injection E as <- <- <- <-; eauto|]. discriminate.
Qed.
Lemma items_nil mu caps : items mu caps [] = []. Proof. reflexivity. Qed.
Lemma less_le caps k j : (less caps k j <= caps j)%nat.
Proof. unfold less, at_kind. destruct (kind_dec j k); subst; lia. Qed.

Lemma lor_add8 l x : l < 256 -> N.lor l (N.shiftl x 8) = 256 * x + l.
Proof.
  intros H. rewrite N.lor_comm, N.shiftl_mul_pow2. change (2 ^ 8) with 256. rewrite <- N.lxor_lor, <- N.add_nocarry_lxor; [lia| |]; change 256 with (2 ^ 8); rewrite <- N.shiftl_mul_pow2.
  all: apply N.bits_inj; intros n; rewrite N.land_spec, N.bits_0; destruct (N.lt_ge_cases n 8); [rewrite N.shiftl_spec_low by lia; reflexivity|].
  all: replace (N.testbit l n) with false by (symmetry; destruct (N.eq_dec l 0) as [->|]; [apply N.bits_0|]; apply N.bits_above_log2; apply N.log2_lt_pow2; [lia|]; apply N.lt_le_trans with (2 ^ 8); [exact H|apply N.pow_le_mono_r; lia]); apply andb_false_r.
Qed.
Lemma length16 b h l y : l < 256 -> h < 256 -> b2l_lower (b :: h :: l :: y) 1 4 2 = Ok (256 * h + l).
Proof.
  intros H1 H2. unfold b2l_lower, seg. cbn [length Nat.add Nat.leb skipn firstn bind Nat.sub repeat rev app le_val].
  change (Ok (N.lor l (N.shiftl (N.lor h (N.shiftl (N.lor 0 (N.shiftl (N.lor 0 (N.shiftl 0 8)) 8)) 8)) 8)) = Ok (256 * h + l)).
  change (N.lor 0 (N.shiftl (N.lor 0 (N.shiftl 0 8)) 8)) with 0. rewrite N.shiftl_0_l, N.lor_0_r. f_equal. now apply lor_add8.
Qed.
(** the length, or the fixed size of the element *)
Lemma length_step mu b x h k : first b = Some h -> b <> 9 -> mx_tinfo h = Some k -> bytes (b :: x) ->
  N.of_nat (length (b :: x)) = (match mx_ext h with 1 => 2 | 2 => 3 | _ => 1 end) ->
  exists h' fl n, (forall y, mmh_unpack_length h (b :: x ++ y) = Ok h') /\ (forall y, announced mu (b :: x ++ y) = Some (k, fl, length (b :: x), n)) /\
  mx_tinfo h' = Some k /\ (if mx_len h' <? UNDEF32 then k = User_Plane_Data /\ mx_len h' = N.of_nat n /\ get_flow_id h' = fl else fixed_size k = Ok (N.of_nat n) /\ k <> User_Plane_Data) /\
  (k = Power_Target -> n = 1%nat) /\ (k = Time_Announce -> n = 11%nat) /\ k <> Cluster_Beacon /\ N.of_nat n < 65536.
Proof.
  unfold first, announced. destruct (N.eqb_spec b 9) as [|_]; [congruence|]. intros F _ T B L. cbn [length].
  destruct (b =? 29).
  { injection F as <-. injection T as <-. cbn [mx_ext] in L. destruct x; [|cbn [length] in L; lia]. eexists _, _, _. split; [reflexivity|]. split; [reflexivity|]. cbn.
    split; [reflexivity|]. split; [split; [reflexivity|discriminate]|]. split; [reflexivity|]. split; [discriminate|]. split; [discriminate|lia]. }
  destruct (b =? 30).
  { injection F as <-. injection T as <-. cbn [mx_ext] in L. destruct x; [|cbn [length] in L; lia]. eexists _, _, _. split; [reflexivity|]. split; [reflexivity|]. cbn.
    split; [reflexivity|]. split; [split; [reflexivity|discriminate]|]. split; [discriminate|]. split; [reflexivity|]. split; [discriminate|lia]. }
  apply Forall_cons_iff in B. destruct B as (_ & B).
  destruct (_ && _) eqn:E.
  { injection F as <-. injection T as <-. cbn [mx_ext] in L. destruct x as [|n [|? ?]]; cbn [length] in L; try lia. apply Forall_inv in B.
    assert (Hb : b = 67 \/ b = 68 \/ b = 69 \/ b = 70) by lia.
    eexists _, _, _. split; [intros y; reflexivity|]. split; [intros y; reflexivity|]. cbn [mx_tinfo mx_len mx_ie mx_ext]. split; [reflexivity|].
    replace (n <? UNDEF32) with true by (unfold UNDEF32; lia). split; [|split; [discriminate|split; [discriminate|split; [discriminate|lia]]]].
    split; [reflexivity|]. split; [lia|]. unfold get_flow_id. cbn [mx_ie]. destruct Hb as [->|[->|[->| ->]]]; reflexivity. }
  destruct ((128 + 3 <=? b) && _) eqn:E'.
  { injection F as <-. injection T as <-. cbn [mx_ext] in L. destruct x as [|n [|q [|? ?]]]; cbn [length] in L; try lia. apply Forall_cons_iff in B. destruct B as (B1 & B2). apply Forall_inv in B2.
    assert (Hb : b = 131 \/ b = 132 \/ b = 133 \/ b = 134) by lia.
    eexists (mkMmh 2 (b - 128) (256 * n + q) (Some User_Plane_Data)), _, _. split; [intros y; unfold mmh_unpack_length; cbn [mx_ext mx_len mx_ie mx_tinfo]; cbn [app]; rewrite length16 by assumption; reflexivity|]. split; [intros y; reflexivity|].
    cbn [mx_tinfo mx_len mx_ie mx_ext]. split; [reflexivity|].
    replace (256 * n + q <? UNDEF32) with true by (unfold UNDEF32; lia). split; [|split; [discriminate|split; [discriminate|split; [discriminate|lia]]]].
    split; [reflexivity|]. split; [lia|]. unfold get_flow_id. cbn [mx_ie]. destruct Hb as [->|[->|[->| ->]]]; reflexivity. }
  discriminate.
Qed.
(** one element at a position *)
Lemma items_at (m : list N) mu caps r k fl h n : announced mu (skipn r m) = Some (k, fl, h, n) -> (0 < caps k)%nat -> (r + h <= length m)%nat ->
  items mu caps (skipn r m) = if (r + h + n <=? length m)%nat then
        match meaning k mu fl (firstn n (skipn (r + h) m)) with
        | Some i => i :: items mu (less caps k) (skipn (r + h + n) m)
        | None => items mu caps (skipn (r + h + n) m)
        end else [].
Proof.
  intros A C L. rewrite items_step, A, skipn_length. replace (0 <? caps k)%nat with true by lia. cbn [andb].
  replace (h + n <=? length m - r)%nat with (r + h + n <=? length m)%nat by lia. rewrite !skipn_add. replace (r + (h + n))%nat with (r + h + n)%nat by lia. reflexivity.
Qed.

Section Round.
Variables (m p : list N) (mu : N).
Hypothesis Bm : bytes m.
Hypothesis Lm : N.of_nat (length m) < 2 ^ 31.
Hypothesis Pp : p = firstn (length p) m.
Hypothesis Mu : mu_ok mu.

Lemma Bp : bytes p. Proof. rewrite Pp. now apply bytes_firstn. Qed.
Lemma len_p : (length p <= length m)%nat.
Proof. rewrite Pp, firstn_length. lia. Qed.
Lemma bytes_skipn (l : list N) k : bytes l -> bytes (skipn k l).
Proof. intros H. rewrite <- (firstn_skipn k l) in H. apply Forall_app in H. tauto. Qed.

(** a block in which no more can be read *)
Lemma stop d d' : d_state d' = PREMATURE_ABORT -> d_r d' = N.of_nat (length p) ->
  d_tb d' = d_tb d -> inv m mu d' -> goes_on m p mu d (Ok (false, d')).
Proof. intros E F T I. exists false, d'. split; [reflexivity|]. split; [exact I|]. unfold R. rewrite F, Nat2N.id. split; [lia|]. split; [exact T|]. right. auto. Qed.

Lemma abort_inv d caps es l : generic m mu d caps es -> tells m mu d es -> l <= d_tb d -> inv m mu (with_r (abort_pdu d) l).
Proof.
  intros G T L. exists caps, es. split.
  - destruct G as [G1 G2 G3 G4 G5 G6 G7 G8]. constructor; cbn; auto; lia.
  - cbn. auto.
Qed.
Lemma abort_goes d caps es : generic m mu d caps es -> tells m mu d es -> (R d <= length p)%nat -> (0 < rank (d_state d))%nat ->
  goes_on m p mu d (Ok (true, abort_pdu d)).
Proof.
  intros G T L P. exists true, (abort_pdu d). split; [reflexivity|]. split; [|split; [exact L|]].
  - destruct G as [G1 G2 G3 G4 G5 G6 G7 G8]. exists caps, es. split; [constructor; cbn; auto; lia|]. cbn. auto.
  - split; [reflexivity|]. unfold measure, abort_pdu, go, R in *. cbn [d_tb d_r d_state rank]. destruct (d_state d); cbn [rank] in *; lia.
Qed.
(** the block is shorter than what has been announced *)
Lemma too_short d : inv m mu d -> d_state d <> DONE -> (0 < length m)%nat -> d_tb d < d_r d + d_req d -> exists caps es, generic m mu d caps es /\ tells m mu d es.
Proof.
  intros (caps & es & G & S) ND L0 O. exists caps, es. split; [exact G|]. destruct G as [G1 G2 G3 G4 G5 G6 G7 G8]. unfold special in S. unfold tells in *.
  destruct (d_state d) eqn:St.
  - lia.
  - destruct S as (h & S1 & S2 & S3 & S4 & S5 & S6 & -> & _). unfold read_pdu. rewrite S4. replace (1 + common_size (mht_type h) <=? length m)%nat with false by lia.
    rewrite S1. unfold common_of. now rewrite S2.
  - destruct S as (S1 & S). assert (skipn (R d) m = []) as E by (apply skipn_all2; unfold R; lia). rewrite E, items_nil, app_nil_r in S. exact S.
  - destruct S as (k & b & t & S1 & S2 & S3 & S4 & S5 & S6 & S7 & S8 & S). assert (Lt : (length (b :: t) = length m - R d)%nat) by (rewrite <- S7, skipn_length; reflexivity).
    rewrite S7, items_step in S. assert (A : announced mu (b :: t) = None).
    { unfold first in S4. unfold announced. destruct (b =? 9) eqn:E9; [lia|].
      destruct (b =? 29); [injection S4 as S4; rewrite <- S4 in S8; cbn [mx_ext] in S8; cbn [length] in Lt; unfold R in *; lia|].
      destruct (b =? 30); [injection S4 as S4; rewrite <- S4 in S8; cbn [mx_ext] in S8; cbn [length] in Lt; unfold R in *; lia|].
      destruct (_ && _); [injection S4 as S4; rewrite <- S4 in S8; cbn [mx_ext] in S8; destruct t; [reflexivity|]; cbn [length] in Lt; unfold R in *; lia|].
      destruct (_ && _); [injection S4 as S4; rewrite <- S4 in S8; cbn [mx_ext] in S8; destruct t as [|? [|? ?]]; try reflexivity; cbn [length] in Lt; unfold R in *; lia|]. reflexivity. }
    rewrite A, app_nil_r in S. exact S.
  - destruct S as (s & t & S1 & S2 & S3 & S4 & S5 & S6 & S). assert (Lt : length (9 :: t) = (length m - s)%nat) by (rewrite <- S2, skipn_length; reflexivity).
    rewrite S2, items_step in S. assert (A : announced mu (9 :: t) = None).
    { unfold announced. cbn [N.eqb Pos.eqb]. destruct t as [|? [|? ?]]; try reflexivity. cbn [length] in Lt. lia. }
    rewrite A, app_nil_r in S. exact S.
  - destruct S as (k & fl & n & S1 & _ & _ & _ & _ & _ & _ & _ & _ & S). replace (R d + n <=? length m)%nat with false in S by (unfold R; lia). now rewrite app_nil_r in S.
  - lia.
  - congruence.
  - apply S.
Qed.

(** the bytes a state asks for *)
Lemma window d n : (R d + n <= length p)%nat ->
  exists x y, behind_r p (d_r d) = x ++ y /\ length x = n /\ skipn (R d) m = x ++ skipn (R d + n) m /\ bytes x /\ bytes y.
Proof.
  intros L. destruct (split_at m p (R d) n Pp L) as (x & y & E & Lx & F). exists x, y.
  assert (B : bytes (x ++ y)) by (rewrite <- E; apply bytes_skipn, Bp). apply Forall_app in B. repeat split; auto; apply B.
Qed.
Lemma add32_small a b : a + b < 2 ^ 32 -> add32 a b = a + b.
Proof. intros H. unfold add32. now apply N.mod_small. Qed.
Lemma with_r_generic d caps es r : generic m mu d caps es -> r <= d_tb d -> generic m mu (with_r d r) caps es.
Proof. intros [] H. constructor; auto. Qed.
Lemma go_generic d caps es s n : generic m mu d caps es -> n < 65536 -> generic m mu (go d s n) caps es.
Proof. intros [] H. constructor; auto. Qed.
Lemma headers_generic d caps es a b : generic m mu d caps es -> generic m mu (with_headers d a b) caps es.
Proof. intros []. constructor; auto. Qed.
Lemma mmh_generic d caps es a : generic m mu d caps es -> generic m mu (with_mmh d a) caps es.
Proof. intros []. constructor; auto. Qed.
Lemma mmie_generic d caps es a : generic m mu d caps es -> generic m mu (with_mmie d a) caps es.
Proof. intros []. constructor; auto. Qed.
Lemma nth_upd {A} (l : list A) i j x dflt : nth j (upd l i x) dflt = if (j =? i)%nat && (i <? length l)%nat then x else nth j l dflt.
Proof.
  revert i j. induction l as [|a l IH]; intros i j.
  - cbn [upd length]. replace (i <? 0)%nat with false by lia. rewrite andb_false_r. reflexivity.
  - destruct i as [|i], j as [|j]; cbn [upd nth]; try reflexivity. rewrite IH. cbn [length]. reflexivity.
Qed.
Lemma element_slot d k i e q : (i < length (d_pool d k))%nat -> slot (set_element d (k, i) e) q = if (if kind_dec (fst q) k then true else false) && (snd q =? i)%nat then e else slot d q.
Proof.
  intros L. unfold slot, set_element, with_pool, at_kind. cbn [d_pool fst snd]. destruct (kind_dec (fst q) k) as [->|]; [|reflexivity].
  rewrite nth_upd. replace (i <? length (d_pool d k))%nat with true by lia. rewrite andb_true_r. reflexivity.
Qed.
Lemma element_generic d caps es k e : generic m mu d caps es -> (d_index d k < length (d_pool d k))%nat -> generic m mu (set_element d (k, d_index d k) e) caps es.
Proof.
  intros [G1 G2 G3 G4 G5 G6 G7 G8] L. constructor; auto.
  - intros j. unfold set_element, with_pool, at_kind. cbn [d_pool fst snd]. destruct (kind_dec j k) as [->|]; [|auto]. now rewrite upd_length.
  - rewrite <- G8. unfold delivered. apply map_ext_in. intros q Q. f_equal. change (slot (set_element d (k, d_index d k) e) q = slot d q).
    rewrite element_slot by exact L. destruct (kind_dec (fst q) k) as [E|]; [|reflexivity]. specialize (G7 q Q). rewrite E in G7.
    replace (snd q =? d_index d k)%nat with false by lia. reflexivity.
Qed.

Ltac prep d caps es G := pose proof (g_tb _ _ _ _ _ G); pose proof (g_mu _ _ _ _ _ G); pose proof (g_r _ _ _ _ _ G); pose proof (g_req _ _ _ _ _ G).

Lemma step_mht d : inv m mu d -> d_state d = MAC_HEADER_TYPE -> (R d + N.to_nat (d_req d) <= length p)%nat -> goes_on m p mu d (decode_state p d).
Proof.
  intros (caps & es & G & Sp) St W. unfold special in Sp. rewrite St in Sp. destruct Sp as (S1 & S2 & S3 & S4 & -> & S6).
  prep d caps es G. rewrite S2 in W. destruct (window d 1 W) as (x & y & E & Lx & F & Bx & By). destruct x as [|b [|? ?]]; try discriminate Lx.
  unfold decode_state. rewrite St, S1, S2. cbn [N.eqb]. rewrite S1 in E. unfold R in F. rewrite S1 in F. cbn [N.to_nat skipn] in F. unfold behind_r in *. cbn [N.to_nat skipn app] in *.
  assert (0 < N.of_nat (length p)) by (unfold R in W; lia). replace (0 <? N.of_nat (length p)) with true by lia. cbn [guard].
  destruct (mht_total b) as (h & v & Hu). assert (Up : mht_unpack p = Ok (h, v)) by (rewrite E; apply Hu).
  assert (Um : mht_unpack m = Ok (h, v)) by (rewrite F; apply Hu). rewrite Up. cbn [bind]. destruct v; cbn [negb].
  - rewrite add32_small by lia. cbn [with_r d_r]. change (0 + 1) with 1. cbn [N.eqb Pos.eqb guard].
    pose proof (mht_bound b y h (Hu y)) as Ht. rewrite (proj2 (mch_sizes (mht_type h) _ Ht) eq_refl). cbn [bind].
    eexists true, _. split; [reflexivity|]. split; [|split; [cbn; unfold R in *; cbn; lia|split; [reflexivity|]]].
    + exists caps, []. split.
      * apply go_generic; [apply headers_generic, with_r_generic; auto; unfold R in W; pose proof len_p; lia|apply common_size_small].
      * cbn. exists h. split; [reflexivity|]. split; [reflexivity|]. split; [reflexivity|]. split; [exact Um|]. split; [exact Ht|]. auto.
    + unfold measure. cbn [go with_headers with_r d_tb d_state d_r rank R]. unfold R. cbn [d_r]. rewrite St, S1. cbn [rank]. unfold R in W. pose proof len_p. lia.
  - apply abort_goes with caps []; auto; [|unfold R in *; lia|rewrite St; cbn; lia].
    unfold tells, read_pdu. rewrite Um. unfold common_of. now rewrite S3, S4.
Qed.

Lemma step_mch d : inv m mu d -> d_state d = MAC_COMMON_HEADER -> (R d + N.to_nat (d_req d) <= length p)%nat -> goes_on m p mu d (decode_state p d).
Proof.
  intros (caps & es & G & Sp) St W. unfold special in Sp. rewrite St in Sp. destruct Sp as (h & S1 & S2 & S3 & S4 & S5 & S6 & -> & S8).
  prep d caps es G. rewrite S6, Nat2N.id in W. destruct (window d _ W) as (x & y & E & Lx & F & Bx & By). pose proof len_p as Lp.
  unfold decode_state. rewrite St, S2, E. destruct (mch_total (mht_type h) x S5 Lx) as (c & v & Hu & Hc). rewrite Hu. cbn [bind].
  assert (R1 : R d = 1%nat) by (unfold R; rewrite S3; reflexivity). rewrite R1 in *.
  assert (Q : read_pdu mu m = if v then mkPdu (Some h) (Some c) (items mu room (skipn (1 + common_size (mht_type h)) m)) else mkPdu (Some h) None []).
  { unfold read_pdu. rewrite S4. replace (1 + common_size (mht_type h) <=? length m)%nat with true by lia. rewrite F, Hc. now destruct v. }
  destruct v; cbn [negb].
  - rewrite add32_small by lia. eexists true, _. split; [reflexivity|]. split; [|split; [unfold R; cbn [go with_r with_headers d_r]; rewrite S3, S6; lia|split; [reflexivity|]]].
    + exists caps, []. split.
      * apply go_generic; [|lia]. apply with_r_generic; [now apply headers_generic|]. cbn [with_headers d_tb]. lia.
      * cbn. split; [reflexivity|]. unfold tells. cbn. rewrite Q, S1. f_equal. unfold R. cbn. rewrite S3, S6.
        replace (N.to_nat (1 + N.of_nat (common_size (mht_type h)))) with (1 + common_size (mht_type h))%nat by lia.
        apply items_ext. intros k K. symmetry. now apply S8.
    + unfold measure, R. cbn [go with_headers with_r d_tb d_state d_r rank]. rewrite St, S3, S6. cbn [rank]. lia.
  - exists true, (abort_pdu (with_headers d (d_mht d) None)). split; [reflexivity|]. split; [|split; [unfold R in *; cbn; lia|split; [reflexivity|]]].
    + exists caps, []. split; [apply go_generic; [now apply headers_generic|lia]|]. cbn. split; [reflexivity|]. unfold tells. cbn. now rewrite Q, S1.
    + unfold measure, R. cbn. rewrite St. cbn [rank]. lia.
Qed.

Lemma step_ext d : inv m mu d -> d_state d = MUX_EXT_IE_TYPE -> (R d + N.to_nat (d_req d) <= length p)%nat -> goes_on m p mu d (decode_state p d).
Proof.
  intros (caps & es & G & Sp) St W. unfold special in Sp. rewrite St in Sp. destruct Sp as (S1 & S2).
  prep d caps es G. rewrite S1 in W. destruct (window d 1 W) as (x & y & E & Lx & F & Bx & By). destruct x as [|b [|? ?]]; try discriminate Lx. cbn [app] in *.
  pose proof len_p as Lp. unfold decode_state. rewrite St, E. apply Forall_inv in Bx.
  destruct (first_exact b y Bx) as (h & v & U & C). rewrite U. cbn [bind].
  assert (Gh : generic m mu (with_mmh d h) caps es) by now apply mmh_generic.
  assert (Stop : announced mu (skipn (R d) m) = None -> tells m mu d es).
  { intros A. rewrite items_step, A, app_nil_r in S2. exact S2. }
  destruct (first b) as [h'|] eqn:Fb.
  - destruct C as (-> & ->). cbn [negb].
    assert (exists k, mx_tinfo h' = Some k /\ four k /\ (peeking k = true <-> b = 9) /\ (b = 9 -> k = Cluster_Beacon)) as (k & Tk & Fk & Pk & Ck).
    { unfold first in Fb. unfold four.
      destruct (N.eqb_spec b 9); [injection Fb as <-; eexists; split; [reflexivity|]; cbn; tauto|].
      destruct (b =? 29); [injection Fb as <-; eexists; split; [reflexivity|]; cbn; intuition congruence|].
      destruct (b =? 30); [injection Fb as <-; eexists; split; [reflexivity|]; cbn; intuition congruence|].
      destruct (_ && _); [injection Fb as <-; eexists; split; [reflexivity|]; cbn; intuition congruence|].
      destruct (_ && _); [injection Fb as <-; eexists; split; [reflexivity|]; cbn; intuition congruence|]. discriminate. }
    rewrite Tk. destruct (kind_dec k Padding) as [->|_]; [exfalso; destruct Fk as [X|[X|[X|X]]]; discriminate X|].
    unfold get_mmie_from_pool. change (d_index (with_mmh d h') k) with (d_index d k). change (d_pool (with_mmh d h') k) with (d_pool d k).
    rewrite (g_pool _ _ _ _ _ G). pose proof (g_idx _ _ _ _ _ G k Fk) as Hi.
    destruct (Nat.ltb_spec (d_index d k) (capacity k)) as [Lk|Lk].
    + destruct (peeking k) eqn:Pe.
      * pose proof (proj1 Pk eq_refl) as ->. rewrite (Ck eq_refl) in *. clear Pk Ck. cbn [min_to_peek bind fst snd].
        match goal with |- context [add32 ?a ?b] => change (add32 a b) with (add32 (d_r d) (d_req d)) end. rewrite S1, add32_small by lia.
        eexists true, _. split; [reflexivity|]. split; [|split; [unfold R in *; cbn; lia|split; [reflexivity|]]].
        -- exists caps, es. split.
           ++ apply go_generic; [|lia]. apply with_r_generic; [|cbn; unfold R in W; lia]. cbn [with_mmie d_pool]. apply (element_generic (with_mmie (with_mmh d h') _)); [now apply mmie_generic|].
              cbn. rewrite (g_pool _ _ _ _ _ G). exact Lk.
           ++ cbn -[slot]. exists (R d), (skipn (R d + 1) m). split; [unfold R; lia|]. split; [exact F|]. split; [reflexivity|]. split; [lia|]. split; [reflexivity|]. split.
              ** match goal with |- context [slot (go (with_r ?z _) _ _) ?q] => change (mx_tinfo (el_mmh (slot z q)) = Some Cluster_Beacon) end.
                 rewrite element_slot by (cbn; rewrite (g_pool _ _ _ _ _ G); exact Lk). cbn [fst snd]. destruct (kind_dec Cluster_Beacon Cluster_Beacon); [|congruence].
                 rewrite Nat.eqb_refl. exact Tk.
              ** exact S2.
        -- unfold measure, R. cbn. rewrite St. cbn [rank]. unfold R in W. lia.
      * assert (b <> 9) as N9 by (intros X; apply Pk in X; discriminate).
        assert (Hs : exists s, mmh_size h' = Ok s /\ N.of_nat s = (match mx_ext h' with 1 => 2 | 2 => 3 | _ => 1 end) /\ (s <= 3)%nat).
        { unfold first in Fb. destruct (b =? 9) eqn:?; [lia|].
          destruct (b =? 29); [injection Fb as <-; eexists; split; [reflexivity|cbn; lia]|].
          destruct (b =? 30); [injection Fb as <-; eexists; split; [reflexivity|cbn; lia]|].
          destruct (_ && _); [injection Fb as <-; eexists; split; [reflexivity|cbn; lia]|].
          destruct (_ && _); [injection Fb as <-; eexists; split; [reflexivity|cbn; lia]|]. discriminate. }
        destruct Hs as (s & Hs & Hn & Hl). rewrite Hs. cbn [bind]. eexists true, _. split; [reflexivity|]. split; [|split; [unfold R in *; cbn; lia|split; [reflexivity|]]].
        -- exists caps, es. split; [apply go_generic; [now apply mmie_generic|lia]|]. cbn. exists k, b, (skipn (R d + 1) m).
           split; [reflexivity|]. split; [exact Fk|]. split; [lia|]. split; [exact Fb|]. split; [exact Tk|]. split; [exact N9|]. split; [exact F|]. split; [exact Hn|]. exact S2.
        -- unfold measure, R. cbn. rewrite St. cbn [rank]. lia.
    + exists true, (abort_pdu (with_mmie (with_mmh d h') None)). split; [reflexivity|]. split; [|split; [unfold R in *; cbn; lia|split; [reflexivity|]]].
      * exists caps, es. split; [apply go_generic; [now apply mmie_generic|lia]|]. cbn. split; [reflexivity|].
        change (tells m mu d es). rewrite items_step in S2. destruct (announced mu (skipn (R d) m)) as [[[[k' fl] hh] n]|] eqn:A; [|now rewrite app_nil_r in S2].
        rewrite F in A. destruct (announced_first _ _ _ _ _ _ _ A) as (g & Hg & Tg). rewrite Fb in Hg. injection Hg as <-. rewrite Tk in Tg. injection Tg as <-.
        replace (0 <? caps k)%nat with false in S2 by lia. cbn [andb] in S2. now rewrite app_nil_r in S2.
      * unfold measure, R. cbn. rewrite St. cbn [rank]. lia.
  - assert (T : tells m mu d es) by (apply Stop; rewrite F; now apply announced_none).
    assert (Ab : goes_on m p mu d (Ok (true, abort_pdu (with_mmh d h)))).
    { exists true, (abort_pdu (with_mmh d h)). split; [reflexivity|]. split; [|split; [unfold R in *; cbn; lia|split; [reflexivity|]]].
      - exists caps, es. split; [apply go_generic; [exact Gh|lia]|]. cbn. auto.
      - unfold measure, R. cbn. rewrite St. cbn [rank]. lia. }
    destruct C as [->|C]; cbn [negb]; [exact Ab|]. destruct v; cbn [negb]; [|exact Ab]. rewrite C. destruct (kind_dec Padding Padding); [exact Ab|congruence].
Qed.

Lemma step_len d : inv m mu d -> d_state d = A_LENGTH_OR_FIXED_SIZE -> (R d + N.to_nat (d_req d) <= length p)%nat -> goes_on m p mu d (decode_state p d).
Proof.
  intros (caps & es & G & Sp) St W. unfold special in Sp. rewrite St in Sp. destruct Sp as (k & b & t & S1 & S2 & S3 & S4 & S5 & S6 & S7 & S8 & S9).
  prep d caps es G. destruct (window d _ W) as (x & y & E & Lx & F & Bx & By). pose proof len_p as Lp.
  assert (Q : exists x', x = b :: x').
  { destruct x as [|b' x']; [exfalso; cbn in Lx; destruct (mx_ext (d_mmh d)) as [|[[?|?|]|[?|?|]|]]; lia|]. cbn [app] in F. rewrite S7 in F. injection F as -> _. now exists x'. }
  destruct Q as (x' & ->). cbn [app] in *.
  destruct (length_step mu b x' (d_mmh d) k S4 S6 S5 Bx ltac:(rewrite Lx, N2Nat.id; exact S8)) as (h' & fl & n & U & A & T' & C & P1 & P2 & P3 & Hn).
  pose proof (g_idx _ _ _ _ _ G k S2) as Hi. pose proof (g_pool _ _ _ _ _ G k) as Hp.
  assert (A' : announced mu (skipn (R d) m) = Some (k, fl, N.to_nat (d_req d), n)) by (rewrite F, A, Lx; reflexivity).
  rewrite (items_at m mu caps (R d) k fl _ n A' S3 ltac:(lia)) in S9.
  unfold decode_state. rewrite St, S1, E, U. cbn [bind fst snd].
  match goal with |- context [add32 ?a ?c] => change (add32 a c) with (add32 (d_r d) (d_req d)) end. rewrite add32_small by lia.
  match goal with |- goes_on _ _ _ _ (if _ then Ok (true, go (with_r ?z _) _ _) else _) => set (d1 := z) end.
  assert (Lq : (d_index d k < length (d_pool d k))%nat) by lia.
  assert (G1 : generic m mu (with_r d1 (d_r d + d_req d)) caps es).
  { apply with_r_generic; [|unfold d1; cbn; unfold R in W; lia]. unfold d1. apply (element_generic (with_mmh d h')); [now apply mmh_generic|exact Lq]. }
  assert (Sl : el_mmh (slot d1 (k, d_index d k)) = h').
  { unfold d1. rewrite element_slot by exact Lq. cbn [fst snd]. destruct (kind_dec k k); [|congruence]. now rewrite Nat.eqb_refl. }
  assert (Fin : d_req d <> 0 -> (k = User_Plane_Data -> mx_len h' = N.of_nat n /\ get_flow_id h' = fl) ->
    goes_on m p mu d (Ok (true, go (with_r d1 (d_r d + d_req d)) IE_UNPACK (N.of_nat n)))).
  { intros Nz Up. eexists true, _. split; [reflexivity|]. split; [|split; [unfold R in *; cbn; lia|split; [reflexivity|]]].
    - exists caps, es. split; [apply go_generic; [exact G1|exact Hn]|]. unfold special. cbn [go d_state]. exists k, fl, n. split; [reflexivity|]. split; [exact S2|]. split; [exact S1|]. split; [exact S3|].
      change (slot _ _) with (slot d1 (k, d_index d k)). rewrite Sl. cbn zeta. split; [exact T'|]. split; [intros K; destruct (Up K); cbn [go d_req]; auto|]. split; [exact P1|]. split; [exact P2|]. split; [tauto|].
      change (R (go (with_r d1 (d_r d + d_req d)) IE_UNPACK (N.of_nat n))) with (N.to_nat (d_r d + d_req d)). replace (N.to_nat (d_r d + d_req d)) with (R d + N.to_nat (d_req d))%nat by (unfold R; lia). exact S9.
    - unfold measure, R. cbn. rewrite St. cbn [rank]. unfold R in W. lia. }
  assert (Nz : d_req d <> 0) by (intros Z; rewrite Z in Lx; discriminate).
  destruct (mx_len h' <? UNDEF32).
  - destruct C as (-> & C1 & C2). rewrite C1. apply Fin; auto.
  - destruct C as (C1 & C2). rewrite C1. cbn [bind]. apply Fin; [auto|]. intros K. congruence.
Qed.

Lemma step_peek d : inv m mu d -> d_state d = B_PEEK -> (R d + N.to_nat (d_req d) <= length p)%nat -> goes_on m p mu d (decode_state p d).
Proof.
  intros (caps & es & G & Sp) St W. unfold special in Sp. rewrite St in Sp. destruct Sp as (s & t & S1 & S2 & S3 & S4 & S5 & S6 & S7).
  prep d caps es G. rewrite S5 in W. destruct (window d 2 W) as (x & y & E & Lx & F & Bx & By). pose proof len_p as Lp.
  destruct x as [|a [|f [|? ?]]]; try discriminate Lx. cbn [app] in *.
  assert (Rs : R d = S s) by (unfold R; rewrite S1; lia).
  unfold decode_state. rewrite St, S3, E. cbn [fst]. unfold size_by_peeking. replace (d_mu d) with mu.
  replace ((mu =? 1) || (mu =? 2) || (mu =? 4) || (mu =? 8)) with true by (destruct Mu as [->|[->|[->| ->]]]; reflexivity). cbn [guard].
  rewrite cb_peek_first. set (n := (4 + _ + _ + _ + _)%nat). cbn [bind].
  assert (Hn : N.of_nat n < 65536) by (unfold n, count; repeat destruct (N.testbit _ _); destruct (mu <=? 4); cbn; lia).
  assert (T : t = skipn (S s) m).
  { change t with (skipn 1 (9 :: t)). rewrite <- S2, skipn_add. f_equal. lia. }
  assert (A : announced mu (skipn s m) = Some (Cluster_Beacon, 0, 1%nat, n)).
  { rewrite S2. unfold announced. cbn [N.eqb Pos.eqb]. rewrite T, <- Rs, F. reflexivity. }
  rewrite (items_at m mu caps s _ _ _ n A S4 ltac:(lia)) in S7. replace (s + 1)%nat with (R d) in S7 by lia.
  eexists true, _. split; [reflexivity|]. split; [|split; [unfold R in *; cbn; lia|split; [reflexivity|]]].
  - exists caps, es. split; [now apply go_generic|]. unfold special. cbn [go d_state]. exists Cluster_Beacon, 0, n. split; [reflexivity|]. split; [unfold four; tauto|]. split; [exact S3|]. split; [exact S4|].
    cbn zeta. split; [exact S6|]. split; [discriminate|]. split; [discriminate|]. split; [discriminate|]. split; [|exact S7].
    intros _. exists a, f, (skipn (R d + 2) m). split; [exact F|]. apply cb_peek_first.
  - unfold measure, R. cbn. rewrite St. cbn [rank]. lia.
Qed.

Lemma step_check d : inv m mu d -> d_state d = CHECK_IF_DONE -> (R d + N.to_nat (d_req d) <= length p)%nat -> goes_on m p mu d (decode_state p d).
Proof.
  intros (caps & es & G & Sp) St W. unfold special in Sp. rewrite St in Sp. destruct Sp as (S1 & S2). prep d caps es G.
  unfold decode_state. rewrite St. destruct (N.ltb_spec (d_r d) (d_tb d)) as [L|L].
  - eexists true, _. split; [reflexivity|]. split; [|split; [cbn; unfold R in *; cbn; lia|split; [reflexivity|]]].
    + exists caps, es. split; [apply go_generic; [exact G|lia]|]. cbn. split; [reflexivity|exact S2].
    + unfold measure, R. cbn. rewrite St. cbn [rank]. lia.
  - eexists false, _. split; [reflexivity|]. split; [|split; [cbn; unfold R in *; cbn; lia|split; [reflexivity|left; reflexivity]]].
    exists caps, es. split; [apply go_generic; [exact G|lia]|]. cbn. split; [lia|].
    assert (E : skipn (R d) m = []) by (apply skipn_all2; unfold R; lia). rewrite E, items_nil, app_nil_r in S2. exact S2.
Qed.

Lemma unpack_means d k fl n x y h : d_mu d = mu -> four k -> behind_r p (d_r d) = x ++ y -> length x = n -> skipn (R d) m = x ++ skipn (R d + n) m -> bytes x -> bytes y ->
  (k = User_Plane_Data -> get_flow_id h = fl /\ mx_len h = N.of_nat n) -> (k = Power_Target -> n = 1%nat) -> (k = Time_Announce -> n = 11%nat) ->
  (k = Cluster_Beacon -> exists a f t, skipn (R d) m = a :: f :: t /\ cb_peek mu (a :: f :: t) = Ok n) ->
  exists c v i, unpack_content k (d_mu d) p (d_r d) = Ok (c, v) /\ meaning k mu fl x = (if v then Some i else None) /\ (v = true -> item_of m (mkEl h c) = Some i).
Proof.
  intros -> K E Lx F Bx By H1 H2 H3 H4. unfold unpack_content. rewrite E. destruct K as [->|[->|[->| ->]]].
  - destruct (H1 eq_refl) as (<- & Hl). eexists _, _, _. split; [reflexivity|]. split; [reflexivity|]. intros _. unfold item_of. cbn [el_content el_mmh].
    rewrite Hl, Nat2N.id. change (N.to_nat (d_r d)) with (R d). rewrite F, firstn_app, Lx, Nat.sub_diag, firstn_O, app_nil_r, firstn_all2 by lia. reflexivity.
  - destruct (H4 eq_refl) as (a & f & t & Q & P). assert (Pk : cb_peek mu x = Ok (length x)).
    { rewrite cb_peek_first in P. rewrite Q in F. destruct x as [|a' [|f' x]].
      - cbn in Lx. injection P as P. lia.
      - cbn in Lx. injection P as P. lia.
      - cbn [app] in F. injection F as <- <- _. rewrite cb_peek_first, Lx. exact P. }
    destruct (cb_meaning mu x fl Bx Pk) as (c & v & U & M). rewrite (U y By). cbn [bind]. exists (Cluster mu c), v, (Beacon c). split; [reflexivity|]. split; [exact M|]. reflexivity.
  - rewrite (H2 eq_refl) in Lx. destruct (pt_meaning x fl Lx Bx) as (t & v & U & M). destruct (pt_total x Lx) as (w & U' & Uy). rewrite U in U'. injection U' as <-. rewrite Uy. cbn [bind].
    exists (Target t), v, (Power_target t). split; [reflexivity|]. split; [apply M|]. reflexivity.
  - rewrite (H3 eq_refl) in Lx. destruct (ta_meaning x fl Lx Bx) as (t & v & U & M). destruct (ta_total x Lx) as (w & U' & Uy). rewrite U in U'. injection U' as <-. rewrite Uy. cbn [bind].
    exists (Time t), v, (Time_announcement t). split; [reflexivity|]. split; [apply M|]. reflexivity.
Qed.
Lemma decoded_generic d caps es k i : generic m mu d caps es -> four k -> (0 < caps k)%nat -> item_of m (slot d (k, d_index d k)) = Some i ->
  generic m mu (with_decoded d (at_kind (d_index d) k (S (d_index d k))) (d_decoded d ++ [(k, d_index d k)])) (less caps k) (es ++ [i]).
Proof.
  intros [G1 G2 G3 G4 G5 G6 G7 G8] K C I. constructor; auto.
  - intros j J. cbn [with_decoded d_index]. unfold at_kind, less, at_kind. specialize (G6 j J). destruct (kind_dec j k) as [->|]; [lia|exact G6].
  - intros q Q. cbn [with_decoded d_decoded d_index] in *. unfold at_kind. apply in_app_iff in Q. destruct Q as [Q|[<-|[]]].
    + specialize (G7 q Q). destruct (kind_dec (fst q) k) as [E|]; [rewrite E in G7; lia|exact G7].
    + cbn [fst snd]. destruct (kind_dec k k); [lia|congruence].
  - unfold delivered. cbn [with_decoded d_decoded d_pool]. rewrite !map_app, <- G8. f_equal. cbn [map]. f_equal. exact I.
Qed.

Lemma step_unpack d : inv m mu d -> d_state d = IE_UNPACK -> (R d + N.to_nat (d_req d) <= length p)%nat -> goes_on m p mu d (decode_state p d).
Proof.
  intros (caps & es & G & Sp) St W. unfold special in Sp. rewrite St in Sp. destruct Sp as (k & fl & n & S1 & S2 & S3 & S4 & Sp). cbn zeta in Sp. destruct Sp as (S5 & S6 & S7 & S8 & S9 & S10).
  prep d caps es G. rewrite S1, Nat2N.id in W. destruct (window d n W) as (x & y & E & Lx & F & Bx & By). pose proof len_p as Lp.
  replace (R d + n <=? length m)%nat with true in S10 by lia.
  assert (X : firstn n (skipn (R d) m) = x) by (rewrite F, firstn_app, Lx, Nat.sub_diag, firstn_O, app_nil_r; apply firstn_all2; lia). rewrite X in S10.
  set (h := el_mmh (slot d (k, d_index d k))) in *. rewrite S1 in S6.
  destruct (unpack_means d k fl n x y h H0 S2 E Lx F Bx By S6 S7 S8 S9) as (c & v & i & U & M & It). rewrite M in S10.
  pose proof (g_idx _ _ _ _ _ G k S2) as Hi. pose proof (g_pool _ _ _ _ _ G k) as Hp. assert (Lq : (d_index d k < length (d_pool d k))%nat) by lia.
  unfold decode_state. rewrite St, S3. cbn [fst snd]. rewrite U. cbn [bind]. change (nth (d_index d k) (d_pool d k) (mkEl mmh_zero Never)) with (slot d (k, d_index d k)). fold h.
  set (d1 := set_element d (k, d_index d k) (mkEl h c)).
  assert (G1 : generic m mu d1 caps es) by now apply element_generic.
  assert (Sl : slot d1 (k, d_index d k) = mkEl h c).
  { unfold d1. rewrite element_slot by exact Lq. cbn [fst snd]. destruct (kind_dec k k); [|congruence]. now rewrite Nat.eqb_refl. }
  destruct v.
  - rewrite S5. cbn [bind]. match goal with |- context [add32 ?a ?b] => change (add32 a b) with (add32 (d_r d) (d_req d)) end. rewrite add32_small by lia.
    eexists true, _. split; [reflexivity|]. split; [|split; [unfold R in *; cbn; lia|split; [reflexivity|]]].
    + exists (less caps k), (es ++ [i]). split.
      * apply go_generic; [|lia]. apply with_r_generic; [|cbn; unfold R in W; lia]. apply (decoded_generic d1); auto. change (d_index d1 k) with (d_index d k). rewrite Sl. now apply It.
      * cbn. split; [reflexivity|]. unfold tells in *. cbn. rewrite <- app_assoc. cbn [app]. unfold R. cbn.
        replace (N.to_nat (d_r d + d_req d)) with (R d + n)%nat by (unfold R; lia). exact S10.
    + unfold measure, R. cbn. rewrite St. cbn [rank]. lia.
  - cbn [bind]. match goal with |- context [add32 ?a ?b] => change (add32 a b) with (add32 (d_r d) (d_req d)) end. rewrite add32_small by lia.
    eexists true, _. split; [reflexivity|]. split; [|split; [unfold R in *; cbn; lia|split; [reflexivity|]]].
    + exists caps, es. split.
      * apply go_generic; [|lia]. apply with_r_generic; [exact G1|]. cbn. unfold R in W. lia.
      * cbn. split; [reflexivity|]. unfold tells in *. cbn. unfold R. cbn.
        replace (N.to_nat (d_r d + d_req d)) with (R d + n)%nat by (unfold R; lia). exact S10.
    + unfold measure, R. cbn. rewrite St. cbn [rank]. lia.
Qed.

(** *** One round, the loop *)
Lemma not_done q d d' : decode_state q d = Ok (true, d') -> d_state d' <> DONE.
Proof.
  intros E. unfold decode_state, bind, guard in E. cbv zeta in E. destruct (d_state d);
  repeat (match type of E with
          | (match ?z with _ => _ end) = _ => destruct z
          | Ok (_, _) = Ok (_, _) => injection E as <-
          end; try discriminate E); cbn; try discriminate.
Qed.
Lemma sub32_small a b : b <= a -> a < 2 ^ 32 -> sub32 a b = a - b.
Proof.
  intros H L. unfold sub32. replace (a + 2 ^ 32 - b) with ((a - b) + 1 * 2 ^ 32) by lia. rewrite N.mod_add by lia. apply N.mod_small. lia.
Qed.
Definition round_ok (d : decoder) (r : res (bool * decoder)) : Prop :=
  exists b d', r = Ok (b, d') /\ inv m mu d' /\ (R d' <= length p)%nat /\ d_tb d' = d_tb d /\
  if b then (measure d' < measure d)%nat /\ d_state d' <> DONE
  else d_state d' = DONE \/ (d_state d' = PREMATURE_ABORT /\ R d' = length p) \/
       (d_state d' <> DONE /\ N.of_nat (length p) < d_r d' + d_req d' <= d_tb d').
Lemma round d : inv m mu d -> (R d <= length p)%nat -> d_state d <> DONE -> (0 < length m)%nat -> round_ok d (decode_round p d).
Proof.
  intros I Lr ND L0. pose proof len_p as Lp. destruct I as (caps & es & G & Sp). prep d caps es G. assert (I : inv m mu d) by (exists caps, es; auto).
  unfold decode_round. rewrite add32_small by lia. destruct (N.ltb_spec (d_tb d) (d_r d + d_req d)) as [O|O].
  - destruct (too_short d I ND L0 O) as (caps' & es' & G' & T). cbn [decode_state abort_pdu go d_state]. eexists false, _. split; [reflexivity|].
    split; [apply (abort_inv d caps' es'); auto; lia|]. unfold R. cbn [with_r go d_r d_tb d_state]. split; [lia|]. split; [reflexivity|]. right. left. split; [reflexivity|lia].
  - rewrite sub32_small by (unfold R in Lr; lia). destruct (N.ltb_spec (N.of_nat (length p) - d_r d) (d_req d)) as [Q|Q].
    + exists false, d. split; [reflexivity|]. split; [exact I|]. split; [exact Lr|]. split; [reflexivity|]. right. right. split; [exact ND|]. unfold R in Lr. lia.
    + assert (W : (R d + N.to_nat (d_req d) <= length p)%nat) by (unfold R in *; lia).
      assert (K : goes_on m p mu d (decode_state p d)).
      { destruct (d_state d) eqn:St.
        - now apply step_mht. - now apply step_mch. - now apply step_ext. - now apply step_len. - now apply step_peek. - now apply step_unpack. - now apply step_check.
        - congruence.
        - unfold decode_state. rewrite St. eexists false, _. split; [reflexivity|]. unfold special in Sp. rewrite St in Sp. destruct Sp as (S1 & S2).
          split; [|split; [unfold R; cbn [with_r d_r]; lia|split; [reflexivity|right; split; [exact St|unfold R; cbn [with_r d_r]; lia]]]].
          exists caps, es. split; [apply with_r_generic; auto; lia|]. unfold special. cbn [with_r d_state]. rewrite St. cbn [d_req]. auto. }
      destruct K as (b & d' & E & I' & Lr' & T' & C). exists b, d'. split; [exact E|]. split; [exact I'|]. split; [exact Lr'|]. split; [exact T'|].
      destruct b; [|tauto]. split; [exact C|].
      apply (not_done p d). now rewrite E.
Qed.
End Round.

(** What a call of decode leaves behind. *)
Definition rest_state (m p : list N) (mu : N) (d : decoder) : Prop :=
  inv m mu d /\ (R d <= length p)%nat /\
  (d_state d = DONE \/ (d_state d = PREMATURE_ABORT /\ R d = length p) \/
   (d_state d <> DONE /\ N.of_nat (length p) < d_r d + d_req d <= d_tb d)).
Lemma loop m p mu f d : bytes m -> N.of_nat (length m) < 2 ^ 31 -> p = firstn (length p) m -> mu_ok mu -> (0 < length m)%nat ->
  inv m mu d -> (R d <= length p)%nat -> d_state d <> DONE -> (measure d < f)%nat -> exists d', decode_loop f p d = Ok d' /\ rest_state m p mu d'.
Proof.
  intros Bm Lm Pp Mu L0. revert d. induction f as [|f IH]; intros d I Lr ND M; [lia|]. cbn [decode_loop].
  destruct (round m p mu Bm Lm Pp Mu d I Lr ND L0) as (b & d' & E & I' & Lr' & T' & C). rewrite E. cbn [bind]. destruct b.
  - destruct C as (C & ND'). apply IH; auto. lia.
  - exists d'. split; [reflexivity|]. repeat split; auto.
Qed.
Lemma inv_tb m mu d : inv m mu d -> d_tb d = N.of_nat (length m).
Proof. intros (c & e & G & _). apply G. Qed.
Lemma decode_ok m w mu d : bytes m -> N.of_nat (length m) < 2 ^ 31 -> mu_ok mu -> (0 < length m)%nat -> (w <= length m)%nat ->
  inv m mu d -> (R d <= w)%nat -> d_state d <> DONE -> exists d', decode (firstn w m) d = Ok d' /\ rest_state m (firstn w m) mu d'.
Proof.
  intros Bm Lm Mu L0 Lw I Lr ND. set (p := firstn w m). assert (Lp : length p = w) by (unfold p; rewrite firstn_length; lia).
  unfold decode. rewrite (inv_tb _ _ _ I), Lp. replace (N.of_nat w <=? N.of_nat (length m)) with true by lia. unfold R in Lr. replace (d_r d <=? N.of_nat w) with true by lia. cbn [guard].
  apply loop; auto.
  - unfold p at 1. now rewrite Lp.
  - unfold R. lia.
  - unfold measure. rewrite (inv_tb _ _ _ I). assert (rank (d_state d) <= 6)%nat by (destruct (d_state d); cbn; lia). lia.
Qed.
Lemma feed_ok m mu ws d from : bytes m -> N.of_nat (length m) < 2 ^ 31 -> mu_ok mu -> (from <= length m)%nat -> increments from (length m) ws ->
  inv m mu d -> (R d <= from)%nat -> d_state d <> DONE -> (0 < length m)%nat ->
  exists d', feed m (ws ++ [length m]) d = Ok d' /\ rest_state m m mu d'.
Proof.
  intros Bm Lm Mu. revert d from. induction ws as [|w ws IH]; intros d from Lf Inc I Lr ND L0.
  - cbn [app feed]. destruct (decode_ok m (length m) mu d Bm Lm Mu L0 (le_n _) I ltac:(lia) ND) as (d' & E & S). rewrite E. cbn [bind]. exists d'. split; [reflexivity|]. now rewrite firstn_all in S.
  - cbn [app feed]. destruct Inc as (Iw & Inc). destruct (decode_ok m w mu d Bm Lm Mu L0 ltac:(lia) I ltac:(lia) ND) as (d' & E & I' & Lr' & C). rewrite E. cbn [bind].
    assert (Lw : length (firstn w m) = w) by (rewrite firstn_length; lia). rewrite Lw in *.
    assert (ND' : d_state d' <> DONE).
    { intros D. destruct I' as (c & e & G & Sp). unfold special in Sp. rewrite D in Sp. destruct Sp as (Sp & _). pose proof (g_tb _ _ _ _ _ G). unfold R in Lr'. lia. }
    apply (IH d' w); auto. lia.
Qed.
Lemma start_inv d0 m mu : (forall k, length (d_pool d0 k) = capacity k) -> (0 < length m)%nat -> exists d,
  set_configuration d0 (N.of_nat (length m)) mu = Ok d /\ inv m mu d /\ R d = 0%nat /\ d_state d = MAC_HEADER_TYPE.
Proof.
  intros Hp L0. unfold set_configuration. replace (0 <? N.of_nat (length m)) with true by lia. replace (1 <=? N.of_nat (length m)) with true by lia. cbn [guard].
  eexists. split; [reflexivity|]. split; [|split; reflexivity]. exists room, []. split.
  - constructor; cbn; auto; try lia; try tauto. intros k K. destruct K as [->|[->|[->| ->]]]; reflexivity.
  - cbn. repeat split; auto.
Qed.
