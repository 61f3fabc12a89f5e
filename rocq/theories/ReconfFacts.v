(** Lemmas on the reconfiguration messages and the association response. *)
From Coq Require Import Sorted.
From Verif Require Import Base Bytes WireSpec BitSolve ByteFacts Fields MacHeader Channels ChannelsSpec IeBase Beacons BeaconsSpec IeFacts IeCursor IeLists IeListFacts
  ResourceIes ResourceIesFacts RandomAccessFacts AssociationIes AssociationSpec AssociationFacts.
Open Scope N_scope.

Definition rc_head (tx rx : option harq_config) (cap : bool) (code change : N) : list (N * N) :=
  [(1, present tx); (1, present rx); (1, bit cap); (3, code); (2, change)].
Definition rf_fields (x : bool * N * N) : list (N * N) := [(1, bit (fst (fst x))); (1, snd (fst x)); (6, snd x)].
Definition rf_raw (x : bool * N * N) : Prop := snd (fst x) < 2 /\ snd x < 64.
Lemma rf_whole x : rf_raw x -> whole (rf_fields x).
Proof. intros (H1 & H2). split; [|reflexivity]. unfold rf_fields. pose proof (bit_lt (fst (fst x))). fit_tac. Qed.
Definition dec_rf (x : bool * N * N) : flow := mkFl (from_coded_lower 0 7 (snd x)) (fst (fst x)).
Lemma rf_reader x : rf_raw x -> reader rd_flow_rc (rf_fields x) (dec_rf x).
Proof.
  intros (H1 & H2) pre tail. unfold rd_flow_rc, rf_fields, dec_rf. destruct x as [[b r] i]. cbn [fst snd] in *. pose proof (bit_lt b) as H3.
  rewrite ld_app0, (fb_eq 1) by reflexivity. fbx. mcbn. do 2 f_equal; [f_equal|apply bit_of]; set (x := bit b) in *; clearbody x; bits.
Qed.
Lemma rf_writer f : fl_id f < 64 -> writer (wr_flow f) (rf_fields (fl_released f, 0, fl_id f)).
Proof.
  intros H1 pre rest L. change (nbytes _) with 1%nat in *. unfold wr_flow, rf_fields. destruct f as [i b]. cbn [fl_id fl_released fst snd] in *. rewrite (bit_b2n b).
  pose proof (bit_lt b) as H3. set (x := bit b) in *. clearbody x.
  rewrite st_app0, bind_behind, (fb_eq 1) by reflexivity. fbx. cells rest 1%nat. mcbn. rewrite orst_app0. mcbn. rewrite behind_ok. cells_eq.
Qed.

Section Reconf.
Variables (tx rx : option harq_config) (cap : bool) (code change : N) (fl : list (bool * N * N)).
Definition rc_raw : Prop := if_present hq_raw tx /\ if_present hq_raw rx /\ code < 8 /\ change < 4 /\ Forall rf_raw fl.
Definition k_tx := field_opt tx hq_fields.
Definition k_rx := field_opt rx hq_fields.
Definition k_fl := flat_map rf_fields fl.
Lemma rc_fields_eq : rc_fields tx rx cap code change fl = rc_head tx rx cap code change ++ k_tx ++ k_rx ++ k_fl.
Proof. reflexivity. Qed.
Lemma rc_head_whole : code < 8 -> change < 4 -> whole (rc_head tx rx cap code change).
Proof. intros H1 H2. split; [|reflexivity]. unfold rc_head. pose proof (bit_lt cap). pose proof (present_lt tx). pose proof (present_lt rx). fit_tac. Qed.
Lemma rc_head_read : code < 8 -> change < 4 -> exists b0, field_bytes (rc_head tx rx cap code change) = [b0] /\
  N.shiftr b0 7 = present tx /\ N.land (N.shiftr b0 6) 1 = present rx /\ N.land (N.shiftr b0 5) 1 = bit cap /\
  N.land (N.shiftr b0 2) 7 = code /\ N.land b0 3 = change.
Proof.
  intros H1 H2. rewrite (fb_eq 1) by reflexivity. unfold rc_head. pose proof (bit_lt cap). pose proof (present_lt tx). pose proof (present_lt rx).
  set (x := bit cap) in *. set (y := present tx) in *. set (z := present rx) in *. clearbody x y z. fbx. eexists. split; [reflexivity|].
  repeat match goal with |- _ /\ _ => split end; bits.
Qed.
Lemma rc_parts : rc_raw -> whole (rc_head tx rx cap code change) /\ whole k_tx /\ whole k_rx /\ whole k_fl.
Proof.
  intros (K1 & K2 & K3 & K4 & K5). split; [now apply rc_head_whole|]. split; [|split].
  - apply whole_opt. intros x E. rewrite E in K1. now apply hq_whole.
  - apply whole_opt. intros x E. rewrite E in K2. now apply hq_whole.
  - apply whole_flat. intros x Hx. rewrite Forall_forall in K5. now apply rf_whole, K5.
Qed.
Lemma rc_whole : rc_raw -> whole (rc_fields tx rx cap code change fl).
Proof. intros K. destruct (rc_parts K) as (W0 & W1 & W2 & W3). rewrite rc_fields_eq. auto using whole_app. Qed.
Definition rc_len : nat := (1 + opt_size tx 1 + opt_size rx 1 + length fl)%nat.
Lemma rc_nbytes : rc_raw -> nbytes (rc_fields tx rx cap code change fl) = rc_len.
Proof.
  intros K. destruct (rc_parts K) as (W0 & W1 & W2 & W3). rewrite rc_fields_eq, !nbytes_app by assumption. unfold k_tx, k_rx, k_fl.
  rewrite !(nbytes_opt _ hq_fields 1) by reflexivity. rewrite (nbytes_flat fl rf_fields 1); [unfold rc_len; change (nbytes (rc_head tx rx cap code change)) with 1%nat; lia| |reflexivity].
  intros x Hx. apply rf_whole. destruct K as (_ & _ & _ & _ & K). rewrite Forall_forall in K. auto.
Qed.
(** What reading finds. *)
Lemma rc_read n t : rc_raw -> n = length fl -> exists b0 m, m = field_bytes (rc_fields tx rx cap code change fl) ++ t /\ ld m 0 = Ok b0 /\
  N.land (N.shiftr b0 2) 7 = code /\ N.land b0 3 = change /\ flag b0 5 = cap /\
  get (negb (N.shiftr b0 7 =? 0)) rd_harq 1 m 1 = Ok (option_map dec_hq tx, (1 + opt_size tx 1)%nat) /\
  get (flag b0 6) rd_harq 1 m (1 + opt_size tx 1) = Ok (option_map dec_hq rx, (1 + opt_size tx 1 + opt_size rx 1)%nat) /\
  get_all n rd_flow_rc 1 m (1 + opt_size tx 1 + opt_size rx 1) = Ok (map dec_rf fl, rc_len).
Proof.
  intros K ->. pose proof K as (K1 & K2 & K3 & K4 & K5). destruct (rc_parts K) as (W0 & W1 & W2 & W3).
  destruct (rc_head_read K3 K4) as (b0 & E0 & E1 & E2 & E3 & E4 & E5). exists b0.
  eexists. split; [reflexivity|]. rewrite rc_fields_eq, !fb_app by auto 10 using whole_app. rewrite <- !app_assoc, E0.
  match goal with |- context [[b0] ++ ?u] => set (u0 := u) end.
  assert (P : skipn 1 ([b0] ++ u0) = u0) by reflexivity. assert (D : ld ([b0] ++ u0) 0 = Ok b0) by reflexivity.
  unfold u0 in P at 2. set (m := [b0] ++ u0) in *. clearbody m.
  split; [exact D|]. split; [exact E4|]. split; [exact E5|]. split; [exact (flag_bit _ _ _ E3)|].
  destruct (get_at tx rd_harq 1 hq_fields dec_hq _ m _ _ P eq_refl ltac:(lia)) as (G1 & P1).
  { intros x Ex. rewrite Ex in K1. split; [now apply hq_reader|reflexivity]. }
  destruct (get_at rx rd_harq 1 hq_fields dec_hq _ m _ _ P1 eq_refl ltac:(lia)) as (G2 & P2).
  { intros x Ex. rewrite Ex in K2. split; [now apply hq_reader|reflexivity]. }
  destruct (get_all_at fl rd_flow_rc 1 rf_fields dec_rf _ m _ _ P2 eq_refl ltac:(lia)) as (G3 & P3).
  { intros x Hx. rewrite Forall_forall in K5. split; [now apply rf_reader, K5|]. split; [reflexivity|now apply rf_whole, K5]. }
  assert (E1' : negb (N.shiftr b0 7 =? 0) = is_some tx) by (rewrite E1; destruct tx; reflexivity). rewrite E1', (flag_present _ _ _ E2), G1, G2, G3.
  repeat split. do 2 f_equal. unfold rc_len. lia.
Qed.
End Reconf.

Lemma sent_rc_raw l : Forall fl_ok l -> Forall rf_raw (sent_rc l).
Proof. unfold sent_rc. rewrite Forall_map. apply Forall_impl. intros f H. unfold fl_ok, flow_ok, rf_raw in *. cbn. lia. Qed.
Lemma rc_write_ok tx rx cap code flows change m :
  if_present hq_ok tx -> if_present hq_ok rx -> Forall fl_ok flows -> code < 8 -> change < 4 -> (1 + opt_size tx 1 + opt_size rx 1 + length flows <= length m)%nat ->
  rc_write tx rx cap code flows change m =
  Ok (packed (rc_fields tx rx cap code change (sent_rc flows)) m, (1 + opt_size tx 1 + opt_size rx 1 + length flows)%nat).
Proof.
  intros H1 H2 H3 H4 H5 L. unfold rc_write. set (h := rc_head tx rx cap code change).
  assert (Hw : forall B (k : list N -> res B),
    (do m <- st m 0 (N.shiftl (N.b2n (is_some tx)) 7) ;
     do m <- orst m 0 (N.shiftl (N.b2n (is_some rx)) 6) ;
     do m <- orst m 0 (N.shiftl (N.b2n cap) 5) ;
     do m <- orst m 0 (N.shiftl code 2) ;
     do m <- orst m 0 change ; k m) = k (packed h m)).
  { intros B k. unfold packed. rewrite (fb_eq 1) by reflexivity. change (nbytes h) with 1%nat. unfold h, rc_head.
    rewrite (present_is_some tx), (present_is_some rx), (bit_b2n cap). pose proof (bit_lt cap). pose proof (present_lt tx). pose proof (present_lt rx).
    set (x := bit cap) in *. set (y := present tx) in *. set (z := present rx) in *. assert (Lm : (1 <= length m)%nat) by lia. clearbody x y z. clear L.
    fbx. cells m 1%nat. mcbn. f_equal. repeat first [reflexivity | apply f_equal2; [unfold u8; bits|]]. }
  rewrite Hw. assert (W0 : whole h) by now apply rc_head_whole. change 1%nat with (nbytes h) at 2.
  destruct (put_at tx wr_harq 1 hq_fields m h) as (G & W1 & N1); [|exact W0|change (nbytes h) with 1%nat; lia|].
  { intros x Ex. rewrite Ex in H1. apply hq_ok_raw in H1. split; [now apply hq_writer|]. split; [reflexivity|now apply hq_whole]. }
  rewrite G. cbn [bind]. clear G. change (nbytes h) with 1%nat in N1.
  edestruct (fun H => put_at rx wr_harq 1 hq_fields m _ H W1) as (G & W2 & N2); [|lia|].
  { intros x Ex. rewrite Ex in H2. apply hq_ok_raw in H2. split; [now apply hq_writer|]. split; [reflexivity|now apply hq_whole]. }
  rewrite G. cbn [bind]. clear G. rewrite N1 in N2.
  edestruct (fun H => put_all_at flows wr_flow 1 (fun f => rf_fields (fl_released f, 0, fl_id f)) m _ H W2) as (G & W3 & N3); [|lia|].
  { intros f Hf. rewrite Forall_forall in H3. apply H3 in Hf. unfold fl_ok, flow_ok in Hf. split; [apply rf_writer; lia|]. split; [reflexivity|]. apply rf_whole. unfold rf_raw. cbn. lia. }
  rewrite G. do 2 f_equal; [|lia]. rewrite rc_fields_eq. unfold k_tx, k_rx, k_fl, sent_rc.
  rewrite (flat_map_concat_map rf_fields), map_map, <- flat_map_concat_map, <- !app_assoc. reflexivity.
Qed.

(** *** Sets of flows *)
Lemma set_same {A} (key : A -> N) l : NoDup (map key l) -> forall y, In y (set_of key l) <-> In y l.
Proof.
  intros D y. split; [apply set_in|]. intros Hy. assert (Hk : In (key y) (map key (set_of key l))) by (apply set_key; now apply in_map).
  apply in_map_iff in Hk. destruct Hk as (z & Ez & Hz). enough (z = y) by congruence. apply set_in in Hz. clear - D Ez Hy Hz.
  induction l as [|a l IH]; [destruct Hy|]. cbn [map] in D. apply NoDup_cons_iff in D. destruct D as (D1 & D2). destruct Hy as [<-|Hy], Hz as [<-|Hz]; auto.
  - exfalso. apply D1. rewrite <- Ez. now apply in_map.
  - exfalso. apply D1. rewrite Ez. now apply in_map.
Qed.
Lemma asc_rc l : asc fl_id l <-> ascending_rc l.
Proof.
  unfold ascending_rc, ascending, asc. induction l as [|f l IH]; cbn [map]; [split; constructor|]. split; intros H; apply StronglySorted_inv in H; destruct H as (H1 & H2).
  - constructor; [now apply IH|]. rewrite Forall_map. exact H2.
  - constructor; [now apply IH|]. rewrite Forall_map in H2. exact H2.
Qed.
Lemma flows_few_rc l : Forall fl_ok l -> ascending_rc l -> (length l <= 6)%nat.
Proof. intros F S1. rewrite <- (map_length fl_id). apply flows_few; [now rewrite Forall_map|exact S1]. Qed.
Lemma dec_rf_ok fl : Forall flow_ok (map snd fl) -> map dec_rf fl = flows_in fl.
Proof.
  intros H. apply map_ext_in. intros x Hx. unfold dec_rf. rewrite Forall_forall in H. assert (F : flow_ok (snd x)) by (apply H; now apply in_map). unfold flow_ok in F.
  rewrite coded_lower_id by lia. reflexivity.
Qed.
Lemma flows_in_id fl : map fl_id (flows_in fl) = map snd fl.
Proof. unfold flows_in. rewrite map_map. reflexivity. Qed.
Lemma flows_in_sent l : flows_in (sent_rc l) = l.
Proof. unfold flows_in, sent_rc. rewrite map_map. rewrite <- (map_id l) at 2. apply map_ext. intros [i b]. reflexivity. Qed.
Lemma sent_rc_id l : map snd (sent_rc l) = map fl_id l.
Proof. unfold sent_rc. rewrite map_map. reflexivity. Qed.
Lemma dec_rf_valid fl : forallb (fun f => enum_valid_lower 0 7 (fl_id f)) (set_of fl_id (map dec_rf fl)) = true <-> Forall flow_ok (map snd fl).
Proof.
  rewrite forallb_forall, Forall_forall. split.
  - intros H i Hi. apply in_map_iff in Hi. destruct Hi as (x & <- & Hx).
    assert (D : In (fl_id (dec_rf x)) (map fl_id (set_of fl_id (map dec_rf fl)))) by (apply set_key; now do 2 apply in_map).
    apply in_map_iff in D. destruct D as (f & Ef & Hf). apply H in Hf. rewrite Ef in Hf. unfold dec_rf in Hf. cbn [fl_id] in Hf.
    apply enum_coded_lower in Hf; [|lia]. unfold flow_ok. lia.
  - intros H f Hf. apply set_in in Hf. apply in_map_iff in Hf. destruct Hf as (x & <- & Hx). cbn [dec_rf fl_id]. apply enum_coded_lower; [lia|].
    assert (F : flow_ok (snd x)) by (apply H; now apply in_map). unfold flow_ok in F. lia.
Qed.
Lemma set_empty' {A} (key : A -> N) l : is_empty (set_of key l) = is_empty l.
Proof.
  destruct l as [|x l]; [reflexivity|]. cbn [is_empty]. destruct (set_of key (x :: l)) as [|y s] eqn:E; [|reflexivity].
  pose proof (set_key key (x :: l) (key x)) as S1. rewrite E in S1. destruct S1 as (_ & S1). exfalso. apply S1. now left.
Qed.

(** *** HARQ configurations of the reconfiguration messages *)
Lemma rc_harq_dec tx rx k : if_present hq_raw tx -> if_present hq_raw rx ->
  let r := rc_harq_valid (option_map dec_hq tx) (option_map dec_hq rx) k in
  (tx = None \/ if_present hq_ok tx /\ rx = None -> r = Throw) /\
  (tx <> None -> rx <> None -> if_present hq_ok tx -> if_present hq_ok rx -> r = Ok k) /\
  (~ (tx = None \/ if_present hq_ok tx /\ rx = None) -> ~ (if_present hq_ok tx /\ if_present hq_ok rx) -> r = Ok false).
Proof.
  intros K1 K2 r. unfold r, rc_harq_valid. destruct tx as [t|]; cbn [option_map value bind if_present] in *.
  2: { split; [reflexivity|]. split; [congruence|tauto]. }
  pose proof (hq_valid_dec t K1) as V1. destruct (hq_valid (dec_hq t)); cbn [negb]; (destruct rx as [u|]; cbn [option_map value bind if_present] in *; [pose proof (hq_valid_dec u K2) as V2; destruct (hq_valid (dec_hq u)); cbn [negb]|]);
    intuition (congruence || discriminate).
Qed.
Lemma rc_harq_sent tx rx k : tx <> None -> rx <> None -> if_present (fun h => enumerator 31 (hq_delay h)) tx -> if_present (fun h => enumerator 31 (hq_delay h)) rx ->
  (if_present hq_ok tx /\ if_present hq_ok rx /\ rc_harq_valid tx rx k = Ok k) \/ (~ (if_present hq_ok tx /\ if_present hq_ok rx) /\ rc_harq_valid tx rx k = Ok false).
Proof.
  intros D1 D2 E1 E2. destruct tx as [t|]; [|congruence]. destruct rx as [u|]; [|congruence]. unfold rc_harq_valid. cbn [value bind if_present] in *.
  assert (V : forall h, enumerator 31 (hq_delay h) -> hq_valid h = true <-> hq_ok h).
  { intros h E. unfold enumerator, UNDEF32 in E. unfold hq_valid, hq_ok, enum_valid, UNDEF32. lia. }
  pose proof (V t E1) as V1. pose proof (V u E2) as V2. destruct (hq_valid t), (hq_valid u); cbn [negb]; intuition (congruence || discriminate).
Qed.
Lemma dec_hq_opt o : if_present hq_ok o -> option_map dec_hq o = o.
Proof. destruct o as [h|]; [|reflexivity]. cbn. intros H. now rewrite dec_hq_ok. Qed.

(** *** Reconfiguration request *)
Lemma rq_peek_head tx rx cap code change t : code < 8 -> change < 4 ->
  rq_peek (field_bytes (rc_head tx rx cap code change) ++ t) =
  if code <? 7 then Ok (Some (1 + opt_size tx 1 + opt_size rx 1 + N.to_nat code)%nat) else Ok None.
Proof.
  intros H1 H2. destruct (rc_head_read tx rx cap code change H1 H2) as (b0 & -> & E1 & E2 & E3 & E4 & E5). unfold rq_peek. mcbn.
  rewrite E1, E2, E4, !to_nat_present. reflexivity.
Qed.
Definition rq_with tx rx cap change fl : reconf_request := mkRq tx rx cap (set_of fl_id (flows_in fl)) change.
Lemma rq_receive tx rx cap code change fl t : rc_raw tx rx code change fl -> code = N.of_nat (length fl) ->
  let r := rq_unpack (field_bytes (rc_fields tx rx cap code change fl) ++ t) in
  let good := tx <> None /\ rx <> None /\ if_present hq_ok tx /\ if_present hq_ok rx /\ Forall flow_ok (map snd fl) /\ NoDup (map snd fl) in
  let missing := tx = None \/ if_present hq_ok tx /\ rx = None in
  (missing -> r = Throw) /\ (good -> r = Ok (rq_with tx rx cap change fl, true)) /\ (~ missing -> ~ good -> r = Abort).
Proof.
  intros K Hc. pose proof K as (K1 & K2 & K3 & K4 & K5). intros r good missing. unfold r, good, missing.
  destruct (rc_read tx rx cap code change fl (length fl) t K eq_refl) as (b0 & m & <- & D & E1 & E2 & E3 & G1 & G2 & G3).
  unfold rq_unpack. rewrite D. cbn [bind]. rewrite G1. cbn [bind]. rewrite G2. cbn [bind]. rewrite E1, Hc, Nat2N.id, G3, E2, E3. cbn [bind]. clear G1 G2 G3 D E1 E2 E3 b0 m.
  unfold rq_size, rq_valid. cbn [rq_tx rq_rx rq_flows rq_change].
  set (k := forallb _ _ && _).
  assert (Vk : k = true <-> Forall flow_ok (map snd fl)).
  { unfold k. rewrite andb_true_iff, dec_rf_valid, enum_coded by lia. intuition. }
  destruct (rc_harq_dec tx rx k K1 K2) as (R1 & R2 & R3). split; [|split].
  - intros Hm. rewrite (R1 Hm). reflexivity.
  - intros (O1 & O2 & O3 & O4 & O5 & O6). rewrite (R2 O1 O2 O3 O4). cbn [bind]. apply Vk in O5 as ->. cbn [guard bind].
    rewrite (dec_rf_ok fl) by now apply Vk. rewrite !dec_hq_opt by assumption.
    pose proof (set_length fl_id (flows_in fl)) as S1. rewrite flows_in_id in S1. apply S1 in O6. rewrite O6. unfold flows_in at 1. rewrite map_length.
    unfold rc_len. rewrite Nat.eqb_refl, coded_id by lia. reflexivity.
  - intros Hm Hg. assert (Hd : tx <> None /\ (if_present hq_ok tx -> rx <> None)) by tauto.
    assert (Hq : (if_present hq_ok tx /\ if_present hq_ok rx) \/ ~ (if_present hq_ok tx /\ if_present hq_ok rx)).
    { assert (Dc : forall o, if_present hq_raw o -> if_present hq_ok o \/ ~ if_present hq_ok o).
      { intros [h|] Ho; [|left; exact I]. cbn in *. unfold hq_ok. lia. }
      destruct (Dc tx K1), (Dc rx K2); tauto. }
    destruct Hq as [(O3 & O4)|Hq]; [|now rewrite (R3 Hm Hq)].
    rewrite (R2 (proj1 Hd) (proj2 Hd O3) O3 O4). cbn [bind]. destruct k; [|reflexivity]. cbn [guard bind].
    pose proof (proj1 Vk eq_refl) as O5. rewrite (dec_rf_ok fl O5). rewrite !dec_hq_opt by assumption.
    pose proof (set_length fl_id (flows_in fl)) as S1. rewrite flows_in_id in S1. unfold flows_in in S1 at 2. rewrite map_length in S1. unfold rc_len.
    replace (_ =? _)%nat with false; [reflexivity|]. symmetry. apply Nat.eqb_neq. intros Eq. apply Hg. split; [tauto|]. split; [tauto|]. repeat (split; [assumption|]). apply S1. lia.
Qed.
(** Received bytes as the fields of a reconfiguration message. *)
Lemma rc_parse m (need : N -> nat) : bytes m -> (1 <= length m)%nat ->
  (forall b0 tx rx code, ld m 0 = Ok b0 -> N.shiftr b0 7 = @present harq_config tx -> N.land (N.shiftr b0 6) 1 = @present harq_config rx -> N.land (N.shiftr b0 2) 7 = code ->
     (1 + opt_size tx 1 + opt_size rx 1 + need code <= length m)%nat) ->
  exists tx rx cap code change fl t, rc_raw tx rx code change fl /\ length fl = need code /\ m = field_bytes (rc_fields tx rx cap code change fl) ++ t.
Proof.
  intros B L0 L.
  destruct (parse_head [1; 1; 1; 3; 2] 1 m B eq_refl L0) as (h & m1 & W & Wh & B1 & E).
  destruct h as [|(?, n0) [|(?, n1) [|(?, n2) [|(?, n3) [|(?, n4) [|? ?]]]]]]; try discriminate.
  cbn [map fst] in W. injection W as -> -> -> -> ->.
  pose proof (whole_fits _ Wh) as Fh. fit_hyp. change (2 ^ 1) with 2 in Fh. change (2 ^ 3) with 8 in Fh. change (2 ^ 2) with 4 in Fh.
  destruct Fh as (F0 & F1 & F2 & F3 & F4 & _).
  set (tx0 := dummy n0 (mkHq 0 0)). set (rx0 := dummy n1 (mkHq 0 0)).
  assert (Hs : rc_head tx0 rx0 (n2 =? 1) n3 n4 = [(1, n0); (1, n1); (1, n2); (3, n3); (2, n4)]).
  { unfold rc_head, tx0, rx0. assert (Bt : forall x, x < 2 -> bit (x =? 1) = x) by (intros x Hx; unfold bit; destruct (N.eqb_spec x 1); lia).
    rewrite !dummy_present, !Bt by assumption. reflexivity. }
  rewrite <- Hs in E. clearbody tx0 rx0. clear Hs Wh F0 F1 F2. 
  destruct (rc_head_read tx0 rx0 (n2 =? 1) n3 n4 F3 F4) as (b0 & Eb & E1 & E2 & E3 & E4 & E5).
  assert (Ln : (opt_size tx0 1 + opt_size rx0 1 + need n3 <= length m1)%nat).
  { rewrite Eb in E. subst m. specialize (L b0 tx0 rx0 n3 eq_refl E1 E2 E4). cbn [length app] in L. lia. }
  rewrite E. clear L L0 E B E1 E2 E3 E4 E5 Eb b0 m.
  assert (Ph : forall o0 m', bytes m' -> (opt_size o0 1 <= length m')%nat -> exists o t, @is_some harq_config o = @is_some harq_config o0 /\ if_present hq_raw o /\
     m' = field_bytes (field_opt o hq_fields) ++ t /\ bytes t /\ length t = (length m' - opt_size o 1)%nat).
  { intros o0 m' B' L'. destruct (parse_if (is_some o0) [3; 5] 1 m' B' eq_refl ltac:(apply is_some_need; lia)) as (l & t & V1 & V2 & B3 & V3 & L3). destruct o0 as [h|]; cbn [is_some] in *.
    - destruct l as [|(?, a) [|(?, b) [|? ?]]]; try discriminate. cbn [map fst] in V1. injection V1 as -> ->. apply whole_fits in V2. fit_hyp. change (2 ^ 3) with 8 in *. change (2 ^ 5) with 32 in *.
      exists (Some (mkHq a b)), t. cbn [if_present field_opt is_some opt_size]. unfold hq_raw. cbn [hq_processes hq_delay]. repeat split; try tauto; try exact V3.
    - destruct l; [|discriminate]. exists None, t. cbn [field_opt is_some if_present opt_size]. repeat split; auto. }
  destruct (Ph tx0 m1 B1 ltac:(lia)) as (tx & m2 & S1 & R1 & -> & B2 & L2). rewrite (is_some_size _ _ _ S1) in L2.
  destruct (Ph rx0 m2 B2 ltac:(lia)) as (rx & m3 & S2 & R2 & -> & B3 & L3). rewrite (is_some_size _ _ _ S2) in L3.
  destruct (parse_all [1; 1; 6] 1 (need n3) m3 B3 eq_refl ltac:(lia)) as (ls & t & L1 & Ls & B4 & -> & L4).
  assert (Fl : exists fl, length fl = length ls /\ concat ls = flat_map rf_fields fl /\ Forall rf_raw fl).
  { clear - Ls. induction Ls as [|l ls (H1 & H2) _ (fl & I1 & I2 & I3)]; [exists []; auto|].
    destruct l as [|(?, a) [|(?, b) [|(?, d) [|? ?]]]]; try discriminate. cbn [map fst] in H1. injection H1 as -> -> ->. exists ((a =? 1, b, d) :: fl). cbn [length concat flat_map].
    apply whole_fits in H2. fit_hyp. change (2 ^ 1) with 2 in *. change (2 ^ 6) with 64 in *.
    split; [lia|]. split; [rewrite I2; unfold rf_fields at 2; cbn [fst snd]; replace (bit (a =? 1)) with a by (unfold bit; destruct (N.eqb_spec a 1); lia); reflexivity|].
    constructor; [|exact I3]. unfold rf_raw. cbn. tauto. }
  destruct Fl as (fl & Fl1 & -> & Fl3).
  assert (K : rc_raw tx rx n3 n4 fl) by (unfold rc_raw; auto).
  exists tx, rx, (n2 =? 1), n3, n4, fl, t. split; [exact K|]. split; [lia|].
  destruct (rc_parts tx rx (n2 =? 1) n3 n4 fl K) as (W0 & W1 & W2 & W3). rewrite rc_fields_eq, !fb_app by auto 10 using whole_app. rewrite <- !app_assoc.
  unfold rc_head. rewrite (is_some_present _ _ S1), (is_some_present _ _ S2). reflexivity.
Qed.

(** *** Reconfiguration response *)
Lemma rs_peek_head tx rx cap code change t : code < 8 -> change < 4 ->
  rs_peek (field_bytes (rc_head tx rx cap code change) ++ t) =
  Ok (Some (1 + opt_size tx 1 + opt_size rx 1 + (if (code <? 7)%N then N.to_nat code else 0))%nat).
Proof.
  intros H1 H2. destruct (rc_head_read tx rx cap code change H1 H2) as (b0 & -> & E1 & E2 & E3 & E4 & E5). unfold rs_peek. mcbn.
  rewrite E1, E2, E4, !to_nat_present. reflexivity.
Qed.
Definition listed (code : N) : bool := negb (code =? 0) && negb (code =? 7).
Definition rs_with tx rx cap code change fl : reconf_response := mkRs tx rx cap (if listed code then 1 else code) (set_of fl_id (flows_in fl)) change.
Lemma rs_receive tx rx cap code change fl t : rc_raw tx rx code change fl -> length fl = (if listed code then N.to_nat code else 0%nat) ->
  let r := rs_unpack (field_bytes (rc_fields tx rx cap code change fl) ++ t) in
  let good := tx <> None /\ rx <> None /\ if_present hq_ok tx /\ if_present hq_ok rx /\ Forall flow_ok (map snd fl) /\ NoDup (map snd fl) in
  let missing := tx = None \/ if_present hq_ok tx /\ rx = None in
  (missing -> r = Throw) /\ (good -> r = Ok (rs_with tx rx cap code change fl, true)) /\ (~ missing -> ~ good -> r = Abort).
Proof.
  intros K Hc. pose proof K as (K1 & K2 & K3 & K4 & K5). intros r good missing. unfold r, good, missing.
  destruct (rc_read tx rx cap code change fl _ t K (eq_sym Hc)) as (b0 & m & <- & D & E1 & E2 & E3 & G1 & G2 & G3).
  unfold rs_unpack. rewrite D. cbn [bind]. rewrite G1. cbn [bind]. rewrite G2. cbn [bind]. rewrite E1. fold (listed code). rewrite G3, E2, E3. cbn [bind]. clear G1 G2 G3 D E1 E2 E3 b0 m.
  assert (Acc : (if listed code then 1 else from_coded 8 code) = (if listed code then 1 else code)) by (destruct (listed code); [reflexivity|apply coded_id; lia]). rewrite Acc. clear Acc.
  unfold rs_size, rs_valid. cbn [rs_tx rs_rx rs_flows rs_change rs_accepted].
  assert (Cnt : forall s : list flow, (length s = length fl -> (if ((if listed code then 1 else code) =? 1)%N then length s else 0%nat) = length fl) /\
     ((if ((if listed code then 1 else code) =? 1)%N then length s else 0%nat) = length fl -> (length fl = 0%nat -> length s = 0%nat) -> length s = length fl)).
  { intros s. unfold listed in *. destruct (N.eqb_spec code 0); cbn [negb andb] in *; [subst code; cbn; split; intros; lia|]. destruct (N.eqb_spec code 7); cbn [negb andb] in *; [subst code; cbn; split; intros; lia|].
    cbn. tauto. }
  set (k := (_ && forallb _ _ && _)).
  assert (Vk : k = true <-> Forall flow_ok (map snd fl)).
  { unfold k. rewrite !andb_true_iff, dec_rf_valid, enum_coded, set_empty' by lia.
    assert (Vz : negb (negb (enum_valid 8 (if listed code then 1 else code)) || ((if listed code then 1 else code) =? 1) && is_empty (map dec_rf fl)) = true); [|intuition].
    apply negb_true_iff, orb_false_iff. split; [apply negb_false_iff, enum_valid_lt; [lia|]; destruct (listed code); lia|].
    unfold listed in *. destruct (N.eqb_spec code 0); cbn [negb andb] in *; [subst code; reflexivity|]. destruct (N.eqb_spec code 7); cbn [negb andb] in *; [subst code; reflexivity|].
    destruct fl; [cbn in Hc; lia|]. reflexivity. }
  destruct (rc_harq_dec tx rx k K1 K2) as (R1 & R2 & R3). split; [|split].
  - intros Hm. rewrite (R1 Hm). reflexivity.
  - intros (O1 & O2 & O3 & O4 & O5 & O6). rewrite (R2 O1 O2 O3 O4). cbn [bind]. apply Vk in O5 as ->. cbn [guard bind].
    rewrite (dec_rf_ok fl) by now apply Vk. rewrite !dec_hq_opt by assumption.
    pose proof (set_length fl_id (flows_in fl)) as S1. rewrite flows_in_id in S1. apply S1 in O6. unfold flows_in in O6 at 2. rewrite map_length in O6. rewrite (proj1 (Cnt _) O6).
    unfold rc_len. rewrite Nat.eqb_refl, coded_id by lia. reflexivity.
  - intros Hm Hg. assert (Hd : tx <> None /\ (if_present hq_ok tx -> rx <> None)) by tauto.
    assert (Hq : (if_present hq_ok tx /\ if_present hq_ok rx) \/ ~ (if_present hq_ok tx /\ if_present hq_ok rx)).
    { assert (Dc : forall o, if_present hq_raw o -> if_present hq_ok o \/ ~ if_present hq_ok o).
      { intros [h|] Ho; [|left; exact I]. cbn in *. unfold hq_ok. lia. }
      destruct (Dc tx K1), (Dc rx K2); tauto. }
    destruct Hq as [(O3 & O4)|Hq]; [|now rewrite (R3 Hm Hq)].
    rewrite (R2 (proj1 Hd) (proj2 Hd O3) O3 O4). cbn [bind]. destruct k; [|reflexivity]. cbn [guard bind].
    pose proof (proj1 Vk eq_refl) as O5. rewrite (dec_rf_ok fl O5). rewrite !dec_hq_opt by assumption.
    pose proof (set_length fl_id (flows_in fl)) as S1. rewrite flows_in_id in S1. unfold flows_in in S1 at 2. rewrite map_length in S1. unfold rc_len.
    match goal with |- guard (?a =? ?b)%nat _ = _ => destruct (Nat.eqb_spec a b) as [Eq|]; [|reflexivity] end. exfalso.
    apply Hg. split; [tauto|]. split; [tauto|]. repeat (split; [assumption|]). apply S1. apply (proj2 (Cnt _)); [lia|].
    intros Z. destruct fl; [reflexivity|discriminate].
Qed.
Lemma ar_rejected_always b : ar_rejected b = true.
Proof. unfold ar_rejected. rewrite negb_true_iff, Z.eqb_neq, Z.shiftr_div_pow2 by lia. change (2 ^ 7)%Z with 128%Z. unfold Z.lnot. lia. Qed.
Lemma writer_seq (w1 w2 : list N -> nat -> res (list N)) l1 l2 k : writer w1 l1 -> writer w2 l2 -> whole l1 -> whole l2 -> nbytes l1 = k ->
  writer (fun m off => do m <- w1 m off ; w2 m (off + k)%nat) (l1 ++ l2).
Proof.
  intros V1 V2 W1 W2 <- pre rest L. rewrite nbytes_app in * by assumption. rewrite V1 by lia. cbn [bind]. rewrite app_assoc.
  replace (length pre + nbytes l1)%nat with (length (pre ++ field_bytes l1)) by (rewrite app_length, fb_length; lia).
  rewrite V2 by (rewrite skipn_length; lia). rewrite fb_app by assumption. rewrite <- !app_assoc, skipn_add. reflexivity.
Qed.
Lemma hqs_writer h : hq_raw (fst h) -> hq_raw (snd h) -> writer (wr_harqs h) (hq_fields (snd h) ++ hq_fields (fst h)).
Proof. intros H1 H2. unfold wr_harqs. apply writer_seq; auto using hq_writer, hq_whole. Qed.
Lemma gi_writer g : gi_group g < 128 -> gi_tag g < 128 -> writer (wr_group g) ([(8, gi_group g)] ++ [(8, gi_tag g)]).
Proof. intros H1 H2. unfold wr_group. apply (writer_seq (wr_byte (gi_group g)) (wr_byte (gi_tag g))); try (apply writer_wr_byte; lia); try reflexivity; (split; [|reflexivity]); repeat constructor; cbn; lia. Qed.
Definition ar_head (c : association_response) : list (N * N) :=
  [(1, 1); (1, 0); (1, present (ar_harq c)); (3, ar_code c); (1, present (ar_group c)); (1, bit (ar_power c))].
Lemma ar_write c m : ar_acceptance_ok c -> ar_code c < 8 -> (1 + opt_size (ar_harq c) 2 + length (ar_flows c) + opt_size (ar_group c) 2 <= length m)%nat ->
  let l := ((ar_head c ++ field_opt (ar_harq c) (fun h => hq_fields (snd h) ++ hq_fields (fst h))) ++ flat_map (fun i => fl_fields (0, i)) (ar_flows c)) ++
           field_opt (ar_group c) (fun g => [(8, gi_group g)] ++ [(8, gi_tag g)]) in
  ar_pack c m = guard (2 =? 1 + opt_size (ar_harq c) 2 + length (ar_flows c) + opt_size (ar_group c) 2)%nat (Ok (packed l m)) /\ whole l /\
  nbytes l = (1 + opt_size (ar_harq c) 2 + length (ar_flows c) + opt_size (ar_group c) 2)%nat.
Proof.
  intros (H0 & H1 & H2 & H3 & H4) Hc L l. unfold l. clear l. unfold ar_pack, ar_valid. rewrite H0.
  assert (V1 : opt_all (fun h => hq_valid (snd h) && hq_valid (fst h)) (ar_harq c) = true).
  { destruct (ar_harq c) as [h|]; [|reflexivity]. cbn in *. now rewrite !hq_valid_ok. }
  assert (V2 : negb (negb (enum_valid 8 (ar_accepted c)) || ((ar_accepted c =? 1) && is_empty (ar_flows c))) = true).
  { destruct H2 as [->|[(-> & H2)| ->]]; [reflexivity| |reflexivity]. destruct (ar_flows c); [congruence|reflexivity]. }
  assert (V3 : forallb (enum_valid_lower 0 7) (ar_flows c) = true).
  { apply forallb_forall. intros i Hi. rewrite Forall_forall in H3. apply H3 in Hi. unfold flow_ok in Hi. apply enum_valid_lower_lt; lia. }
  assert (V4 : opt_all (fun g => (gi_group g <=? 127) && (gi_tag g <=? 127)) (ar_group c) = true).
  { destruct (ar_group c) as [g|]; [|reflexivity]. cbn in *. lia. }
  rewrite V1, V2, V3, V4. cbn [andb guard]. clear V1 V2 V3 V4. set (h := ar_head c).
  assert (Hw : forall B (k : list N -> res B),
    (do m <- st m 0 (N.shiftl 1 7) ;
     do m <- orst m 0 (N.shiftl (N.b2n (is_some (ar_harq c))) 5) ;
     do m <- orst m 0 (N.shiftl (ar_code c) 2) ;
     do m <- orst m 0 (N.shiftl (N.b2n (is_some (ar_group c))) 1) ;
     do m <- orst m 0 (N.b2n (ar_power c)) ; k m) = k (packed h m)).
  { intros B k. unfold packed. rewrite (fb_eq 1) by reflexivity. change (nbytes h) with 1%nat. unfold h, ar_head.
    rewrite (present_is_some (ar_harq c)), (present_is_some (ar_group c)), (bit_b2n (ar_power c)).
    pose proof (bit_lt (ar_power c)). pose proof (present_lt (ar_harq c)). pose proof (present_lt (ar_group c)).
    set (x := bit (ar_power c)) in *. set (y := present (ar_harq c)) in *. set (z := present (ar_group c)) in *. set (v := ar_code c) in *.
    assert (Lm : (1 <= length m)%nat) by lia. clearbody x y z v. clear L.
    fbx. cells m 1%nat. mcbn. f_equal. repeat first [reflexivity | apply f_equal2; [unfold u8; bits|]]. }
  rewrite Hw. assert (W0 : whole h).
  { split; [|reflexivity]. unfold h, ar_head. pose proof (bit_lt (ar_power c)). pose proof (present_lt (ar_harq c)). pose proof (present_lt (ar_group c)). fit_tac. }
  change (packed h m, 1%nat) with (packed h m, nbytes h).
  destruct (put_at (ar_harq c) wr_harqs 2 (fun h => hq_fields (snd h) ++ hq_fields (fst h)) m h) as (G & W1 & N1); [|exact W0|change (nbytes h) with 1%nat; lia|].
  { intros x Ex. rewrite Ex in H1. destruct H1 as (Ha & Hb). apply hq_ok_raw in Ha. apply hq_ok_raw in Hb. split; [now apply hqs_writer|]. split; [reflexivity|]. auto using whole_app, hq_whole. }
  rewrite G. cbn [bind]. clear G. change (nbytes h) with 1%nat in N1.
  edestruct (fun H => put_all_at (ar_flows c) wr_byte 1 (fun i => fl_fields (0, i)) m _ H W1) as (G & W2 & N2); [|lia|].
  { intros i Hi. rewrite Forall_forall in H3. apply H3 in Hi. unfold flow_ok in Hi. split; [apply fl_writer; lia|]. split; [reflexivity|]. apply fl_whole. unfold fl_raw. cbn. lia. }
  rewrite G. cbn [bind]. clear G. rewrite N1 in N2.
  edestruct (fun H => put_at (ar_group c) wr_group 2 (fun g => [(8, gi_group g)] ++ [(8, gi_tag g)]) m _ H W2) as (G & W3 & N3); [|lia|].
  { intros g Eg. rewrite Eg in H4. destruct H4 as (Ha & Hb). split; [now apply gi_writer|]. split; [reflexivity|]. split; [|reflexivity]. repeat constructor; cbn; lia. }
  rewrite G. cbn [bind fst snd]. clear G. split; [|split; [exact W3|lia]].
  assert (P : exists b0, ld (packed (((h ++ field_opt (ar_harq c) (fun h => hq_fields (snd h) ++ hq_fields (fst h))) ++ flat_map (fun i => fl_fields (0, i)) (ar_flows c)) ++
           field_opt (ar_group c) (fun g => [(8, gi_group g)] ++ [(8, gi_tag g)])) m) 0 = Ok b0).
  { match type of N3 with nbytes ?l = _ => set (l0 := l) in *; assert (Lb : length (field_bytes l0) = nbytes l0) by apply fb_length end. unfold packed.
    destruct (field_bytes l0) as [|b0 u]; [cbn [length] in Lb; lia|]. exists b0. reflexivity. }
  destruct P as (b0 & P). unfold ar_peek. rewrite P. cbn [bind]. rewrite ar_rejected_always. cbn [bind]. replace (nbytes _) with (1 + opt_size (ar_harq c) 2 + length (ar_flows c) + opt_size (ar_group c) 2)%nat by lia. reflexivity.
Qed.
