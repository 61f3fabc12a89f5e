(** The receiver's loops over the symbols of a packet. *)
From Verif Require Import Base PacketSizes PacketSizesSpec PacketSizesFacts Cells TxCells CellsSpec CellsCheck CellsFacts TxFacts TxUseFacts
  RxSymbols RxSymbolsSpec RxSymbolsFacts.
Open Scope N_scope.

(** * What is stored per stream once the symbols before [l] have been heard *)
Definition off (t n : N) : N := (n + t mod 4 / 2) mod 2.
(** Number of the latest reference symbol before [l]. *)
Definition latest (e t l : N) : N := (l - 1 - first_symbol t) / spacing e.
Definition zf_at (e t l : N) : option N :=
  if first_symbol t <? l then Some (ref_symbol e t (latest e t l)) else None.
Definition slot_at (e t l o : N) : option N :=
  if first_symbol t <? l
  then if off t (latest e t l) =? o then Some (ref_symbol e t (latest e t l))
       else if latest e t l =? 0 then None else Some (ref_symbol e t (latest e t l - 1))
  else None.
Lemma active_number e t l : active e t l = true -> l = ref_symbol e t ((l - first_symbol t) / spacing e) /\ first_symbol t <= l.
Proof.
  unfold active, ref_symbol, spacing, first_symbol. intros H. apply andb_prop in H as (H1 & H2).
  destruct (t <? 4), (e <=? 2); lia.
Qed.
Lemma latest_active e t l : active e t l = true -> latest e t (l + 1) = (l - first_symbol t) / spacing e /\ ref_symbol e t (latest e t (l + 1)) = l /\ first_symbol t < l + 1.
Proof.
  intros H. pose proof H as H'. apply active_number in H' as (H1 & H2). unfold latest. replace (l + 1 - 1 - first_symbol t) with (l - first_symbol t) by lia.
  split; [reflexivity|]. split; [lia|lia].
Qed.
Lemma latest_prev e t l : active e t l = true -> first_symbol t < l -> latest e t l + 1 = (l - first_symbol t) / spacing e.
Proof.
  intros H L. apply active_number in H as (H1 & H2). unfold latest, ref_symbol, spacing, first_symbol in *.
  destruct (t <? 4), (e <=? 2); lia.
Qed.
Lemma latest_first e t l : active e t l = true -> l <= first_symbol t -> (l - first_symbol t) / spacing e = 0.
Proof. intros H L. apply active_number in H as (H1 & H2). unfold spacing. destruct (e <=? 2); lia. Qed.
Lemma latest_idle e t l : active e t l = false -> 1 <= l -> latest e t (l + 1) = latest e t l /\ (first_symbol t <? l + 1) = (first_symbol t <? l).
Proof.
  unfold active, latest, spacing, first_symbol. intros H L. destruct (t <? 4), (e <=? 2); destruct (_ <=? l) eqn:?; cbn [andb] in H; lia.
Qed.
Lemma zf_next e t l : 1 <= l -> zf_at e t (l + 1) = if active e t l then Some l else zf_at e t l.
Proof.
  intros L. unfold zf_at. destruct (active e t l) eqn:A.
  - apply latest_active in A as (_ & A & B). replace (first_symbol t <? l + 1) with true by lia. rewrite A. reflexivity.
  - destruct (latest_idle e t l A L) as (-> & ->). reflexivity.
Qed.
Lemma off_next t n : off t (n + 1) = 1 - off t n /\ off t n <= 1.
Proof. unfold off. set (x := t mod 4 / 2). clearbody x. lia. Qed.
Lemma slot_next e t l o : 1 <= l -> o <= 1 ->
  slot_at e t (l + 1) o = if active e t l && (off t ((l - first_symbol t) / spacing e) =? o) then Some l else slot_at e t l o.
Proof.
  intros L O. unfold slot_at. destruct (active e t l) eqn:A; cbn [andb].
  - pose proof A as A'. apply latest_active in A' as (A1 & A2 & A3). replace (first_symbol t <? l + 1) with true by lia. rewrite A2. rewrite A1.
    destruct (N.eqb_spec (off t ((l - first_symbol t) / spacing e)) o) as [|NE]; [reflexivity|].
    destruct (N.ltb_spec (first_symbol t) l) as [F|F].
    + rewrite <- (latest_prev e t l A F) in *. set (n := latest e t l) in *. destruct (off_next t n) as (X & Y). rewrite X in NE.
      replace (off t n =? o) with true by lia. replace (n + 1 =? 0) with false by lia. replace (n + 1 - 1) with n by lia. reflexivity.
    + rewrite (latest_first e t l A F). reflexivity.
  - destruct (latest_idle e t l A L) as (-> & ->). reflexivity.
Qed.

(** * Streams of a symbol *)
Definition ts_first (e l : N) : N := if (e =? 8) && negb ((l - 2) mod 10 =? 0) then 4 else 0.
Definition ts_last (e l : N) : N := if e =? 8 then (if (l - 2) mod 10 =? 0 then 3 else 7) else e - 1.
Lemma active_list e l : In e [1; 2; 4; 8] -> 1 <= l ->
  active_streams e l = (if (if e <=? 4 then (l - 1) mod spacing e =? 0 else ((l - 1) mod 10 =? 0) || ((l - 1) mod 10 =? 1))
                        then nseq (ts_first e (l + 1)) (N.to_nat (ts_last e (l + 1) + 1 - ts_first e (l + 1))) else []).
Proof.
  intros E0 L. unfold active_streams, active, first_symbol, spacing, ts_first, ts_last. cbn [In] in E0.
  repeat destruct E0 as [<-|E0]; try contradiction E0.
  - change (upto 1) with [0]. cbn [filter]. change (0 <? 4) with true. change (1 <=? 2) with true. change (1 <=? 4) with true. change (1 =? 8) with false. cbn [andb]. cbv iota.
    replace (1 <=? l) with true by lia. cbn [andb]. destruct ((l - 1) mod 5 =? 0); reflexivity.
  - change (upto 2) with [0; 1]. cbn [filter]. change (0 <? 4) with true. change (1 <? 4) with true. change (2 <=? 2) with true. change (2 <=? 4) with true. change (2 =? 8) with false. cbn [andb]. cbv iota.
    replace (1 <=? l) with true by lia. cbn [andb]. destruct ((l - 1) mod 5 =? 0); reflexivity.
  - change (upto 4) with [0; 1; 2; 3]. cbn [filter]. change (4 <=? 2) with false. change (4 <=? 4) with true. change (4 =? 8) with false.
    change (0 <? 4) with true. change (1 <? 4) with true. change (2 <? 4) with true. change (3 <? 4) with true. cbn [andb]. cbv iota.
    replace (1 <=? l) with true by lia. cbn [andb]. destruct ((l - 1) mod 10 =? 0); reflexivity.
  - change (upto 8) with [0; 1; 2; 3; 4; 5; 6; 7]. cbn [filter]. change (8 <=? 2) with false. change (8 <=? 4) with false. change (8 =? 8) with true.
    change (0 <? 4) with true. change (1 <? 4) with true. change (2 <? 4) with true. change (3 <? 4) with true.
    change (4 <? 4) with false. change (5 <? 4) with false. change (6 <? 4) with false. change (7 <? 4) with false. cbv iota.
    replace (1 <=? l) with true by lia. cbn [andb]. replace (l + 1 - 2) with (l - 1) by lia.
    replace ((2 <=? l) && ((l - 2) mod 10 =? 0)) with ((l - 1) mod 10 =? 1) by (destruct (2 <=? l) eqn:?; cbn [andb]; lia).
    destruct (N.eqb_spec ((l - 1) mod 10) 0) as [X|X], (N.eqb_spec ((l - 1) mod 10) 1) as [Y|Y]; try reflexivity; exfalso; lia.
Qed.
Lemma ts_idle e l : In e [1; 2; 4; 8] -> 2 <= l -> active_streams e l = [] -> ts_first e (l + 1) = ts_first e l /\ ts_last e (l + 1) = ts_last e l.
Proof.
  intros E0 L H. rewrite active_list in H by (auto; lia). unfold ts_first, ts_last. cbn [In] in E0.
  repeat destruct E0 as [<-|E0]; try contradiction E0; try (split; reflexivity).
  change (8 <=? 4) with false in H. change (8 =? 8) with true in *. cbn [andb] in *.
  destruct (N.eqb_spec ((l - 1) mod 10) 0), (N.eqb_spec ((l - 1) mod 10) 1); cbn [orb] in H; try (apply (f_equal (@length N)) in H; rewrite nseq_length in H; unfold ts_first, ts_last in H; change (8 =? 8) with true in H; cbn [andb] in H; destruct (_ =? 0) in H; cbn in H; discriminate).
  replace ((l + 1 - 2) mod 10 =? 0) with false by lia. replace ((l - 2) mod 10 =? 0) with false by lia. auto.
Qed.
Lemma active_in e l t : In t (active_streams e l) <-> t < e /\ active e t l = true.
Proof. unfold active_streams. rewrite filter_In, upto_in. reflexivity. Qed.
Lemma active_nodup e l : NoDup (active_streams e l).
Proof. apply NoDup_filter. apply nseq_nodup. Qed.
Lemma last_nseq a n : (0 < n)%nat -> last (nseq a n) 0 = a + N.of_nat n - 1.
Proof. destruct n; [lia|]. intros _. rewrite nseq_snoc, last_last. lia. Qed.
Lemma hd_nseq a n : (0 < n)%nat -> hd 0 (nseq a n) = a.
Proof. destruct n; [lia|]. reflexivity. Qed.
Lemma ts_order e l : In e [1; 2; 4; 8] -> ts_first e l <= ts_last e l /\ ts_last e l < e.
Proof.
  intros E0. unfold ts_first, ts_last. cbn [In] in E0. repeat destruct E0 as [<-|E0]; try contradiction E0;
    cbn [N.eqb Pos.eqb andb]; try lia. destruct (_ =? 0); cbn [negb]; lia.
Qed.
Lemma offsets_at ps rel t : t < 8 -> at_idx (write_offsets ps rel) t = Ok (off t (if rel <=? 1 then ps else ps + 1)).
Proof.
  intros T. unfold write_offsets, off. set (n := if rel <=? 1 then ps else ps + 1).
  assert (X : n mod 2 = if Bool.eqb (ps mod 2 =? 0) (rel <=? 1) then 0 else 1).
  { unfold n. destruct (rel <=? 1), (N.eqb_spec (ps mod 2) 0); cbn [Bool.eqb]; lia. }
  clearbody n. set (p := Bool.eqb _ _) in *. clearbody p.
  assert (T' : In t (upto 8)) by (apply upto_in; exact T). change (upto 8) with [0; 1; 2; 3; 4; 5; 6; 7] in T'. cbn [In] in T'.
  destruct p; repeat destruct T' as [<-|T']; try contradiction T';
    match goal with |- _ = Ok ((n + ?k) mod 2) => let v := eval vm_compute in k in change k with v end;
    (match goal with |- at_idx ?l ?i = _ => let v := eval vm_compute in (at_idx l i) in change (at_idx l i) with v end); f_equal; lia.
Qed.

Definition est_of (s : rx) (t : N) : option est := match at_idx (rx_streams s) t with Ok h => h_est h | _ => None end.
(** What a step leaves alone. *)
Definition frame (s s' : rx) : Prop :=
  rx_idx s' = rx_idx s /\ rx_rel s' = rx_rel s /\ rx_ps s' = rx_ps s /\ rx_lr s' = rx_lr s /\ rx_pcc s' = rx_pcc s /\
  rx_subc s' = rx_subc s /\ rx_bits s' = rx_bits s /\ rx_control s' = rx_control s /\ rx_data s' = rx_data s.

Section Loop.
Context (b e n M : N) (Sf : N -> cstate).
Hypothesis B : In b [1; 2; 4; 8; 12; 16].
Hypothesis E0 : In e [1; 2; 4; 8].
Hypothesis EM : e <= M.
Hypothesis ST : forall l, 1 <= l -> comps_step (Sf l) l = Ok (cells_of b e l, Sf (l + 1)).

Lemma E8 : 1 <= e <= 8.
Proof using E0. clear - E0. cbn [In] in E0. lia. Qed.

(** The symbols before [l] have been heard; the components are in state [c]. *)
Definition base (c : cstate) (l : N) (s : rx) : Prop :=
  rx_comps s = c /\ rx_heard s = l /\ rx_drs s = 14 * b * refs e l /\ len (rx_rows s) = n /\
  (2 <= l -> rx_first s = ts_first e l /\ rx_last s = ts_last e l) /\ len (rx_streams s) = M /\
  forall t, t < e -> exists h, at_idx (rx_streams s) t = Ok h /\ (1 < l \/ t <> 0 -> h_zf h = zf_at e t l) /\
    h_even h = slot_at e t l 0 /\ h_odd h = slot_at e t l 1.

(** The reference component is ahead of the control component. *)
Definition half (l : N) : cstate :=
  let s := Sf (l + 1) in
  mkCstate (s_ts s) (s_l s) (s_k s) (s_cnt (Sf l)) (s_tab s) (s_drs s) (s_y s) (s_next s) (s_first s) (s_pdc s) (s_limit s).
Lemma drs_idle s l r : drs_step s l = Ok (None, r) -> r = (s_drs s, s_y s, s_next s, s_first s).
Proof.
  unfold drs_step. destruct (negb (l =? s_next s)); [congruence|]. destruct (at_idx _ 0); try discriminate. cbn [bind].
  destruct (mapM _ _); discriminate.
Qed.

Lemma collect_ok s : rx_rel s < len (rx_rows s) ->
  collect s = Ok (set_rows (rx_heard s + 1) (upd (rx_rows s) (N.to_nat (rx_rel s)) (Some (rx_heard s))) (rx_rel s) s).
Proof. intros H. unfold collect, point. replace (_ <? _) with true by lia. reflexivity. Qed.

Lemma hear interpolate l s : 1 <= l -> base (Sf l) l s -> rx_rel s < n ->
  (interpolate = true -> rx_lr s = false) ->
  (active_streams e l <> [] -> rx_lr s = true \/ (if e <=? 4 then rx_rel s = 0 else rx_rel s <= 1)) ->
  (forall t, t < e -> active e t l = true -> (l - first_symbol t) / spacing e = if rx_rel s <=? 1 then rx_ps s else rx_ps s + 1) ->
  exists s1, (do s <- collect s ; references interpolate e l s) = Ok s1 /\ base (half l) (l + 1) s1 /\ frame s s1 /\
    rx_rows s1 = upd (rx_rows s) (N.to_nat (rx_rel s)) (Some l) /\ rx_now s1 = rx_rel s /\
    forall t, t < e -> est_of s1 t = if interpolate && active e t l then Some (mkEst false (rx_ps s) (rx_rel s) [Some l]) else est_of s t.
Proof using B E0 EM ST.
  intros L (A1 & A2 & A3 & A4 & A5 & A6 & A7) R HI HG HO. rewrite collect_ok by lia. cbn [bind]. rewrite A2.
  set (rows := upd (rx_rows s) (N.to_nat (rx_rel s)) (Some l)).
  assert (RL : len rows = n) by (unfold rows; rewrite len_upd; exact A4).
  assert (RN : at_idx rows (rx_rel s) = Ok (Some l)) by (apply at_upd_same; lia).
  destruct (step_parts _ _ _ _ _ (ST l L)) as (cnt & sel & y & next & first & _ & DS & _ & SE).
  pose proof E8 as E8.
  unfold references. cbn [set_rows rx_comps]. rewrite A1, DS. cbn [bind].
  assert (HF : half l = mkCstate (s_ts (Sf l)) (s_l (Sf l)) (s_k (Sf l)) (s_cnt (Sf l)) (s_tab (Sf l)) sel y next first (s_pdc (Sf l)) (s_limit (Sf l)))
    by (unfold half; rewrite SE; reflexivity).
  rewrite <- HF. unfold report_of in *.
  destruct (active_streams e l) as [|t0 ts] eqn:AS.
  - (* no reference cells *)
    eexists. split; [reflexivity|].
    assert (NA : forall t, t < e -> active e t l = false).
    { intros t T. destruct (active e t l) eqn:X; [|reflexivity]. exfalso. assert (In t []) as []. rewrite <- AS. apply active_in. auto. }
    split; [|split; [repeat split|split; [reflexivity|split; [reflexivity|]]]].
    + unfold base. cbn [set_rows rx_comps rx_heard rx_drs rx_rows rx_first rx_last rx_streams].
      split; [|split; [reflexivity|split; [|split; [exact RL|split; [|split; [exact A6|]]]]]].
      * rewrite A1, HF. apply drs_idle in DS. injection DS as -> -> -> ->. destruct (Sf l); reflexivity.
      * rewrite refs_next, AS by exact L. rewrite A3. change (len (@nil N)) with 0. lia.
      * intros _. destruct (N.eq_dec l 1) as [->|]; [|destruct (ts_idle e l E0 ltac:(lia) AS) as (-> & ->); apply A5; lia].
        exfalso. rewrite active_list in AS by auto. replace (if e <=? 4 then _ else _) with true in AS
          by (destruct (e <=? 4); [|reflexivity]; change (1 - 1) with 0; unfold spacing; destruct (e <=? 2); reflexivity).
        destruct (ts_order e (1 + 1) E0). apply (f_equal (@length N)) in AS. rewrite nseq_length in AS. cbn [length] in AS. lia.
      * intros t T. destruct (A7 t T) as (h & H1 & H2 & H3 & H4). exists h. split; [exact H1|].
        rewrite zf_next, !slot_next by lia. rewrite NA by exact T. cbn [andb]. split; [|auto]. intros _. apply H2.
        destruct (N.eq_dec t 0) as [->|]; [|auto]. left. destruct (N.eq_dec l 1) as [->|]; [|lia].
        specialize (NA 0 T). unfold active, first_symbol, spacing in NA. change (0 <? 4) with true in NA. cbv iota in NA.
        destruct (e <=? 2); discriminate NA.
    + intros t T. rewrite NA by exact T. rewrite andb_false_r. reflexivity.
  - (* reference cells *)
    rewrite <- AS in *.
    set (rowf := fun t => (t, reference b e t l, map (fun i => (4 <=? t, (4 * i + t mod 4) mod 56)) (upto (14 * b)))) in *.
    assert (TS : map (fun x : N * list N * list (bool * N) => fst (fst x)) (map rowf (active_streams e l)) = active_streams e l).
    { rewrite map_map. rewrite <- (map_id (active_streams e l)) at 2. apply map_ext. reflexivity. }
    assert (NE : active_streams e l <> []) by (rewrite AS; discriminate).
    destruct (ts_order e (l + 1) E0) as (TO1 & TO2).
    assert (AL : active_streams e l = nseq (ts_first e (l + 1)) (N.to_nat (ts_last e (l + 1) + 1 - ts_first e (l + 1)))).
    { pose proof (active_list e l E0 L) as X. destruct (if e <=? 4 then _ else _) in X; [exact X|contradiction (NE X)]. }
    unfold chestim_zf. cbn [set_comps set_rows rx_lr rx_rel dr_rows dr_size rx_rows rx_now rx_ps rx_streams rx_drs].
    specialize (HG NE).
    rewrite guard_true by (destruct HG as [-> |HG]; [reflexivity|]; destruct (e <=? 4); [rewrite HG; change (0 =? 0) with true; rewrite !andb_false_r; reflexivity|rewrite andb_false_r; reflexivity]).
    rewrite guard_true by (destruct HG as [-> |HG]; [reflexivity|]; destruct (N.leb_spec e 4); [replace (4 <? e) with false by lia; rewrite andb_false_r; reflexivity|replace (1 <? rx_rel s) with false by lia; rewrite andb_false_r; reflexivity]).
    rewrite TS, RN. cbn [bind].
    assert (HD : hd 0 (active_streams e l) = ts_first e (l + 1)) by (rewrite AL; apply hd_nseq; lia).
    assert (LA : last (active_streams e l) 0 = ts_last e (l + 1)) by (rewrite AL, last_nseq by lia; lia).
    rewrite HD, LA.
    assert (LN : len (active_streams e l) = ts_last e (l + 1) - ts_first e (l + 1) + 1) by (rewrite AL; unfold len; rewrite nseq_length; lia).
    match goal with |- context [foldM ?f (rx_streams s) (active_streams e l)] =>
      rewrite (foldM_ext f (fun ss t => change (store (Some l) (off t (if rx_rel s <=? 1 then rx_ps s else rx_ps s + 1))) t ss)) end.
    2:{ intros ss t T. apply active_in in T as (T & _). rewrite offsets_at by lia. reflexivity. }
    destruct (change_all (fun t => Ok t) (fun t => store (Some l) (off t (if rx_rel s <=? 1 then rx_ps s else rx_ps s + 1))) (active_streams e l) (active_nodup e l) (rx_streams s))
      as (ss & F1 & F2 & F3 & F4).
    { intros t T. apply active_in in T as (T & _). lia. }
    rewrite F1. cbn [bind].
    assert (F5 : forall t, t < e -> exists h h', at_idx (rx_streams s) t = Ok h /\ at_idx ss t = Ok h' /\ h_est h' = h_est h /\
       h_zf h' = zf_at e t (l + 1) /\ h_even h' = slot_at e t (l + 1) 0 /\ h_odd h' = slot_at e t (l + 1) 1).
    { intros t T. destruct (A7 t T) as (h & H1 & H2 & H3 & H4). rewrite zf_next, !slot_next by lia. destruct (active e t l) eqn:AC.
      - exists h, (store (Some l) (off t (if rx_rel s <=? 1 then rx_ps s else rx_ps s + 1)) h). split; [exact H1|].
        split; [apply F3; [apply active_in; auto|exact H1]|]. rewrite (HO t T AC). cbn [andb]. unfold store.
        destruct (off_next t (if rx_rel s <=? 1 then rx_ps s else rx_ps s + 1)) as (_ & OB). set (o := off t _) in *. clearbody o.
        destruct (N.eqb_spec o 0) as [->|]; cbn [h_est h_zf h_even h_odd]; [repeat split; auto|].
        replace (o =? 1) with true by lia. repeat split; auto.
      - exists h, h. split; [exact H1|]. split; [rewrite F4; [exact H1|]; intros X; apply active_in in X as (_ & X); congruence|].
        cbn [andb]. repeat split; auto. apply H2. destruct (N.eq_dec t 0) as [->|]; [|auto]. left.
        destruct (N.eq_dec l 1) as [->|]; [|lia]. unfold active, first_symbol, spacing in AC. change (0 <? 4) with true in AC. cbv iota in AC.
        destruct (e <=? 2); discriminate AC. }
    assert (DR : rx_drs s + 14 * b * (ts_last e (l + 1) - ts_first e (l + 1) + 1) = 14 * b * refs e (l + 1))
      by (rewrite refs_next, A3, LN by exact L; lia).
    destruct interpolate.
    + (* interpolation *)
      specialize (HI eq_refl). unfold ch_interpolation.
      cbn [set_streams set_comps set_rows rx_lr rx_rel rx_first rx_last rx_rows rx_now rx_ps rx_streams rx_drs]. rewrite HI. rewrite <- AL.
      destruct (change_all (fun t => Ok t) (fun t => renew false (rx_ps s) (rx_rel s)) (active_streams e l) (active_nodup e l) ss)
        as (sr & G1 & G2 & G3 & G4).
      { intros t T. apply active_in in T as (T & _). lia. }
      rewrite G1. cbn [bind]. eexists. split; [reflexivity|]. split; [|split; [repeat split; auto|split; [reflexivity|split; [reflexivity|]]]].
      * unfold base. cbn [set_streams set_comps set_rows rx_comps rx_heard rx_drs rx_rows rx_first rx_last rx_streams].
        split; [reflexivity|]. split; [reflexivity|]. split; [exact DR|]. split; [exact RL|]. split; [auto|]. split; [lia|].
        intros t T. destruct (F5 t T) as (h & h' & H1 & H2 & H3 & H4 & H5 & H6). destruct (active e t l) eqn:AC.
        -- exists (renew false (rx_ps s) (rx_rel s) h'). split; [apply G3; [apply active_in; auto|exact H2]|]. cbn [renew h_zf h_even h_odd]. auto.
        -- exists h'. split; [rewrite G4; [exact H2|]; intros X; apply active_in in X as (_ & X); congruence|]. auto.
      * intros t T. destruct (F5 t T) as (h & h' & H1 & H2 & H3 & H4 & H5 & H6). unfold est_of.
        cbn [set_streams set_comps set_rows rx_streams andb]. rewrite H1. destruct (active e t l) eqn:AC.
        -- rewrite (G3 t h') by (auto; apply active_in; auto). cbn [renew h_est]. rewrite H4, zf_next, AC by exact L. reflexivity.
        -- rewrite G4 by (intros X; apply active_in in X as (_ & X); congruence). rewrite H2. exact H3.
    + eexists. split; [reflexivity|]. split; [|split; [repeat split; auto|split; [reflexivity|split; [reflexivity|]]]].
      * unfold base. cbn [set_streams set_comps set_rows rx_comps rx_heard rx_drs rx_rows rx_first rx_last rx_streams].
        split; [reflexivity|]. split; [reflexivity|]. split; [exact DR|]. split; [exact RL|]. split; [auto|]. split; [lia|].
        intros t T. destruct (F5 t T) as (h & h' & H1 & H2 & H3 & H4 & H5 & H6). exists h'. auto.
      * intros t T. destruct (F5 t T) as (h & h' & H1 & H2 & H3 & _). unfold est_of.
        cbn [set_streams set_comps set_rows rx_streams andb]. rewrite H1, H2. exact H3.
Qed.
End Loop.
