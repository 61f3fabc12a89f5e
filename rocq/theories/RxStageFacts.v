(** The receiver's loops over the symbols of a packet: stages with reference cells on both sides, and the whole data field. *)
From Verif Require Import Base PacketSizes PacketSizesSpec PacketSizesFacts Cells TxCells CellsSpec CellsCheck CellsFacts TxFacts TxUseFacts
  RxSymbols RxSymbolsSpec RxSymbolsFacts RxLoopFacts RxDataFacts.
Open Scope N_scope.

Lemma mod_next a m : 0 < m -> (a + 1) mod m = if a mod m + 1 =? m then 0 else a mod m + 1.
Proof.
  intros H. pose proof (N.div_mod a m ltac:(lia)) as D. pose proof (N.mod_lt a m ltac:(lia)) as L. destruct (N.eqb_spec (a mod m + 1) m) as [E|E]; symmetry.
  - apply N.mod_unique with (a / m + 1); lia.
  - apply N.mod_unique with (a / m); lia.
Qed.

Section Stages.
Context (b e n M : N) (Sf : N -> cstate).
Hypothesis B : In b [1; 2; 4; 8; 12; 16].
Hypothesis E0 : In e [1; 2; 4; 8].
Hypothesis EM : e <= M.
Hypothesis ST : forall l, 1 <= l -> comps_step (Sf l) l = Ok (cells_of b e l, Sf (l + 1)).
Context (bps : N) (both : bool) (stride df : N).
Notation c := (mkRcfg e (56 * b) bps 1 stride).
Notation N0 := (spacing e).
Hypothesis NL : N0 <= n.
Hypothesis NS : n = N0 + (if e =? 8 then 2 else 1).
Hypothesis S1 : 0 < stride.
Notation ce := (control_end b e).
Hypothesis DFC : ce < df.
Hypothesis DF8 : e = 8 -> df mod 10 <> 1.
Local Notation hear1 := (hear_one b e n M Sf B E0 EM ST bps both stride df NL).
Local Notation data1 := (data_ok b e n M Sf B E0 EM ST bps both stride df NL).
Local Notation static1 := (static b e n M Sf B E0 EM ST bps both stride df NL).
Local Notation idle1 := (half_idle b e n M Sf B E0 EM ST bps both stride df NL).
Local Notation cells1 := (cell_symbols b e n M Sf B E0 EM ST bps both stride df NL).
Local Notation progress := (progress b e bps both stride df).
Local Notation found := (found b e bps both stride df).
Local Notation base := (base b e n M).

Lemma e_cases : (e = 1 \/ e = 2 \/ e = 4 \/ e = 8) /\ (e <> 8 -> e <= 4) /\ (e = 8 -> 3 <= ce) /\ 1 <= ce <= 4 /\ (N0 = 5 /\ e <= 2 \/ N0 = 10 /\ 4 <= e).
Proof using All.
  pose proof (end_range b e). destruct (end_values b e B E0) as (_ & _ & V). unfold spacing. clear - E0 V H. cbn [In] in E0. destruct (N.leb_spec e 2); lia.
Qed.
Definition ctls (s : rx) : Prop := rx_pcc s = 98 /\ rx_control s = control_takes b e.
Lemma ctl_end s : ctl b e (ce + 1) s -> ctls s.
Proof using All.
  intros (C1 & C2). destruct (end_values b e B E0) as (V & _). rewrite V in C1. split; [lia|]. rewrite C2. unfold control_takes. do 3 f_equal. lia.
Qed.

(** ** Only the latest reference cells *)
Section Single.
Hypothesis SG : both && (0 <? full e df) = false.
Lemma single l t : taken_for e both df l = l /\ estimate e both stride df t l = one_sided e t l.
Proof using All.
  unfold taken_for, estimate. rewrite SG. split; [|reflexivity]. destruct both; [|reflexivity]. cbn [andb] in *. replace (full e df) with 0 by lia.
  destruct (N.leb_spec 12 l), (N.leb_spec l (1 + 0 * 10)); rewrite ?andb_false_r; try reflexivity. lia.
Qed.
Definition in_again (l : N) (s : rx) : Prop :=
  base (Sf (ce + 1)) (ce + 1) s /\ rx_rel s = l - 1 /\ rx_ps s = 0 /\ rx_lr s = false /\ known e (ce + 1) s /\ ctls s /\ progress l s /\ rx_idx s = ce + 1 /\
  at_idx (rx_rows s) (rx_now s) = Ok (Some ce).
Lemma again_step l s : 1 <= l <= ce -> in_again l s -> exists s', again c s l = Ok s' /\ in_again (l + 1) s'.
Proof using All.
  intros L (BA & R & P & LR & K & CT & PG & IX & RW). pose proof BA as (B1 & _ & _ & _ & _ & B6 & _). destruct (static1 (ce + 1) ltac:(lia)) as (Q1 & Q2).
  unfold again. rewrite (data1 l s); [| lia | rewrite B1; exact Q1 | rewrite B1; exact Q2 | exact PG | lia |].
  - cbn [bind]. eexists. split; [reflexivity|]. unfold in_again, progress. cbn [set_place set_data rx_rel rx_ps rx_lr rx_idx rx_now rx_rows rx_subc rx_bits rx_data].
    split; [exact BA|]. split; [lia|]. repeat (split; [assumption|]). split; [|auto]. replace (l + 1 - 1) with l by lia. auto.
  - intros D. destruct (N.eq_dec l ce) as [->|].
    + destruct (single ce 0) as (-> & _). split; [exact RW|]. intros t T. destruct (single ce t) as (_ & ->).
      pose proof (cells1 ce ltac:(lia) (or_intror D) t T) as F. specialize (K t T ltac:(lia)). replace (ce + 1 - 1) with ce in K by lia. exact K.
    + exfalso. apply D. apply control_before; auto. lia.
Qed.
Definition in_last (l : N) (s : rx) : Prop :=
  base (Sf l) l s /\ rx_rel s = (l - 1) mod N0 /\ rx_ps s = (l - 1) / N0 /\ known e l s /\ ctls s /\ progress l s /\ rx_lr s = false.
Lemma last_step l s : ce < l -> in_last l s -> exists s', last_symbols c s l = Ok s' /\ in_last (l + 1) s'.
Proof using All.
  intros L (BA & R & P & K & CT & PG & LR).
  destruct (hear1 l s) as (s1 & H1 & H2 & (F1 & F2 & F3 & F4 & F5 & F6 & F7 & F8 & F9) & H4 & H5 & H6); auto; [lia|].
  rewrite idle1 in H2 by (try lia; apply control_after; auto; lia).
  pose proof H2 as (B1 & _ & _ & _ & _ & B6 & _). destruct (static1 (l + 1) ltac:(lia)) as (Q1 & Q2).
  unfold last_symbols. cbn [c_e].
  replace (do s0 <- collect s; do s1 <- references true e l s0; _) with
    (do s1 <- (do s0 <- collect s; references true e l s0) ; do s <- data_cells_of c l s1 ;
     let rel := rx_rel s + 1 in
     Ok (if rel =? drs_N_step e then set_place (l + 1) 0 (rx_ps s + 1) (rx_lr s) s else set_place (l + 1) rel (rx_ps s) (rx_lr s) s))
    by (destruct (collect s); reflexivity).
  rewrite H1. cbn [bind].
  rewrite (data1 l s1); [| lia | rewrite B1; exact Q1 | rewrite B1; exact Q2 | | lia |].
  - cbn [bind]. eexists. split; [reflexivity|]. cbn [set_data rx_rel rx_ps rx_lr]. change (drs_N_step e) with N0. rewrite F2, F3, F4, R, P.
    assert (Z : N0 = 5 \/ N0 = 10) by (unfold spacing; destruct (e <=? 2); auto).
    assert (PN : forall i r p x, progress (l + 1) (set_place i r p x (set_data (data_before b e (l + 1)) (data_before b e (l + 1) * bps) (flat_map found (nseq 1 (N.to_nat l))) s1))).
    { intros. unfold progress. cbn [set_place set_data rx_subc rx_bits rx_data]. replace (l + 1 - 1) with l by lia. auto. }
    unfold in_last. destruct (N.eqb_spec ((l - 1) mod N0 + 1) N0) as [E|E]; cbn [set_place set_data rx_rel rx_ps rx_lr];
      (split; [exact H2|]); (split; [destruct Z as [Z|Z]; rewrite Z in *; lia|]); (split; [destruct Z as [Z|Z]; rewrite Z in *; lia|]);
      (split; [exact H6|]); (split; [unfold ctls in *; cbn [set_place set_data rx_pcc rx_control]; rewrite F5, F8; exact CT|]); (split; [apply PN|exact LR]).
  - unfold progress in *. rewrite F6, F7, F9. exact PG.
  - intros D. destruct (single l 0) as (-> & _). split.
    + rewrite H4, H5. apply at_upd_same. destruct BA as (_ & _ & _ & -> & _). rewrite R. clear - NL. unfold spacing in *. destruct (e <=? 2); lia.
    + intros t T. destruct (single l t) as (_ & ->). pose proof (cells1 l ltac:(lia) (or_intror D) t T) as F.
      specialize (H6 t T ltac:(lia)). replace (l + 1 - 1) with l in H6 by lia. exact H6.
Qed.
Lemma single_field s : in_control b e n M Sf (ce + 1) s ->
  exists s', mode_lr_f c df s = Ok s' /\ base (Sf (df + 1)) (df + 1) s' /\ ctls s' /\ progress (df + 1) s'.
Proof using All.
  intros (BA & R & P & LR & K & CT & D1 & D2 & D3 & IX & RW). pose proof e_cases as (_ & _ & _ & CE & _). destruct IX as (IX & NW); [clear - CE; lia|].
  unfold mode_lr_f. cbn [set_place rx_ps rx_idx rx_lr]. rewrite P. change (0 =? 0) with true. rewrite IX. replace (ce + 1 - 1) with ce by lia.
  destruct (foldM_ind (again c) in_again 1 (N.to_nat ce) (set_place (ce + 1) 0 0 false (set_place (ce + 1) (rx_rel s) 0 false s))) as (s1 & A1 & A2).
  - unfold in_again, progress. cbn [set_place rx_rel rx_ps rx_lr rx_idx rx_now rx_rows rx_subc rx_bits rx_data]. rewrite before_1, NW.
    split; [exact BA|]. split; [reflexivity|]. split; [reflexivity|]. split; [reflexivity|]. split; [exact K|]. split; [exact (ctl_end s CT)|].
    split; [rewrite D1, D2, D3; auto|]. split; [reflexivity|]. replace (ce + 1 - 2) with (ce - 1) by (clear - CE; lia).
    rewrite RW by (clear - CE; lia). do 2 f_equal. clear - CE; lia.
  - intros l x L I. apply again_step; [lia|exact I].
  - rewrite A1. cbn [bind]. replace (1 + N.of_nat (N.to_nat ce)) with (ce + 1) in A2 by lia. destruct A2 as (A3 & A4 & A5 & A6 & A7 & A8 & A9 & A10 & _).
    rewrite A10. destruct (foldM_ind (last_symbols c) in_last (ce + 1) (N.to_nat (df + 1 - (ce + 1))) s1) as (s2 & C1 & C2).
    + unfold in_last. split; [exact A3|]. split; [rewrite A4|split; [rewrite A5|auto]]; clear - CE; unfold spacing; destruct (e <=? 2); lia.
    + intros l x L I. apply last_step; [lia|exact I].
    + exists s2. split; [exact C1|]. replace (ce + 1 + N.of_nat (N.to_nat (df + 1 - (ce + 1)))) with (df + 1) in C2 by lia.
      destruct C2 as (C2 & _ & _ & _ & C3 & C4 & _). auto.
Qed.
End Single.

(** ** Reference cells on both sides *)
Section Double.
Hypothesis DB : both = true.
Notation F := (full e df).
Hypothesis F1 : 0 < F.
Lemma full_range : (if e =? 8 then 2 else 1) + F * N0 <= df /\ df <= F * N0 + N0 /\ (e = 8 -> df <= F * N0 + N0).
Proof using All.
  pose proof e_cases as (EC & _ & E3 & CE & Z). clear - EC E3 CE Z DFC DF8. unfold full. destruct (N.eqb_spec e 8) as [E|E]; destruct Z as [(Z & Z1)|(Z & Z1)]; rewrite Z in *; lia.
Qed.
Lemma double l t : estimate e both stride df t l = two_sided e stride t (N.min l (1 + F * N0)).
Proof using All. unfold estimate. rewrite DB. replace (0 <? F) with true by lia. reflexivity. Qed.

Lemma interp_ok k L s : base k L s -> 2 <= L -> ts_last e L = e - 1 -> rx_lr s = true ->
  exists s', ch_interpolation s = Ok s' /\ base k L s' /\ frame s s' /\ rx_rows s' = rx_rows s /\ rx_now s' = rx_now s /\
    forall t, t < e -> est_of s' t = Some (mkEst true (rx_ps s) (rx_rel s) [slot_at e t L 0; slot_at e t L 1]).
Proof using All.
  intros (A1 & A2 & A3 & A4 & A5 & A6 & A7) L2 TL LR. destruct (A5 L2) as (A8 & A9). unfold ch_interpolation. rewrite LR, A9, TL.
  pose proof e_cases as (EC & _).
  assert (NE : N.to_nat (e - 1 + 1 - 0) = N.to_nat e) by (clear - EC; lia). rewrite NE.
  assert (IN : forall t, In t (nseq 0 (N.to_nat e)) <-> t < e) by (intros; apply upto_in).
  destruct (change_all (fun t => Ok t) (fun t => renew true (rx_ps s) (rx_rel s)) (nseq 0 (N.to_nat e)) (nseq_nodup _ _) (rx_streams s)) as (ss & G1 & G2 & G3 & G4).
  { intros t T. apply IN in T. rewrite A6. clear - T EM. lia. }
  rewrite G1. cbn [bind]. eexists. split; [reflexivity|]. split; [|split; [repeat split|split; [reflexivity|split; [reflexivity|]]]].
  - unfold base. cbn [set_streams rx_comps rx_heard rx_drs rx_rows rx_first rx_last rx_streams].
    split; [exact A1|]. split; [exact A2|]. split; [exact A3|]. split; [exact A4|]. split; [intros _; auto|]. split; [rewrite G2; exact A6|].
    intros t T. destruct (A7 t T) as (h & H1 & H2 & H3 & H4). exists (renew true (rx_ps s) (rx_rel s) h). split; [apply G3; [apply IN; exact T|exact H1]|].
    cbn [renew h_zf h_even h_odd]. auto.
  - intros t T. destruct (A7 t T) as (h & H1 & H2 & H3 & H4). unfold est_of. cbn [set_streams rx_streams]. rewrite (G3 t h) by (auto; apply IN; exact T).
    cbn [renew h_est]. rewrite H3, H4. reflexivity.
Qed.

(** The stage [p]. *)
Definition shift (p : N) : N := p * N0 + (if (e =? 8) && (0 <? p) then 2 else 1).
Definition lo (p : N) : N := if p =? 0 then 0 else 1.
Definition fin (p : N) : N := n + p * N0.
Lemma fin_last p : ts_last e (fin p + 1) = e - 1 /\ 2 <= fin p + 1.
Proof using All.
  pose proof e_cases as (EC & _ & _ & _ & Z). clear - EC Z NS. unfold fin, ts_last. destruct (N.eqb_spec e 8) as [E|E].
  - assert (N0 = 10) as Z1 by lia. rewrite Z1 in *. replace ((n + p * 10 + 1 - 2) mod 10 =? 0) with false by lia. lia.
  - split; [reflexivity|]. lia.
Qed.
Lemma fin_slots p t l : t < e -> lo p + 1 + p * N0 <= l <= 1 + p * N0 + N0 ->
  two_sided e stride t l = mkEst true p (l - 1 - p * N0 - (l - 1 - p * N0 - lo p) mod stride) [slot_at e t (fin p + 1) 0; slot_at e t (fin p + 1) 1].
Proof using All.
  intros T L. pose proof e_cases as (EC & _ & _ & _ & Z).
  assert (SP : stage_of e l = p).
  { clear - Z L. unfold stage_of, lo in *. destruct (N.eqb_spec p 0); destruct Z as [(Z & _)|(Z & _)]; rewrite Z in *; lia. }
  assert (LT : latest e t (fin p + 1) = p + 1 /\ first_symbol t < fin p + 1).
  { clear - EC Z NS T. unfold latest, fin, first_symbol. destruct (N.eqb_spec e 8) as [E|E], (N.ltb_spec t 4); destruct Z as [(Z & Z1)|(Z & Z1)]; rewrite Z in *; try lia; rewrite NS; lia. }
  unfold two_sided, place_of. rewrite SP. fold (lo p). destruct LT as (LT & LF). unfold slot_at. rewrite LT. replace (first_symbol t <? fin p + 1) with true by (clear - LF; lia).
  destruct (off_next t p) as (O1 & O2). rewrite O1. change ((p + t mod 4 / 2) mod 2) with (off t p). replace (p + 1 =? 0) with false by (clear; lia).
  replace (p + 1 - 1) with p by (clear; lia).
  set (o := off t p) in *. clearbody o. f_equal. clear - O2. destruct (N.eqb_spec o 0) as [->|].
  - reflexivity.
  - assert (o = 1) as -> by lia. reflexivity.
Qed.

Definition in_gather (p : N) (q : N) (l : N) (s : rx) : Prop :=
  base (Sf l) l s /\ rx_rel s = l - shift p /\ rx_ps s = p /\ rx_lr s = true /\ ctls s /\ progress q s /\ rx_idx s = l /\
  forall r, lo p <= r < l - shift p -> at_idx (rx_rows s) r = Ok (Some (r + shift p)).
Lemma shift_lo p : lo p + 1 + p * N0 <= lo p + shift p.
Proof using All. clear. unfold shift, lo. destruct (p =? 0), (_ && _); lia. Qed.
Lemma gather_step p q l s : ce < l -> lo p + shift p <= l <= fin p -> in_gather p q l s -> exists s', gather c s l = Ok s' /\ in_gather p q (l + 1) s'.
Proof using All.
  intros LC L (BA & R & P & LR & CT & PG & IX & RW). pose proof e_cases as (EC & _ & E3 & CE & Z).
  assert (RB : l - shift p < n).
  { clear - NS EC Z L. unfold fin, shift, lo in *. destruct (N.eqb_spec e 8), (N.ltb_spec 0 p), (N.eqb_spec p 0); cbn [andb] in *; destruct Z as [(Z & Z1)|(Z & Z1)]; rewrite Z in *; lia. }
  destruct (hear b e n M Sf B E0 EM ST false l s) as (s1 & H1 & H2 & (G1 & G2 & G3 & G4 & G5 & G6 & G7 & G8 & G9) & H4 & H5 & H6).
  - clear - CE LC. lia.
  - exact BA.
  - rewrite R. exact RB.
  - discriminate.
  - intros _. left. exact LR.
  - intros t T A. rewrite R, P. unfold active in A. apply andb_prop in A as (A1 & A2).
    assert (4 <= t -> e = 8) by (clear - EC T; lia).
    clear - LC L A1 A2 EC E3 CE Z NS H. unfold fin, shift, lo, first_symbol in *.
    destruct (N.ltb_spec t 4), (N.eqb_spec e 8), (N.ltb_spec 0 p), (N.eqb_spec p 0); cbn [andb] in *; try lia;
    destruct Z as [(Z & Z1)|(Z & Z1)]; rewrite Z in *; try lia;
    match goal with |- _ = if ?a <=? ?b then _ else _ => destruct (N.leb_spec a b) end; try lia.
  - rewrite idle1 in H2 by (try (clear - LC; lia); apply control_after; auto).
    unfold gather. cbn [c_e].
    replace (do s0 <- collect s; do s1 <- references false e l s0; _) with
      (do s1 <- (do s0 <- collect s; references false e l s0) ; Ok (set_place (l + 1) (rx_rel s1 + 1) (rx_ps s1) (rx_lr s1) s1))
      by (destruct (collect s); reflexivity).
    rewrite H1. cbn [bind]. eexists. split; [reflexivity|]. unfold in_gather. cbn [set_place rx_rel rx_ps rx_lr rx_idx rx_rows].
    pose proof (shift_lo p) as SL.
    split; [exact H2|]. split; [rewrite G2, R; clear - SL L; lia|]. split; [congruence|]. split; [congruence|].
    split; [unfold ctls in *; cbn [set_place rx_pcc rx_control]; rewrite G5, G8; exact CT|].
    split; [unfold progress in *; cbn [set_place rx_subc rx_bits rx_data]; rewrite G6, G7, G9; exact PG|]. split; [reflexivity|].
    intros r RR. rewrite H4, R. destruct (N.eq_dec r (l - shift p)) as [->|NE].
    + rewrite at_upd_same by (destruct BA as (_ & _ & _ & -> & _); exact RB). do 2 f_equal. clear - L. lia.
    + rewrite at_upd_other by congruence. apply RW. clear - RR NE. lia.
Qed.

Definition in_revisit (p r : N) (s : rx) : Prop :=
  base (Sf (fin p + 1)) (fin p + 1) s /\ rx_ps s = p /\ rx_lr s = true /\ ctls s /\ progress (1 + p * N0 + r) s /\ rx_idx s = fin p + 1 /\
  (forall r, lo p <= r <= N0 -> at_idx (rx_rows s) r = Ok (Some (r + shift p))) /\
  (lo p < r -> forall t, t < e -> est_of s t = Some (two_sided e stride t (1 + p * N0 + (r - 1)))).
Lemma revisit_step p r s : p < F -> lo p <= r <= N0 -> in_revisit p r s -> exists s', revisit c (1 + p * N0) (lo p) s r = Ok s' /\ in_revisit p (r + 1) s'.
Proof using All.
  intros PF RR (BA & P & LR & CT & PG & IX & RW & ES). pose proof e_cases as (EC & _ & E3 & CE & Z).
  set (L := 1 + p * N0 + r). fold L in PG.
  unfold revisit. unfold point. cbn [set_place rx_rows]. assert (RN : r < len (rx_rows s)).
  { destruct BA as (_ & _ & _ & -> & _). rewrite NS. clear - RR. destruct (e =? 8); lia. }
  replace (r <? len (rx_rows s)) with true by (clear - RN; lia). cbn [guard bind].
  set (s0 := set_rows _ _ r _). cbn [c_stride]. fold L.
  assert (BS : base (Sf (fin p + 1)) (fin p + 1) s0) by exact BA.
  assert (I : exists s1, (if (r - lo p) mod stride =? 0 then ch_interpolation s0 else Ok s0) = Ok s1 /\ base (Sf (fin p + 1)) (fin p + 1) s1 /\ frame s0 s1 /\
    rx_rows s1 = rx_rows s0 /\ rx_now s1 = rx_now s0 /\ forall t, t < e -> est_of s1 t = Some (two_sided e stride t L)).
  { destruct (N.eqb_spec ((r - lo p) mod stride) 0) as [M0|M0].
    - destruct (fin_last p) as (FL & F2). destruct (interp_ok _ _ s0 BS F2 FL LR) as (s1 & A1 & A2 & A3 & A4 & A5 & A6). exists s1. repeat (split; [assumption|]).
      intros t T. rewrite A6 by exact T. rewrite (fin_slots p t L) by (auto; unfold L; clear - RR; lia).
      replace (L - 1 - p * N0) with r by (unfold L; clear; lia). rewrite M0, N.sub_0_r. do 2 f_equal. exact P.
    - exists s0. split; [reflexivity|]. split; [exact BS|]. split; [repeat split|]. split; [reflexivity|]. split; [reflexivity|].
      assert (LR0 : lo p < r). { destruct (N.eq_dec r (lo p)) as [E|]; [|clear - RR n0; lia]. exfalso. apply M0. rewrite E, N.sub_diag. apply N.mod_0_l. clear - S1. lia. }
      intros t T. change (est_of s0 t) with (est_of s t). rewrite (ES LR0) by exact T.
      rewrite !(fin_slots p t) by (auto; unfold L; clear - RR LR0; lia). do 2 f_equal. unfold L.
      replace (1 + p * N0 + (r - 1) - 1 - p * N0) with (r - 1) by (clear - LR0; lia). replace (1 + p * N0 + r - 1 - p * N0) with r by (clear; lia).
      pose proof (mod_next (r - lo p - 1) stride S1) as MN. replace (r - lo p - 1 + 1) with (r - lo p) in MN by (clear - LR0; lia).
      replace (r - 1 - lo p) with (r - lo p - 1) by (clear; lia).
      pose proof (N.mod_le (r - lo p - 1) stride ltac:(clear - S1; lia)) as ML.
      destruct (_ =? stride) in MN; [congruence|]. rewrite MN. clear - ML LR0. set (x := _ mod _) in *. clearbody x. lia. }
  destruct I as (s1 & -> & BS1 & (G1 & G2 & G3 & G4 & G5 & G6 & G7 & G8 & G9) & R1 & R2 & ES1). cbn [bind].
  pose proof BS1 as (B1 & _ & _ & _ & _ & B6 & _). destruct (static1 (fin p + 1) ltac:(clear; lia)) as (Q1 & Q2).
  assert (PFN : p * N0 + N0 <= F * N0) by (rewrite <- (N.mul_1_l N0) at 2; rewrite <- N.mul_add_distr_r; apply N.mul_le_mono_r; clear - PF; lia).
  rewrite (data1 L s1); [| unfold L; clear; lia | rewrite B1; exact Q1 | rewrite B1; exact Q2 | | rewrite B6; exact EM |].
  - eexists. split; [reflexivity|]. unfold in_revisit. cbn [set_data rx_ps rx_lr rx_idx rx_rows].
    split; [exact BS1|]. split; [rewrite G3; exact P|]. split; [rewrite G4; exact LR|].
    split; [unfold ctls in *; cbn [set_data rx_pcc rx_control]; rewrite G5, G8; exact CT|].
    split; [unfold progress; cbn [set_data rx_subc rx_bits rx_data]; replace (1 + p * N0 + (r + 1)) with (L + 1) by (unfold L; clear; lia); replace (L + 1 - 1) with L by (clear; lia); auto|].
    split; [rewrite G1; exact IX|]. split; [rewrite R1; exact RW|].
    intros _ t T. replace (r + 1 - 1) with r by (clear; lia). exact (ES1 t T).
  - unfold progress in *. rewrite G6, G7, G9. exact PG.
  - intros _. split.
    + rewrite R1, R2. change (at_idx (rx_rows s0) (rx_now s0)) with (at_idx (rx_rows s) r). rewrite RW by exact RR. do 2 f_equal.
      unfold taken_for. rewrite DB. cbn [andb]. unfold shift, L in *. clear - RR PFN Z EC PF. unfold lo in *.
      destruct (N.eqb_spec e 8) as [E|E]; cbn [andb]; [|clear; lia]. assert (Z1 : N0 = 10) by (clear - Z E; lia). rewrite Z1 in *.
      destruct (N.ltb_spec 0 p), (N.eqb_spec p 0); try lia; destruct (N.leb_spec 12 (1 + p * 10 + r)), (N.leb_spec (1 + p * 10 + r) (1 + F * 10)); cbn [andb]; lia.
    + intros t T. rewrite ES1 by exact T. rewrite double. do 2 f_equal. unfold L. clear - RR PFN. lia.
Qed.

(** [p] stages are done. *)
Definition done (p : N) (s : rx) : Prop :=
  base (Sf (n + (p - 1) * N0 + 1)) (n + (p - 1) * N0 + 1) s /\ rx_rel s = 0 /\ rx_ps s = p /\ rx_lr s = true /\ ctls s /\ progress (2 + p * N0) s /\
  rx_idx s = n + (p - 1) * N0 + 1 /\ forall t, t < e -> est_of s t = Some (two_sided e stride t (1 + p * N0)).
Lemma stage_rest p q l s : p < F -> ce < l -> lo p + shift p <= l <= fin p -> q = 1 + p * N0 + lo p -> in_gather p q l s ->
  exists s', (do s <- foldM (gather c) s (nseq l (N.to_nat (fin p + 1 - l))) ;
              do s <- foldM (revisit c (1 + p * N0) (lo p)) s (nseq (lo p) (N.to_nat (N0 + 1 - lo p))) ;
              Ok (set_place (rx_idx s) 0 (p + 1) (rx_lr s) s)) = Ok s' /\ done (p + 1) s'.
Proof using All.
  intros PF LC L -> G. pose proof e_cases as (EC & _ & E3 & CE & Z). pose proof (shift_lo p) as SL.
  destruct (foldM_ind (gather c) (in_gather p (1 + p * N0 + lo p)) l (N.to_nat (fin p + 1 - l)) s G) as (s1 & A1 & A2).
  { intros x y X Y. apply gather_step; [clear - X LC; lia| clear - X L; lia|exact Y]. }
  rewrite A1. cbn [bind]. replace (l + N.of_nat (N.to_nat (fin p + 1 - l))) with (fin p + 1) in A2 by (clear - L; lia).
  destruct A2 as (A2 & _ & A3 & A4 & A5 & A6 & A7 & A8).
  assert (L1 : lo p <= 1) by (clear; unfold lo; destruct (p =? 0); lia).
  destruct (foldM_ind (revisit c (1 + p * N0) (lo p)) (in_revisit p) (lo p) (N.to_nat (N0 + 1 - lo p)) s1) as (s2 & C1 & C2).
  { unfold in_revisit. repeat (split; [assumption|]). split; [|clear; intros; lia]. intros r R. apply A8.
    clear - R NS EC Z. unfold fin, shift, lo in *. destruct (N.eqb_spec e 8), (N.ltb_spec 0 p), (N.eqb_spec p 0); cbn [andb] in *; destruct Z as [(Z & Z1)|(Z & Z1)]; rewrite Z in *; lia. }
  { intros x y X Y. apply revisit_step; [exact PF|clear - X L1; lia|exact Y]. }
  rewrite C1. cbn [bind]. replace (lo p + N.of_nat (N.to_nat (N0 + 1 - lo p))) with (N0 + 1) in C2 by (clear - L1; lia).
  destruct C2 as (C2 & C3 & C4 & C5 & C6 & C7 & C8 & C9).
  eexists. split; [reflexivity|]. unfold done. cbn [set_place rx_rel rx_ps rx_lr rx_idx]. replace (p + 1 - 1) with p by (clear; lia). fold (fin p).
  split; [exact C2|]. split; [reflexivity|]. split; [reflexivity|]. split; [exact C4|]. split; [exact C5|].
  split; [replace (2 + (p + 1) * N0) with (1 + p * N0 + (N0 + 1)) by (clear; lia); exact C6|]. split; [exact C7|].
  intros t T. replace (1 + (p + 1) * N0) with (1 + p * N0 + (N0 + 1 - 1)) by (clear; lia). apply C9; [|exact T].
  clear - L1 Z. destruct Z as [(Z & _)|(Z & _)]; rewrite Z; lia.
Qed.
Lemma first_stage s : in_control b e n M Sf (ce + 1) s -> exists s', full_stage c n N0 (set_place (rx_idx s) (rx_rel s) (rx_ps s) true s) = Ok s' /\ done 1 s'.
Proof using All.
  intros (BA & R & P & LR & K & CT & D1 & D2 & D3 & IX & RW). pose proof e_cases as (EC & _ & E3 & CE & Z). destruct IX as (IX & NW); [clear - CE; lia|].
  unfold full_stage. cbn [set_place rx_ps rx_idx rx_lr]. rewrite P, IX. change (0 <? 0) with false. change (0 =? 0) with true. cbv iota. cbn [set_place rx_idx].
  change (0 * N0) with 0. change (n + 0) with (n + 0 * N0). fold (fin 0).
  apply (stage_rest 0 1 (ce + 1)); auto.
  - clear; lia.
  - clear - CE NS Z EC. unfold lo, shift, fin. change (0 =? 0) with true. change (0 <? 0) with false. rewrite andb_false_r.
    destruct (N.eqb_spec e 8); destruct Z as [(Z & Z1)|(Z & Z1)]; rewrite Z in *; lia.
  - unfold in_gather, shift, progress. change (0 <? 0) with false. rewrite andb_false_r. replace (0 * N0 + 1) with 1 by (clear; lia).
    cbn [set_place rx_rel rx_ps rx_lr rx_idx rx_rows rx_subc rx_bits rx_data].
    split; [exact BA|]. split; [exact R|]. split; [reflexivity|]. split; [reflexivity|]. split; [exact (ctl_end s CT)|].
    split; [rewrite D1, D2, D3, before_1; auto|]. split; [reflexivity|]. intros r RR. apply RW. clear - RR; lia.
Qed.
Lemma next_stage p s : 0 < p < F -> done p s -> exists s', full_stage c n N0 s = Ok s' /\ done (p + 1) s'.
Proof using All.
  intros PF (BA & R & P & LR & CT & PG & IX & ES). pose proof e_cases as (EC & _ & E3 & CE & Z).
  unfold full_stage. rewrite P. replace (0 <? p) with true by (clear - PF; lia). cbn [set_place rx_idx].
  replace (if p =? 0 then 0 else 1) with (lo p) by reflexivity. fold (fin p).
  assert (LP : lo p = 1) by (clear - PF; unfold lo; destruct (N.eqb_spec p 0); lia).
  assert (SH : rx_idx s = lo p + shift p).
  { rewrite IX, LP. clear - NS PF EC Z. unfold shift. replace (0 <? p) with true by lia. rewrite andb_true_r.
    destruct (N.eqb_spec e 8); destruct Z as [(Z & Z1)|(Z & Z1)]; rewrite Z in *; lia. }
  assert (C4 : ce < rx_idx s).
  { rewrite SH, LP. clear - CE PF Z. unfold shift. destruct (_ && _); destruct Z as [(Z & Z1)|(Z & Z1)]; rewrite Z in *; lia. }
  apply (stage_rest p (2 + p * N0) (rx_idx s)); auto.
  - apply PF.
  - rewrite SH at 2. split; [clear - SH; lia|]. rewrite LP. clear - NS PF EC Z. unfold shift, fin. replace (0 <? p) with true by lia. rewrite andb_true_r.
    destruct (N.eqb_spec e 8); destruct Z as [(Z & Z1)|(Z & Z1)]; rewrite Z in *; lia.
  - rewrite LP. clear; lia.
  - unfold in_gather. cbn [set_place rx_rel rx_ps rx_lr rx_idx rx_rows].
    split; [rewrite IX; exact BA|]. split; [rewrite SH, LP; clear; lia|]. split; [reflexivity|]. split; [exact LR|]. split; [exact CT|].
    split; [exact PG|]. split; [reflexivity|]. intros r RR. exfalso. rewrite SH in RR. clear - RR. lia.
Qed.
Lemma stages_done m : forall p s, 0 < p -> p + N.of_nat m <= F -> done p s -> exists s', full_stages c n N0 m s = Ok s' /\ done (p + N.of_nat m) s'.
Proof using All.
  induction m as [|m IH]; intros p s P0 PM D; cbn [full_stages].
  - exists s. split; [reflexivity|]. replace (p + N.of_nat 0) with p by (clear; lia). exact D.
  - destruct (next_stage p s) as (s1 & A1 & A2); [clear - P0 PM; lia|exact D|]. rewrite A1. cbn [bind].
    destruct (IH (p + 1) s1) as (s' & C1 & C2); [clear; lia|clear - PM; lia|exact A2|]. exists s'. split; [exact C1|].
    replace (p + N.of_nat (S m)) with (p + 1 + N.of_nat m) by (clear; lia). exact C2.
Qed.

(** What comes after the last stage. *)
Definition start : N := n + (F - 1) * N0 + 1.
Definition in_tail (l : N) (s : rx) : Prop :=
  base (Sf l) l s /\ rx_rel s = l - start /\ rx_lr s = false /\ ctls s /\ progress l s /\ forall t, t < e -> est_of s t = Some (two_sided e stride t (1 + F * N0)).
Lemma start_at : start = F * N0 + (if e =? 8 then 3 else 2).
Proof using All.
  unfold start. rewrite NS. clear - F1. set (x := F) in *. clearbody x. set (y := N0). clearbody y.
  replace ((x - 1) * y) with (x * y - y) by (rewrite N.mul_sub_distr_r; lia). assert (y <= x * y) by (rewrite <- (N.mul_1_l y) at 1; apply N.mul_le_mono_r; lia).
  destruct (e =? 8); lia.
Qed.
Lemma tail_idle l : start <= l <= df -> active_streams e l = [].
Proof using All.
  intros L. rewrite start_at in L. pose proof full_range as (R1 & R2 & R3). pose proof e_cases as (EC & E4 & E3 & CE & Z).
  rewrite active_list by (auto; clear - L; destruct (e =? 8); lia). clear - L R1 R2 R3 EC Z. set (x := F) in *. clearbody x.
  destruct (N.eqb_spec e 8) as [E|E]; destruct Z as [(Z & Z1)|(Z & Z1)]; rewrite Z in *; destruct (N.leb_spec e 4); try lia;
    try (replace ((l - 1) mod _ =? 0) with false by lia; reflexivity).
  replace ((l - 1) mod 10 =? 0) with false by lia. replace ((l - 1) mod 10 =? 1) with false by lia. reflexivity.
Qed.
Lemma tail_step l s : start <= l <= df -> in_tail l s -> exists s', last_symbols c s l = Ok s' /\ in_tail (l + 1) s'.
Proof using All.
  intros L (BA & R & LR & CT & PG & ES). pose proof e_cases as (EC & E4 & E3 & CE & Z). pose proof (tail_idle l L) as TI.
  assert (NA : forall t, t < e -> active e t l = false).
  { intros t T. destruct (active e t l) eqn:X; [|reflexivity]. exfalso. assert (In t []) as []. rewrite <- TI. apply active_in. auto. }
  pose proof full_range as (R1 & R2 & R3). pose proof start_at as SA.
  assert (NF : N0 <= F * N0) by (rewrite <- (N.mul_1_l N0) at 1; apply N.mul_le_mono_r; clear - F1; lia).
  assert (LC : ce < l). { clear - CE SA L NF Z. destruct (e =? 8); destruct Z as [(Z & Z1)|(Z & Z1)]; rewrite Z in *; lia. }
  assert (RB : rx_rel s + 1 < N0). { rewrite R, SA. clear - SA L R2. destruct (e =? 8); lia. }
  destruct (hear b e n M Sf B E0 EM ST true l s) as (s1 & H1 & H2 & (G1 & G2 & G3 & G4 & G5 & G6 & G7 & G8 & G9) & H4 & H5 & H6).
  - clear - CE LC. lia.
  - exact BA.
  - clear - RB NL. lia.
  - intros _. exact LR.
  - congruence.
  - intros t T A. rewrite NA in A by exact T. discriminate.
  - rewrite idle1 in H2 by (try (clear - LC; lia); apply control_after; auto).
    pose proof H2 as (B1 & _ & _ & _ & _ & B6 & _). destruct (static1 (l + 1) ltac:(clear; lia)) as (Q1 & Q2).
    unfold last_symbols. cbn [c_e].
    replace (do s0 <- collect s; do s1 <- references true e l s0; _) with
      (do s1 <- (do s0 <- collect s; references true e l s0) ; do s <- data_cells_of c l s1 ;
       let rel := rx_rel s + 1 in
       Ok (if rel =? drs_N_step e then set_place (l + 1) 0 (rx_ps s + 1) (rx_lr s) s else set_place (l + 1) rel (rx_ps s) (rx_lr s) s))
      by (destruct (collect s); reflexivity).
    rewrite H1. cbn [bind].
    assert (ES1 : forall t, t < e -> est_of s1 t = Some (two_sided e stride t (1 + F * N0))).
    { intros t T. rewrite H6, NA by exact T. cbn [andb]. apply ES. exact T. }
    assert (LF : 1 + F * N0 < l) by (clear - SA L; destruct (e =? 8); lia).
    rewrite (data1 l s1); [| clear - LC; lia | rewrite B1; exact Q1 | rewrite B1; exact Q2 | | rewrite B6; exact EM |].
    + cbn [bind]. eexists. split; [reflexivity|]. cbn [set_data rx_rel rx_ps rx_lr]. change (drs_N_step e) with N0. rewrite G2.
      replace (rx_rel s + 1 =? N0) with false by (clear - RB; lia). unfold in_tail. cbn [set_place set_data rx_rel rx_lr].
      split; [exact H2|]. split; [rewrite R; clear - L; lia|]. split; [rewrite G4; exact LR|].
      split; [unfold ctls in *; cbn [set_place set_data rx_pcc rx_control]; rewrite G5, G8; exact CT|].
      split; [unfold progress; cbn [set_place set_data rx_subc rx_bits rx_data]; replace (l + 1 - 1) with l by (clear; lia); auto|]. exact ES1.
    + unfold progress in *. rewrite G6, G7, G9. exact PG.
    + intros _. split.
      * rewrite H4, H5. replace (taken_for e both df l) with l; [apply at_upd_same; destruct BA as (_ & _ & _ & -> & _); clear - RB NL; lia|].
        unfold taken_for. destruct (N.eqb_spec e 8) as [E|E]; [|rewrite andb_false_r; reflexivity].
        assert (N0 = 10) as Z1 by (clear - Z E; lia). rewrite Z1 in LF. replace (l <=? 1 + F * 10) with false by (clear - LF; lia). rewrite andb_false_r. reflexivity.
      * intros t T. rewrite double. rewrite ES1 by exact T. do 2 f_equal. clear - LF. lia.
Qed.
Lemma double_field s : in_control b e n M Sf (ce + 1) s -> stage_len e = Ok n -> sub32 df (n - N0) / N0 = F ->
  exists s', (do s <- mode_lr_t c df s ; mode_lr_f c df s) = Ok s' /\ base (Sf (df + 1)) (df + 1) s' /\ ctls s' /\ progress (df + 1) s'.
Proof using All.
  intros IC SLn FE. pose proof e_cases as (EC & E4 & E3 & CE & Z). pose proof full_range as (R1 & R2 & R3). pose proof start_at as SA.
  unfold mode_lr_t. cbn [c_e]. rewrite SLn. cbn [bind]. change (drs_N_step e) with N0. rewrite FE. replace (F =? 0) with false by (clear - F1; lia).
  assert (P : rx_ps s = 0) by apply IC. replace (F - rx_ps s) with F by (rewrite P; clear; lia).
  destruct (first_stage s IC) as (s1 & A1 & A2).
  replace (N.to_nat F) with (S (N.to_nat (F - 1))) by (clear - F1; lia). cbn [full_stages]. rewrite A1. cbn [bind].
  destruct (stages_done (N.to_nat (F - 1)) 1 s1) as (s2 & C1 & C2); [clear; lia|clear - F1; lia|exact A2|]. rewrite C1. cbn [bind].
  replace (1 + N.of_nat (N.to_nat (F - 1))) with F in C2 by (clear - F1; lia). destruct C2 as (C2 & C3 & C4 & C5 & C6 & C7 & C8 & C9). fold start in C2, C8.
  unfold mode_lr_f. cbn [set_place rx_ps rx_idx rx_lr]. rewrite C4. replace (F =? 0) with false by (clear - F1; lia). cbn [bind set_place rx_idx]. rewrite C8.
  assert (PG : progress start s2).
  { rewrite SA. destruct (N.eqb_spec e 8) as [E|E]; [|replace (F * N0 + 2) with (2 + F * N0) by (clear; lia); exact C7].
    assert (Z1 : N0 = 10) by (clear - Z E; lia). assert (D : data b e (2 + F * N0) = []).
    { pose proof (facts_all b e (2 + F * N0) B E0 ltac:(clear; lia)) as FA. pose proof (f_free _ _ _ FA) as FF. pose proof (f_parts _ _ _ FA) as FP.
      rewrite active_count in FF by (auto; clear; lia). replace (e <=? 2) with false in FF by (clear - E; lia). replace (e =? 4) with false in FF by (clear - E; lia). rewrite Z1 in FF.
      replace ((2 + F * 10 - 1) mod 10 =? 0) with false in FF by (clear; lia). replace ((2 + F * 10 - 1) mod 10 =? 1) with true in FF by (clear; lia). rewrite Z1 in FP.
      rewrite Z1. destruct (data b e (2 + F * 10)); [reflexivity|]. exfalso. unfold len in FP, FF. cbn [length] in FP. clear - FP FF. lia. }
    destruct C7 as (D1 & D2 & D3). unfold progress. replace (F * N0 + 3) with (2 + F * N0 + 1) by (clear; lia).
    rewrite before_next by (clear; lia). rewrite D. change (len (@nil N)) with 0. rewrite N.add_0_r. split; [exact D1|]. split; [exact D2|].
    replace (2 + F * N0 + 1 - 1) with (2 + F * N0) by (clear; lia). rewrite flat_snoc by (clear; lia). rewrite D3. unfold found at 3. rewrite D.
    change (number_from _ []) with (@nil (N * N)). cbn [map]. rewrite app_nil_r. reflexivity. }
  assert (SD : start <= df + 1) by (rewrite SA; clear - R1; destruct (e =? 8); lia).
  destruct (foldM_ind (last_symbols c) in_tail start (N.to_nat (df + 1 - start)) (set_place start (rx_rel s2) F false s2)) as (s3 & G1 & G2).
  { unfold in_tail. cbn [set_place rx_rel rx_lr]. split; [exact C2|]. split; [rewrite C3; clear; lia|]. split; [reflexivity|]. split; [exact C6|]. split; [exact PG|]. exact C9. }
  { intros l x L I. apply tail_step; [clear - L; lia|exact I]. }
  exists s3. split; [exact G1|]. replace (start + N.of_nat (N.to_nat (df + 1 - start))) with (df + 1) in G2 by (clear - SD; lia).
  destruct G2 as (G2 & _ & _ & G3 & G4 & _). auto.
Qed.
End Double.
End Stages.
