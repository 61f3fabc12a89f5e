(** Lemmas about the application server. *)
From Verif Require Import Base ApplicationServer ApplicationServerSpec.
From Verif Require DatagramQueue DatagramQueueSpec DatagramQueueFacts.

Lemma as_map_upd {A B} (f : A -> B) l i x : map f (upd l i x) = upd (map f l) i (f x).
Proof. revert i; induction l as [|a l IH]; intros [|i]; cbn [upd map]; auto. rewrite IH. reflexivity. Qed.
Lemma as_Forall_upd {A} (P : A -> Prop) l i x : Forall P l -> P x -> Forall P (upd l i x).
Proof. intros H Hx; revert i; induction H; intros [|i]; cbn [upd]; auto. Qed.

Lemma upd_same_nth {A} (l : list A) i d : upd l i (nth i l d) = l.
Proof. revert i; induction l as [|a l IH]; intros [|i]; cbn [upd nth]; auto. rewrite IH. reflexivity. Qed.

Record Rel (vnic : bool) (sz : DatagramQueue.queue_size) (prot : Z) (n : nat) (s : server) (w : list (list (list N))) (m : Z) : Prop := {
  r_vnic : sv_vnic s = vnic;
  r_prot : sv_protect s = prot;
  r_mark : sv_mark s = m;
  r_local : length (sv_local s) = 1600;
  r_len : length (sv_queues s) = n;
  r_inv : Forall (fun q => DatagramQueueFacts.Inv q /\ DatagramQueue.q_size q = sz) (sv_queues s);
  r_abs : map DatagramQueueFacts.abs (sv_queues s) = w }.

Lemma read_datagram_length local a b n : length local = 1600 -> read_datagram local a = (b, n) -> length b = 1600.
Proof.
  intros Hl. destruct a as [|d]; cbn [read_datagram]; intros E; inversion E; subst; [exact Hl|].
  rewrite app_length, firstn_length, skipn_length, Hl. unfold buffer_byte. lia.
Qed.
Lemma read_datagram_taken local a b n : length local = 1600 -> read_datagram local a = (b, n) ->
  Z.to_nat n = length (taken a) /\ firstn (Z.to_nat n) b = taken a /\ Z.to_nat n <= length b
  /\ ((0 <? n)%Z = (0 <? length (taken a))).
Proof.
  intros Hl. destruct a as [|d]; cbn [read_datagram taken]; intros E; inversion E; subst; clear E; [cbn; repeat split; lia|].
  rewrite Nat2Z.id. unfold buffer_byte. rewrite firstn_length. rewrite (Nat.min_comm 1600).
  set (k := Nat.min (length d) 1600).
  assert (Hk : length (firstn k d) = k) by (rewrite firstn_length; lia).
  assert (E : firstn 1600 d = firstn k d).
  { destruct (Nat.le_ge_cases (length d) 1600).
    - rewrite firstn_all2 by lia. unfold k. rewrite firstn_all2 by lia. reflexivity.
    - unfold k. rewrite Nat.min_r by lia. reflexivity. }
  repeat split; auto.
  - rewrite firstn_app, Hk, Nat.sub_diag. cbn [firstn]. rewrite app_nil_r, firstn_firstn, Nat.min_id. symmetry. exact E.
  - rewrite app_length, Hk. lia.
  - destruct (Z.ltb_spec 0 (Z.of_nat k)); destruct (Nat.ltb_spec 0 k); lia.
Qed.
Lemma passes_filter vnic local a b n : length local = 1600 -> read_datagram local a = (b, n) ->
  exists keep, filter_ingress_datagram vnic b = Ok keep
    /\ passes vnic (taken a) = (keep && (0 <? length (taken a))).
Proof.
  intros Hl E. pose proof (read_datagram_length _ _ _ _ Hl E) as Hb.
  destruct (read_datagram_taken _ _ _ _ Hl E) as (Hn & Ht & _ & _).
  unfold filter_ingress_datagram, get_ip_version, rd. destruct b as [|x b]; [cbn in Hb; lia|]. cbn [nth_error bind].
  destruct vnic.
  - exists (x / 16 =? 4)%N. split; [reflexivity|]. rewrite <- Ht. rewrite Hn. destruct (length (taken a)) as [|k] eqn:Ek.
    + cbn [firstn passes length]. rewrite andb_false_r. reflexivity.
    + cbn [firstn passes length]. change (0 <? S k) with true || idtac.
      destruct (N.eqb_spec (x / 16) 4); destruct (N.leb_spec 64 x); destruct (N.leb_spec x 79); cbn; try lia; reflexivity.
  - exists true. split; [reflexivity|]. destruct (taken a); reflexivity.
Qed.

Lemma nth_map_abs qs i q : nth_error qs i = Some q -> nth i (map DatagramQueueFacts.abs qs) [] = DatagramQueueFacts.abs q.
Proof. intros H. apply nth_error_nth. rewrite nth_error_map, H. reflexivity. Qed.

Definition corresponds {A} (vnic : bool) (sz : DatagramQueue.queue_size) (prot : Z) (n : nat)
  (x : res (list (list (list N)) * Z * A)) (y : res (server * A)) : Prop :=
  match x with
  | Ok (w, m, o) => exists s, y = Ok (s, o) /\ Rel vnic sz prot n s w m
  | Abort => y = Abort
  | Throw => y = Throw
  | Oob => False
  end.

Lemma step_corresponds vnic sz prot n s w m e :
  Rel vnic sz prot n s w m -> of_connection n e ->
  corresponds vnic sz prot n (abstract_step vnic (DatagramQueue.N_datagram sz - 1) (DatagramQueue.N_datagram_max_byte sz) prot (w, m) e) (step s e).
Proof.
  intros [Hv Hp Hm Hl Hlen Hinv Habs] He. destruct e as [i a t t' slot|i want locked].
  - cbn [of_connection] in He. cbn [abstract_step step]. unfold ingress.
    destruct (read_datagram (sv_local s) a) as [b k] eqn:Er.
    destruct (read_datagram_taken _ _ _ _ Hl Er) as (Hk & Ht & Hkb & Hpos).
    pose proof (read_datagram_length _ _ _ _ Hl Er) as Hb.
    cbn [with_local sv_vnic sv_queues sv_protect sv_mark sv_jobs sv_local].
    destruct (passes_filter (sv_vnic s) _ _ _ _ Hl Er) as (keep & Hf & Hpass). rewrite Hf. cbn [bind].
    rewrite Hv in Hpass. rewrite Hpass.
    assert (Hrel : Rel vnic sz prot n (with_local s b) w m) by (constructor; cbn; auto).
    destruct keep; cbn [andb negb].
    2: { cbn [corresponds bind]. eexists; split; [reflexivity|exact Hrel]. }
    rewrite Hpos. destruct (Nat.ltb_spec 0 (length (taken a))); cbn [andb].
    2: { cbn [corresponds bind]. eexists; split; [reflexivity|exact Hrel]. }
    assert (Hq : exists q, nth_error (sv_queues s) i = Some q).
    { destruct (nth_error (sv_queues s) i) eqn:En; [eauto|]. apply nth_error_None in En. lia. }
    destruct Hq as (q & Hq). unfold rd. rewrite Hq. cbn [bind].
    pose proof Hinv as Hall. rewrite Forall_forall in Hall. destruct (Hall q) as (HIq & Hsz); [eapply nth_error_In; eauto|].
    assert (En : nth i w [] = DatagramQueueFacts.abs q) by (rewrite <- Habs; apply nth_map_abs; exact Hq). rewrite En.
    pose proof (DatagramQueueFacts.write_refines q b (Z.to_nat k) HIq Hkb) as W. cbn [DatagramQueueSpec.spec_step] in W.
    rewrite Hsz in W.
    destruct (Nat.leb_spec (DatagramQueue.N_datagram sz - 1) (length (DatagramQueueFacts.abs q))); destruct (Nat.ltb_spec (length (DatagramQueueFacts.abs q)) (DatagramQueue.N_datagram sz - 1)); try lia; cbn [andb].
    + destruct W as (q' & Ew & HIq' & Eabs & Esz). rewrite Ew. cbn [bind]. replace (0 <? 0) with false by reflexivity.
      cbn [corresponds bind]. eexists; split; [reflexivity|]. constructor; cbn; auto.
      * rewrite upd_length. exact Hlen.
      * apply as_Forall_upd; [exact Hinv|split; [exact HIq'|congruence]].
      * rewrite as_map_upd, Eabs, Habs. rewrite <- En. apply upd_same_nth.
    + rewrite Hk in W. destruct (Nat.ltb_spec (DatagramQueue.N_datagram_max_byte sz) (length (taken a))).
      * rewrite Hk, W. reflexivity.
      * destruct W as (q' & Ew & HIq' & Eabs & Esz). rewrite Hk, Ew. cbn [bind].
        destruct (Nat.ltb_spec 0 (length (taken a))); [|lia].
        unfold enqueue_job_nto. cbn [with_queue with_local sv_protect sv_mark sv_vnic sv_queues sv_local sv_jobs].
        rewrite Hp, Hm. rewrite Hk in Ht. rewrite Ht in Eabs.
        destruct (prot <=? t - m)%Z; cbn [corresponds bind]; eexists; (split; [reflexivity|]); constructor; cbn; auto.
        all: try (rewrite upd_length; exact Hlen).
        all: try (apply as_Forall_upd; [exact Hinv|split; [exact HIq'|congruence]]).
        all: rewrite as_map_upd, Eabs, Habs; reflexivity.
  - cbn [abstract_step step]. unfold read_nto, guard. rewrite Hv.
    destruct vnic; cbn [negb orb andb]; [destruct (Nat.eqb_spec i 0); cbn [negb]; [|reflexivity]|].
    all: rewrite <- Habs, map_length, Hlen.
    all: destruct (nth_error (sv_queues s) i) as [q|] eqn:Hq.
    all: [> | | |].
    all: try (apply nth_error_None in Hq; destruct (Nat.leb_spec n i); [reflexivity|lia]).
    all: assert (i < n) by (rewrite <- Hlen; apply nth_error_Some; congruence); destruct (Nat.leb_spec n i); [lia|].
    all: pose proof Hinv as Hall; rewrite Forall_forall in Hall; destruct (Hall q) as (HIq & Hsz); [eapply nth_error_In; eauto|].
    all: rewrite (nth_map_abs _ _ _ Hq).
    all: destruct locked; [|cbn [corresponds bind]; eexists; split; [reflexivity|constructor; auto]].
    all: pose proof (DatagramQueueFacts.read_refines q want HIq) as W; cbn [DatagramQueueSpec.spec_step] in W.
    all: destruct (DatagramQueueFacts.abs q) as [|d l] eqn:Ea; destruct W as (q' & Ew & HIq' & Eabs & Esz); rewrite Ew; cbn [corresponds bind].
    all: eexists; (split; [reflexivity|]); constructor; cbn; auto.
    all: try (rewrite upd_length; exact Hlen).
    all: try (apply as_Forall_upd; [exact Hinv|split; [exact HIq'|congruence]]).
    all: rewrite as_map_upd, Eabs; try reflexivity.
    all: rewrite <- Ea, <- (nth_map_abs _ _ _ Hq); apply upd_same_nth.
Qed.

Lemma run_corresponds vnic sz prot n es : forall s w m,
  Rel vnic sz prot n s w m -> Forall (of_connection n) es ->
  corresponds vnic sz prot n (abstract_run vnic (DatagramQueue.N_datagram sz - 1) (DatagramQueue.N_datagram_max_byte sz) prot (w, m) es) (run s es).
Proof.
  induction es as [|e es IH]; intros s w m HR Hes.
  - cbn. eexists; split; [reflexivity|exact HR].
  - inversion Hes as [|? ? He Hes']; subst. cbn [abstract_run run].
    pose proof (step_corresponds _ _ _ _ _ _ _ _ HR He) as Hs.
    destruct (abstract_step _ _ _ _ _ _) as [[[w1 m1] o]| | |]; cbn [corresponds] in Hs; try (rewrite Hs; reflexivity); [|contradiction].
    destruct Hs as (s1 & E1 & HR1). rewrite E1. cbn [bind].
    specialize (IH s1 w1 m1 HR1 Hes').
    destruct (abstract_run _ _ _ _ _ _) as [[[w2 m2] os]| | |]; cbn [corresponds] in IH; try (rewrite IH; reflexivity); [|contradiction].
    destruct IH as (s2 & E2 & HR2). rewrite E2. cbn [bind corresponds]. eauto.
Qed.

Lemma new_rel vnic n sz fill prot t0 s : server_new vnic n sz fill prot t0 = Ok s ->
  Rel vnic sz prot (if vnic then 1 else n) s (repeat [] (if vnic then 1 else n)) t0
  /\ 0 < DatagramQueue.N_datagram sz /\ sv_jobs s = [].
Proof.
  unfold server_new, guard. destruct (0 <? _) eqn:E0; [|discriminate]. destruct (_ <=? max_connections); [|discriminate].
  destruct (DatagramQueue.queue_size_is_valid sz) eqn:Ev; [|discriminate]. intros E; inversion E; subst; clear E.
  destruct (DatagramQueueFacts.inv_new sz fill Ev) as (HI & Ha).
  split; [|split; [exact (proj1 HI)|reflexivity]].
  constructor; cbn [sv_vnic sv_protect sv_mark sv_local sv_queues]; auto; try apply repeat_length.
  - apply Forall_forall. intros q Hq. apply repeat_spec in Hq. subst q. split; [exact HI|reflexivity].
  - generalize (if vnic then 1 else n). induction n0 as [|k IH]; [reflexivity|]. cbn [repeat map]. rewrite IH, Ha. reflexivity.
Qed.

(** *** The abstract machine *)
Lemma taken_pos vnic a : passes vnic (taken a) = true -> 0 < length (taken a).
Proof. destruct (taken a); cbn [passes length]; [discriminate|lia]. Qed.

Lemma abs_arrive vnic cap maxb prot w m i a t t' slot w' m' o :
  abstract_step vnic cap maxb prot (w, m) (Arrive i a t t' slot) = Ok (w', m', o) ->
  (w' = upd w i (nth i w [] ++ [taken a]) /\ 0 < length (taken a) /\ length (taken a) <= maxb /\ length (nth i w []) < cap
    /\ passes vnic (taken a) = true
    /\ o = Kept (length (taken a)) (prot <=? t - m)%Z /\ m' = if (prot <=? t - m)%Z then t' else m)
  \/ (w' = w /\ m' = m /\ o = Kept 0 false /\ passes vnic (taken a) && (length (nth i w []) <? cap) = false).
Proof.
  cbn [abstract_step]. destruct (passes vnic (taken a) && (length (nth i w []) <? cap)) eqn:Ep.
  - apply andb_prop in Ep. destruct Ep as [Ep El]. destruct (Nat.ltb_spec maxb (length (taken a))); [discriminate|].
    intros E; inversion E; subst. left. apply taken_pos in Ep as Hp. apply Nat.ltb_lt in El. repeat split; auto.
  - intros E; inversion E; subst. right. auto.
Qed.
Lemma abs_read vnic cap maxb prot w m i want locked w' m' o :
  abstract_step vnic cap maxb prot (w, m) (Read i want locked) = Ok (w', m', o) ->
  i < length w /\ m' = m
  /\ ((exists d l, nth i w [] = d :: l /\ w' = upd w i l /\ o = Got (length d) (if want then d else []))
      \/ (w' = w /\ o = Got 0 [])).
Proof.
  cbn [abstract_step]. destruct (vnic && negb (i =? 0)); [discriminate|]. destruct (Nat.leb_spec (length w) i); [discriminate|].
  destruct locked; [destruct (nth i w []) as [|d l] eqn:En|]; intros E; inversion E; subst; repeat split; auto; try lia.
  left. eauto.
Qed.

Definition solid (cap : nat) (l : list (list N)) : Prop := length l <= cap /\ Forall (fun d => 0 < length d) l.

Lemma solid_nth cap w i : Forall (solid cap) w -> solid cap (nth i w []).
Proof.
  intros H. destruct (Nat.ltb_spec i (length w)).
  - rewrite Forall_forall in H. apply H. apply nth_In. exact H0.
  - rewrite nth_overflow by lia. split; [cbn; lia|constructor].
Qed.
Lemma abs_step_solid vnic cap maxb prot w m e w' m' o :
  Forall (solid cap) w -> abstract_step vnic cap maxb prot (w, m) e = Ok (w', m', o) ->
  Forall (solid cap) w' /\ length w' = length w.
Proof.
  intros Hw E. destruct e as [i a t t' slot|i want locked].
  - apply abs_arrive in E. destruct E as [(-> & Hp & _ & Hl & _ & _ & _)|(-> & _)]; [|auto].
    split; [|apply upd_length]. apply as_Forall_upd; [exact Hw|].
    destruct (solid_nth cap w i Hw) as [H1 H2]. split; [rewrite app_length; cbn [length]; lia|].
    apply Forall_app. split; [exact H2|]. constructor; [exact Hp|constructor].
  - apply abs_read in E. destruct E as (_ & _ & [(d & l & En & -> & _)|(-> & _)]); [|auto].
    split; [|apply upd_length]. apply as_Forall_upd; [exact Hw|].
    destruct (solid_nth cap w i Hw) as [H1 H2]. rewrite En in H1, H2. inversion H2; subst.
    split; [cbn [length] in H1; lia|assumption].
Qed.
Lemma abs_run_cons vnic cap maxb prot w m e es w' m' os :
  abstract_run vnic cap maxb prot (w, m) (e :: es) = Ok (w', m', os) ->
  exists w1 m1 o os', abstract_step vnic cap maxb prot (w, m) e = Ok (w1, m1, o)
    /\ abstract_run vnic cap maxb prot (w1, m1) es = Ok (w', m', os') /\ os = o :: os'.
Proof.
  cbn [abstract_run]. destruct (abstract_step _ _ _ _ _ _) as [[[w1 m1] o]| | |]; cbn [bind]; try discriminate.
  destruct (abstract_run _ _ _ _ (w1, m1) es) as [[[w2 m2] os']| | |] eqn:Er; cbn [bind]; try discriminate.
  intros E; inversion E; subst. exists w1, m1, o, os'. auto.
Qed.

Lemma abs_order vnic cap maxb prot es : forall w m w' m' os,
  Forall (solid cap) w -> Forall (plain (length w)) es -> abstract_run vnic cap maxb prot (w, m) es = Ok (w', m', os) ->
  Forall (solid cap) w' /\ length os = length es
  /\ forall i, nth i w [] ++ accepted i es os = delivered i es os ++ nth i w' [].
Proof.
  induction es as [|e es IH]; intros w m w' m' os Hw Hp E.
  - cbn in E. inversion E; subst. repeat split; auto. intros i. cbn [accepted delivered]. rewrite app_nil_r. reflexivity.
  - apply abs_run_cons in E. destruct E as (w1 & m1 & o & os' & E1 & E2 & ->).
    inversion Hp as [|? ? He Hes]; subst.
    destruct (abs_step_solid _ _ _ _ _ _ _ _ _ _ Hw E1) as [Hw1 Hl1].
    rewrite <- Hl1 in Hes. destruct (IH _ _ _ _ _ Hw1 Hes E2) as (H1 & H2 & H3).
    split; [exact H1|split; [cbn [length]; lia|]]. intros i. specialize (H3 i).
    destruct e as [j a t t' slot|j want locked].
    + cbn [plain] in He. apply abs_arrive in E1.
      destruct E1 as [(-> & Hpos & _ & _ & _ & -> & _)|(-> & _ & -> & _)]; cbn [accepted delivered].
      * destruct (Nat.ltb_spec 0 (length (taken a))); [|lia]. rewrite andb_true_r.
        destruct (Nat.eqb_spec j i) as [->|Hne].
        -- rewrite nth_upd_same in H3 by exact He. rewrite <- app_assoc in H3. exact H3.
        -- rewrite nth_upd_other in H3 by exact Hne. exact H3.
      * cbn. rewrite andb_false_r. exact H3.
    + cbn [plain] in He. subst want. apply abs_read in E1.
      destruct E1 as (Hj & _ & [(d & l & En & -> & ->)|(-> & ->)]); cbn [accepted delivered].
      * destruct (solid_nth cap w j Hw) as [_ Hs]. rewrite En in Hs. inversion Hs; subst.
        destruct (Nat.ltb_spec 0 (length d)); [|lia]. rewrite andb_true_r.
        destruct (Nat.eqb_spec j i) as [->|Hne].
        -- rewrite nth_upd_same in H3 by exact Hj. rewrite En. cbn [app]. rewrite H3. reflexivity.
        -- rewrite nth_upd_other in H3 by exact Hne. exact H3.
      * cbn. rewrite andb_false_r. exact H3.
Qed.

Lemma abs_mark_lower vnic cap maxb prot es : forall w m c w' m' os,
  (m <= c)%Z -> clock_from c es -> abstract_run vnic cap maxb prot (w, m) es = Ok (w', m', os) ->
  forall k e o, nth_error es k = Some e -> nth_error os k = Some o -> has_job o = true -> (m + prot <= time_in e)%Z.
Proof.
  induction es as [|e es IH]; intros w m c w' m' os Hm Hc E k e0 o0 He Ho Hj; [destruct k; discriminate|].
  apply abs_run_cons in E. destruct E as (w1 & m1 & o & os' & E1 & E2 & ->).
  destruct e as [i a t t' slot|i want locked]; cbn [clock_from] in Hc.
  - destruct Hc as [Ht Hc]. apply abs_arrive in E1.
    destruct k as [|k]; cbn [nth_error] in He, Ho.
    + inversion He; inversion Ho; subst. cbn [time_in].
      destruct E1 as [(_ & _ & _ & _ & _ & -> & _)|(_ & _ & -> & _)]; cbn [has_job] in Hj; [apply Z.leb_le in Hj; lia|discriminate].
    + assert (m <= m1 <= t')%Z.
      { destruct E1 as [(_ & _ & _ & _ & _ & _ & ->)|(_ & -> & _)]; [destruct (prot <=? t - m)%Z|]; lia. }
      pose proof (IH w1 m1 t' w' m' os' ltac:(lia) Hc E2 k e0 o0 He Ho Hj). lia.
  - apply abs_read in E1. destruct E1 as (_ & -> & Hd).
    destruct k as [|k]; cbn [nth_error] in He, Ho.
    + inversion Ho; subst. destruct Hd as [(d & l & _ & _ & ->)|(_ & ->)]; discriminate.
    + exact (IH w1 m c w' m' os' Hm Hc E2 k e0 o0 He Ho Hj).
Qed.

Lemma abs_spaced vnic cap maxb prot es : forall w m c w' m' os,
  (m <= c)%Z -> clock_from c es -> abstract_run vnic cap maxb prot (w, m) es = Ok (w', m', os) ->
  forall j k e1 e2 o1 o2, j < k -> nth_error es j = Some e1 -> nth_error os j = Some o1 -> has_job o1 = true ->
    nth_error es k = Some e2 -> nth_error os k = Some o2 -> has_job o2 = true -> (time_out e1 + prot <= time_in e2)%Z.
Proof.
  induction es as [|e es IH]; intros w m c w' m' os Hm Hc E j k e1 e2 o1 o2 Hjk He1 Ho1 Hj1 He2 Ho2 Hj2; [destruct j; discriminate|].
  apply abs_run_cons in E. destruct E as (w1 & m1 & o & os' & E1 & E2 & ->).
  destruct k as [|k]; [lia|]. cbn [nth_error] in He2, Ho2.
  destruct e as [i a t t' slot|i want locked]; cbn [clock_from] in Hc.
  - destruct Hc as [Ht Hc]. apply abs_arrive in E1.
    assert (m <= m1 <= t')%Z.
    { destruct E1 as [(_ & _ & _ & _ & _ & _ & ->)|(_ & -> & _)]; [destruct (prot <=? t - m)%Z|]; lia. }
    destruct j as [|j]; cbn [nth_error] in He1, Ho1.
    + inversion He1; inversion Ho1; subst. cbn [time_out].
      destruct E1 as [(_ & _ & _ & _ & _ & -> & ->)|(_ & _ & -> & _)]; cbn [has_job] in Hj1; [|discriminate].
      rewrite Hj1 in E2, H. exact (abs_mark_lower _ _ _ _ _ _ _ t' _ _ _ (Z.le_refl t') Hc E2 k e2 o2 He2 Ho2 Hj2).
    + refine (IH w1 m1 t' w' m' os' _ Hc E2 j k e1 e2 o1 o2 _ He1 Ho1 Hj1 He2 Ho2 Hj2); lia.
  - apply abs_read in E1. destruct E1 as (_ & -> & Hd).
    destruct j as [|j]; cbn [nth_error] in He1, Ho1.
    + inversion Ho1; subst. destruct Hd as [(d & l & _ & _ & ->)|(_ & ->)]; discriminate.
    + refine (IH w1 m c w' m' os' Hm Hc E2 j k e1 e2 o1 o2 _ He1 Ho1 Hj1 He2 Ho2 Hj2); lia.
Qed.

Lemma abs_covered vnic cap maxb prot es : forall w m w' m' os,
  abstract_run vnic cap maxb prot (w, m) es = Ok (w', m', os) ->
  forall k e o, nth_error es k = Some e -> nth_error os k = Some o -> is_kept o = true -> has_job o = false ->
    (time_in e < m + prot)%Z
    \/ exists j e1 o1, j < k /\ nth_error es j = Some e1 /\ nth_error os j = Some o1 /\ has_job o1 = true
         /\ (time_in e < time_out e1 + prot)%Z.
Proof.
  induction es as [|e es IH]; intros w m w' m' os E k e0 o0 He Ho Hk Hj; [destruct k; discriminate|].
  apply abs_run_cons in E. destruct E as (w1 & m1 & o & os' & E1 & E2 & ->).
  destruct k as [|k]; cbn [nth_error] in He, Ho.
  - inversion He; inversion Ho; subst. left. destruct e0 as [i a t t' slot|i want locked].
    + apply abs_arrive in E1. destruct E1 as [(_ & _ & _ & _ & _ & -> & _)|(_ & _ & -> & _)]; [|discriminate].
      cbn [has_job] in Hj. cbn [time_in]. apply Z.leb_gt in Hj. lia.
    + apply abs_read in E1. destruct E1 as (_ & _ & [(d & l & _ & _ & ->)|(_ & ->)]); discriminate.
  - destruct (IH w1 m1 w' m' os' E2 k e0 o0 He Ho Hk Hj) as [H|(j & e1 & o1 & H1 & H2 & H3 & H4 & H5)].
    2: { right. exists (S j), e1, o1. repeat split; auto. lia. }
    destruct e as [i a t t' slot|i want locked].
    + apply abs_arrive in E1. destruct E1 as [(_ & _ & _ & _ & _ & -> & ->)|(_ & -> & _)]; [|left; exact H].
      destruct (prot <=? t - m)%Z eqn:Ej; [|left; exact H].
      right. exists 0, (Arrive i a t t' slot), (Kept (length (taken a)) true). repeat split; auto. lia.
    + apply abs_read in E1. destruct E1 as (_ & -> & _). left. exact H.
Qed.

Lemma abs_kept_about vnic cap maxb prot es : forall w m w' m' os,
  abstract_run vnic cap maxb prot (w, m) es = Ok (w', m', os) ->
  forall k n j, nth_error os k = Some (Kept n j) -> 0 < n \/ j = true ->
    exists i a t t' slot, nth_error es k = Some (Arrive i a t t' slot) /\ n = length (taken a) /\ 0 < n
      /\ passes vnic (taken a) = true.
Proof.
  induction es as [|e es IH]; intros w m w' m' os E k n j Ho Hn.
  - cbn in E. inversion E; subst. destruct k; discriminate.
  - apply abs_run_cons in E. destruct E as (w1 & m1 & o & os' & E1 & E2 & ->).
    destruct k as [|k]; cbn [nth_error] in *; [|eapply IH; eauto].
    inversion Ho; subst. destruct e as [i a t t' slot|i want locked].
    + apply abs_arrive in E1. destruct E1 as [(_ & Hp & _ & _ & Hpass & E & _)|(_ & _ & E & _)]; inversion E; subst.
      * exists i, a, t, t', slot. auto.
      * destruct Hn; [lia|discriminate].
    + apply abs_read in E1. destruct E1 as (_ & _ & [(d & l & _ & _ & E)|(_ & E)]); discriminate.
Qed.

(** *** The jobs *)
Lemma run_cons s e es s' os : run s (e :: es) = Ok (s', os) ->
  exists s1 o os', step s e = Ok (s1, o) /\ run s1 es = Ok (s', os') /\ os = o :: os'.
Proof.
  cbn [run]. destruct (step s e) as [[s1 o]| | |]; cbn [bind]; try discriminate.
  destruct (run s1 es) as [[s2 os']| | |] eqn:Er; cbn [bind]; try discriminate. intros E; inversion E; subst.
  exists s1, o, os'. auto.
Qed.
Lemma step_jobs s e s' o : step s e = Ok (s', o) -> sv_jobs s' = sv_jobs s ++ jobs [e] [o].
Proof.
  destruct e as [i a t t' slot|i want locked]; cbn [step].
  - unfold ingress. destruct (read_datagram (sv_local s) a) as [b n].
    destruct (filter_ingress_datagram _ b) as [keep| | |]; cbn [bind]; try discriminate.
    destruct keep; cbn [negb].
    2: { cbn [bind]. intros E; inversion E; subst. cbn [with_local sv_jobs jobs]. destruct slot; rewrite app_nil_r; reflexivity. }
    destruct (0 <? n)%Z.
    2: { cbn [bind]. intros E; inversion E; subst. cbn [with_local sv_jobs jobs]. destruct slot; rewrite app_nil_r; reflexivity. }
    destruct (rd _ i) as [q| | |]; cbn [bind]; try discriminate.
    destruct (DatagramQueue.write_under_lock q b (Z.to_nat n)) as [[q' w]| | |]; cbn [bind]; try discriminate.
    destruct (0 <? w).
    + unfold enqueue_job_nto. destruct (_ <=? _)%Z; cbn [bind]; intros E; inversion E; subst; cbn [with_queue with_local sv_jobs jobs];
        destruct slot; rewrite ?app_nil_r; reflexivity.
    + cbn [bind]. intros E; inversion E; subst. cbn [with_queue with_local sv_jobs jobs]. destruct slot; rewrite app_nil_r; reflexivity.
  - unfold read_nto, guard. destruct (_ || _); [|discriminate]. destruct (nth_error _ i) as [q|]; [|discriminate].
    destruct locked; [destruct (DatagramQueue.read_under_lock q want) as [[[q' n] d]| | |]; cbn [bind]; try discriminate|cbn [bind]];
      intros E; inversion E; subst; cbn [with_queue sv_jobs jobs]; rewrite app_nil_r; reflexivity.
Qed.
Lemma jobs_cons e o es os : jobs (e :: es) (o :: os) = jobs [e] [o] ++ jobs es os.
Proof. destruct e as [i a t t' [|]|i want locked]; cbn [jobs]; destruct o as [n [|]|n d]; reflexivity. Qed.
Lemma run_jobs es : forall s s' os, run s es = Ok (s', os) -> sv_jobs s' = sv_jobs s ++ jobs es os.
Proof.
  induction es as [|e es IH]; intros s s' os E.
  - cbn in E. inversion E; subst. cbn [jobs]. rewrite app_nil_r. reflexivity.
  - apply run_cons in E. destruct E as (s1 & o & os' & E1 & E2 & ->).
    rewrite (IH _ _ _ E2), (step_jobs _ _ _ _ E1), (jobs_cons e o es os'), app_assoc. reflexivity.
Qed.
Lemma run_app es1 : forall es2 s s' os, run s es1 = Ok (s', os) ->
  run s (es1 ++ es2) = do (s2, os2) <- run s' es2 ; Ok (s2, os ++ os2).
Proof.
  induction es1 as [|e es1 IH]; intros es2 s s' os E.
  - cbn in E. inversion E; subst. cbn [app]. destruct (run s' es2) as [[s2 os2]| | |]; reflexivity.
  - apply run_cons in E. destruct E as (s1 & o & os' & E1 & E2 & ->). cbn [app run]. rewrite E1. cbn [bind].
    rewrite (IH es2 _ _ _ E2). destruct (run s' es2) as [[s2 os2]| | |]; reflexivity.
Qed.
