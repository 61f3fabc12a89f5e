From Coq Require Import Permutation.
From Verif Require Import Base TxBuffers TxBuffersSpec.
Open Scope nat_scope.

Lemma nth_upd_case {X} (l : list X) j i y : nth_error (upd l j y) i =
  if j =? i then match nth_error l j with Some _ => Some y | None => None end else nth_error l i.
Proof.
  destruct (Nat.eqb_spec j i) as [->|H].
  - destruct (nth_error l i) eqn:E.
    + apply nth_error_upd_same. apply nth_error_Some. congruence.
    + apply nth_error_None. rewrite upd_length. apply nth_error_None. exact E.
  - apply nth_error_upd_other. exact H.
Qed.

Inductive gst := GFree | GFill (f : nat) | GLive (o : option nat) (j : job).
Definition owner (x : gst) : option nat :=
  match x with GFree => None | GFill f => Some f | GLive o _ => o end.
Definition pkt (j : job) : meta * list N := (j_meta j, j_samples j).
Definition live (x : gst) : list (meta * list N) := match x with GLive _ j => [pkt j] | _ => [] end.

Definition jlen (j : job) : nat := length (j_samples j).
Definition prefix_ok (b : buf) (j : job) : Prop :=
  firstn (b_cnt b) (b_mem b) = firstn (b_cnt b) (j_samples j) /\ b_cnt b <= jlen j.

Definition BI (max : nat) (b : buf) (x : gst) : Prop :=
  length (b_mem b) = max /\
  match x with
  | GFree => b_outer b = false /\ b_inner b = false /\ b_cnt b = 0
  | GFill _ => b_outer b = true /\ b_inner b = false
  | GLive o j => b_outer b = true /\ b_inner b = true /\ b_meta b = j_meta j /\ b_len b = jlen j /\ 0 < jlen j <= max /\
      prefix_ok b j /\ (o = None -> b_cnt b = jlen j) /\ (o <> None -> b_cnt b < jlen j)
  end.

Fixpoint tailok (len : nat) (cs : list nat) : Prop :=
  match cs with
  | [] => True
  | c :: t => match t with [] => c = len | _ => c < len /\ tailok len t end
  end.

Definition progress (b : buf) (j : job) (rest : list nat) : Prop :=
  prefix_ok b j /\ tailok (jlen j) rest /\ (rest = [] -> b_cnt b = jlen j) /\ (rest <> [] -> b_cnt b < jlen j).

Definition FI (max : nat) (bs : list buf) (g : list gst) (f : nat) (st : filler) : Prop :=
  match st with
  | FIdle => True
  | FScan _ j => valid_job max j
  | FGot i j => valid_job max j /\ exists b, nth_error bs i = Some b /\ nth_error g i = Some (GFill f) /\ b_cnt b = 0
  | FPre i j cs => valid_job max j /\ exists b, nth_error bs i = Some b /\ nth_error g i = Some (GFill f) /\
      b_len b = jlen j /\ progress b j (cs ++ j_post j)
  | FMeta i j => valid_job max j /\ exists b, nth_error bs i = Some b /\ nth_error g i = Some (GFill f) /\
      b_len b = jlen j /\ progress b j (j_post j) /\ b_meta b = j_meta j
  | FPost i j cs => valid_job max j /\ exists b, nth_error bs i = Some b /\ nth_error g i = Some (GLive (Some f) j) /\
      tailok (jlen j) cs /\ cs <> []
  end.

Fixpoint expect (e : Z) (l : list meta) : Z :=
  match l with
  | [] => e
  | m :: t => expect (advance e m) t
  end.

Definition filler_job (st : filler) : option job :=
  match st with FIdle => None | FScan _ j | FGot _ j | FPre _ j _ | FMeta _ j | FPost _ j _ => Some j end.

Record Inv (good : bool) (s : sys) (g : list gst) : Prop := {
  iv_len : length g = length (bufs s);
  iv_b : forall i b x, nth_error (bufs s) i = Some b -> nth_error g i = Some x -> BI (max_len s) b x;
  iv_f : forall f st, nth_error (fillers s) f = Some st -> FI (max_len s) (bufs s) g f st;
  iv_tx : match tx s with
          | TScan _ _ => True
          | TSend e i done => exists o j, nth_error g i = Some (GLive o j) /\ tx_order_id (j_meta j) = e /\
              done = firstn (length done) (j_samples j) /\ (length done = jlen j -> o = None)
          | TRead _ i => i < length (bufs s) /\ simulator s = true
          end;
  iv_perm : Permutation (map pkt (announced s)) (sent s ++ flat_map live g);
  iv_next : good = true -> simulator s = true ->
            (forall i b, nth_error (bufs s) i = Some b -> (tx_order_id_expect_next (b_meta b) < 0)%Z) /\
            (forall f st j, nth_error (fillers s) f = Some st -> filler_job st = Some j -> no_override j);
  iv_ord : good = true -> in_order 0 (map fst (sent s)) /\
           match tx s with
           | TScan e _ | TSend e _ _ => e = expect 0 (map fst (sent s))
           | TRead e _ => (e + 1)%Z = expect 0 (map fst (sent s))
           end }.

(** Lemmas about the pieces. *)
Lemma tailok_intro len init : Forall (fun c => c < len) init -> tailok len (init ++ [len]).
Proof.
  induction 1 as [|c t Hc Ht IH]; cbn; [reflexivity|]. destruct (t ++ [len]) eqn:E; [destruct t; discriminate|]. auto.
Qed.

Lemma valid_tail max j : valid_job max j -> tailok (jlen j) (j_pre j ++ j_post j) /\ j_pre j ++ j_post j <> [] /\ 0 < jlen j <= max.
Proof.
  intros (L & init & E & F). rewrite E. split; [apply tailok_intro; exact F|]. split; [destruct init; discriminate|exact L].
Qed.

Lemma tailok_tl len c t : tailok len (c :: t) -> tailok len t /\ (t = [] -> c = len) /\ (t <> [] -> c < len).
Proof. destruct t; cbn; intros H; [repeat split; auto; congruence|]. destruct H. repeat split; auto; congruence. Qed.

Lemma fi_other max bs g f st i b' x' x : FI max bs g f st -> nth_error g i = Some x -> owner x <> Some f ->
  FI max (upd bs i b') (upd g i x') f st.
Proof.
  intros H Eg Ho. destruct st as [|k j|k j|k j cs|k j|k j cs]; cbn in *; auto; destruct H as (V & b & Eb & Eg' & R); (split; [exact V|]);
    (assert (i <> k) by (intros ->; rewrite Eg in Eg'; injection Eg' as ->; cbn in Ho; congruence));
    exists b; rewrite !nth_error_upd_other by assumption; auto.
Qed.

Lemma firstn_write (c : nat) (samples mem : list N) len : c <= len -> length samples = len -> len <= length mem ->
  length (firstn c samples ++ skipn c mem) = length mem /\
  firstn c (firstn c samples ++ skipn c mem) = firstn c samples.
Proof.
  intros Hc Hs Hm. split.
  - rewrite app_length, firstn_length, skipn_length. lia.
  - rewrite firstn_app, firstn_length, firstn_firstn.
    replace (Nat.min c c) with c by lia. replace (c - Nat.min c (length samples)) with 0 by lia. cbn. apply app_nil_r.
Qed.

Lemma set_cnt_ok b j c max rest : length (b_mem b) = max -> 0 < jlen j <= max -> tailok (jlen j) (c :: rest) ->
  exists b', set_cnt b (j_samples j) c max = Ok b' /\ b_outer b' = b_outer b /\ b_inner b' = b_inner b /\ b_len b' = b_len b /\
    b_meta b' = b_meta b /\ length (b_mem b') = max /\ progress b' j rest.
Proof.
  intros Hm HL Ht. apply tailok_tl in Ht. destruct Ht as (T1 & T2 & T3).
  assert (Hc : c <= jlen j) by (destruct rest; [rewrite T2 by reflexivity; lia|specialize (T3 ltac:(discriminate)); lia]).
  unfold set_cnt. destruct (Nat.ltb_spec (length (b_mem b)) c); [lia|]. destruct (Nat.leb_spec c max); [|lia]. cbn [guard].
  eexists; split; [reflexivity|]. cbn. destruct (firstn_write c (j_samples j) (b_mem b) (jlen j) Hc eq_refl ltac:(lia)) as (E1 & E2).
  repeat split; auto; try congruence.
Qed.

Lemma flat_map_upd_perm {A B} (F : A -> list B) (l : list A) i x y : nth_error l i = Some x ->
  Permutation (flat_map F (upd l i y) ++ F x) (flat_map F l ++ F y).
Proof.
  revert i; induction l as [|h t IH]; intros [|i] H; cbn in *; try discriminate.
  - injection H as ->. rewrite <- !app_assoc. etransitivity; [apply Permutation_app_comm|]. rewrite (app_assoc (F x)).
    apply Permutation_app_tail, Permutation_app_comm.
  - rewrite <- !app_assoc. apply Permutation_app_head. auto.
Qed.

Definition log_many (s : sys) (l : list job) : sys :=
  {| bufs := bufs s; max_len := max_len s; simulator := simulator s; fillers := fillers s; tx := tx s;
     announced := announced s ++ l; sent := sent s |}.

Lemma inv_fill good s g f st st' i b b' x x' ann : Inv good s g ->
  nth_error (fillers s) f = Some st -> nth_error (bufs s) i = Some b -> nth_error g i = Some x ->
  (forall f', f' <> f -> owner x <> Some f') ->
  BI (max_len s) b' x' -> FI (max_len s) (upd (bufs s) i b') (upd g i x') f st' ->
  live x' = live x ++ map pkt ann ->
  (forall o j, x = GLive o j -> exists o', x' = GLive o' j /\ (o = None -> o' = None)) ->
  (tx_order_id_expect_next (b_meta b') = tx_order_id_expect_next (b_meta b) \/
   exists j, filler_job st = Some j /\ b_meta b' = j_meta j) ->
  (forall j, filler_job st' = Some j -> filler_job st = Some j) ->
  Inv good (log_many (set_filler (set_buf s i b') f st') ann) (upd g i x').
Proof.
  intros [] Hf Hb Hg Hown HB HF Hlive Htx Hmeta Hjob. constructor; cbn [log_many set_filler set_buf bufs max_len simulator fillers tx announced sent].
  - rewrite !upd_length. exact iv_len0.
  - intros k b0 x0. rewrite !nth_upd_case, Hb, Hg. destruct (i =? k).
    + intros E1 E2. injection E1 as <-. injection E2 as <-. exact HB.
    + apply iv_b0.
  - intros f' st0. rewrite nth_upd_case, Hf. destruct (Nat.eqb_spec f f') as [<-|Hne].
    + intros E. injection E as <-. exact HF.
    + intros E. eapply fi_other; eauto.
  - destruct (tx s) as [e k|e k done|e k]; auto.
    + destruct iv_tx0 as (o & j & E1 & E2 & E3 & E4). rewrite nth_upd_case, Hg. destruct (Nat.eqb_spec i k) as [<-|Hne].
      * rewrite Hg in E1. injection E1 as ->. destruct (Htx o j eq_refl) as (o' & -> & Ho). exists o', j. repeat split; auto.
      * exists o, j. auto.
    + rewrite upd_length. exact iv_tx0.
  - rewrite map_app. etransitivity; [apply Permutation_app_tail, iv_perm0|]. rewrite <- app_assoc. apply Permutation_app_head.
    pose proof (flat_map_upd_perm live g i x x' Hg) as P. rewrite Hlive in P.
    apply (Permutation_app_inv_r (live x)). etransitivity; [|symmetry; exact P].
    rewrite <- app_assoc. apply Permutation_app_head, Permutation_app_comm.
  - intros Hgd Hsim. destruct (iv_next0 Hgd Hsim) as (N1 & N2). split.
    + intros k b0. rewrite nth_upd_case, Hb. destruct (i =? k); [|apply N1]. intros E. injection E as <-.
      destruct Hmeta as [->|(j & Ej & ->)]; [eapply N1; eauto|exact (N2 _ _ _ Hf Ej)].
    + intros f' st0 j. rewrite nth_upd_case, Hf. destruct (f =? f'); [|apply N2]. intros E Ej. injection E as <-. eauto.
  - exact iv_ord0.
Qed.

Lemma inv_state good s g f st st' : Inv good s g -> nth_error (fillers s) f = Some st ->
  FI (max_len s) (bufs s) g f st' -> (good = true -> simulator s = true -> forall j, filler_job st' = Some j -> filler_job st = Some j \/ no_override j) ->
  Inv good (set_filler s f st') g.
Proof.
  intros [] Hf HF Hjob. constructor; cbn [set_filler bufs max_len simulator fillers tx announced sent]; auto.
  - intros f' st0. rewrite nth_upd_case, Hf. destruct (Nat.eqb_spec f f') as [<-|Hne]; [|apply iv_f0].
    intros E. injection E as <-. exact HF.
  - intros Hgd Hsim. destruct (iv_next0 Hgd Hsim) as (N1 & N2). split; [exact N1|].
    intros f' st0 j. rewrite nth_upd_case, Hf. destruct (f =? f'); [|apply N2]. intros E Ej. injection E as <-.
    destruct (Hjob Hgd Hsim j Ej); eauto.
Qed.

Lemma log_many_nil s : log_many s [] = s.
Proof. destruct s; unfold log_many; cbn. rewrite app_nil_r. reflexivity. Qed.

Lemma ghost_at good s g i b : Inv good s g -> nth_error (bufs s) i = Some b -> exists x, nth_error g i = Some x.
Proof.
  intros [] H. destruct (nth_error g i) eqn:E; eauto. apply nth_error_None in E.
  assert (i < length (bufs s)) by (apply nth_error_Some; congruence). lia.
Qed.

Lemma Some_inj_other (f f' : nat) : f' <> f -> Some f <> Some f'.
Proof. congruence. Qed.

Lemma fill_step_inv good s g f : Inv good s g ->
  (exists s' g', fill_step s f = Ok s' /\ Inv good s' g' /\ max_len s' = max_len s /\ simulator s' = simulator s /\ length (bufs s') = length (bufs s)) \/
  (fill_step s f = Abort /\ exists j i, nth_error (fillers s) f = Some (FScan i j) /\ length (bufs s) <= i).
Proof.
  intros H. unfold fill_step. destruct (nth_error (fillers s) f) as [st|] eqn:Ef; [|left; exists s, g; auto].
  pose proof H as []. pose proof (iv_f0 f st Ef) as HFI.
  destruct st as [|i j|i j|i j cs|i j|i j cs]; [left; exists s, g; auto| | | | |].
  - destruct (nth_error (bufs s) i) as [b|] eqn:Eb.
    2:{ right. split; [reflexivity|]. exists j, i. split; [reflexivity|]. apply nth_error_None. exact Eb. }
    left. destruct (ghost_at _ _ _ _ _ H Eb) as (x & Ex). pose proof (iv_b0 _ _ _ Eb Ex) as HB.
    unfold try_lock_outer. destruct (b_outer b) eqn:Eo.
    + cbn [bind]. eexists _, g. split; [reflexivity|]. split; [|auto].
      eapply inv_state; eauto.
    + destruct HB as (HBl & HB). destruct x as [|f0|o j0]; [|destruct HB; congruence|destruct HB; congruence].
      destruct HB as (_ & Ei & Ec). rewrite Ei. cbn [negb guard bind].
      eexists _, (upd g i (GFill f)). split; [reflexivity|]. split; [|cbn; rewrite upd_length; auto].
      rewrite <- (log_many_nil (set_filler _ _ _)).
      eapply inv_fill; eauto; cbn; try discriminate; auto.
      * split; auto.
      * split; [exact HFI|]. eexists. rewrite !nth_error_upd_same; [|rewrite iv_len0|]; try (apply nth_error_Some; congruence).
        repeat split; auto.
  - destruct HFI as (V & b & Eb & Eg & Ec). left. unfold rd. rewrite Eb. cbn [bind].
    pose proof (iv_b0 _ _ _ Eb Eg) as (HBl & Ho & Hi). unfold get_ant_streams. rewrite Ho, Hi. cbn [negb andb guard].
    destruct (valid_tail _ _ V) as (T1 & T2 & T3). unfold jlen in T3. destruct (Nat.leb_spec (length (j_samples j)) (max_len s)); [|lia].
    cbn [guard bind]. eexists _, (upd g i (GFill f)). split; [reflexivity|]. split; [|cbn; rewrite upd_length; auto].
    rewrite <- (log_many_nil (set_filler _ _ _)).
    eapply inv_fill; eauto; cbn; try discriminate; auto.
    + intros f' Hne. apply Some_inj_other. exact Hne.
    + split; auto.
    + split; [exact V|]. eexists. rewrite !nth_error_upd_same; [|rewrite iv_len0|]; try (apply nth_error_Some; congruence).
      split; [reflexivity|]. split; [reflexivity|]. cbn. split; [reflexivity|]. unfold progress, prefix_ok; cbn. rewrite Ec.
      repeat split; auto; try lia; intros E; [contradiction|unfold jlen; lia].
  - destruct HFI as (V & b & Eb & Eg & El & Hp). left. destruct (valid_tail _ _ V) as (T1 & T2 & T3).
    pose proof (iv_b0 _ _ _ Eb Eg) as (HBl & Ho & Hi). destruct cs as [|c cs]; unfold rd; rewrite Eb; cbn [bind].
    + unfold set_meta. rewrite Ho, Hi. cbn [negb andb guard bind]. eexists _, (upd g i (GFill f)). split; [reflexivity|].
      split; [|cbn; rewrite upd_length; auto]. rewrite <- (log_many_nil (set_filler _ _ _)).
      eapply inv_fill; eauto; cbn; try discriminate; auto.
      * intros f' Hne. apply Some_inj_other. exact Hne.
      * split; auto.
      * split; [exact V|]. eexists. rewrite !nth_error_upd_same; [|rewrite iv_len0|]; try (apply nth_error_Some; congruence).
        repeat split; auto; apply Hp.
      * right. eauto.
    + destruct Hp as (P1 & P2 & _). cbn [app] in P2. destruct (set_cnt_ok b j c (max_len s) (cs ++ j_post j) HBl T3 P2) as (b' & E & R1 & R2 & R3 & R4 & R5 & R6).
      rewrite E. cbn [bind]. eexists _, (upd g i (GFill f)). split; [reflexivity|].
      split; [|cbn; rewrite upd_length; auto]. rewrite <- (log_many_nil (set_filler _ _ _)).
      eapply inv_fill; eauto; cbn; try discriminate; auto.
      * intros f' Hne. apply Some_inj_other. exact Hne.
      * split; [auto|]. split; congruence.
      * split; [exact V|]. exists b'. rewrite !nth_error_upd_same; [|rewrite iv_len0|]; try (apply nth_error_Some; congruence).
        repeat split; auto; try apply R6. congruence.
      * left. congruence.
  - destruct HFI as (V & b & Eb & Eg & El & Hp & Em). left. destruct (valid_tail _ _ V) as (T1 & T2 & T3).
    pose proof (iv_b0 _ _ _ Eb Eg) as (HBl & Ho & Hi). unfold rd; rewrite Eb; cbn [bind]. unfold lock_inner. rewrite Ho, Hi. cbn [negb guard bind].
    set (o := match j_post j with [] => None | _ => Some f end).
    eexists _, (upd g i (GLive o j)). split; [reflexivity|]. split; [|cbn; rewrite upd_length; auto].
    change (log_announced ?s1 j) with (log_many s1 [j]).
    eapply inv_fill; eauto; cbn; try discriminate; auto.
    + intros f' Hne. apply Some_inj_other. exact Hne.
    + split; [exact HBl|]. destruct Hp as (P1 & P2 & P3 & P4). repeat split; auto; try (apply P1); try lia; unfold o; destruct (j_post j); cbn; intros Q; try discriminate.
      * apply P3; reflexivity.
      * congruence.
      * apply P4; discriminate.
    + destruct (j_post j) as [|c cs] eqn:Ej; [exact I|]. split; [exact V|].
      eexists. rewrite !nth_error_upd_same; [|rewrite iv_len0|]; try (apply nth_error_Some; congruence).
      split; [reflexivity|]. split; [reflexivity|]. split; [apply Hp|discriminate].
    + intros j0. destruct (j_post j); cbn; [discriminate|auto].
  - destruct HFI as (V & b & Eb & Eg & Ht & Hne). left. destruct (valid_tail _ _ V) as (T1 & T2 & T3).
    destruct cs as [|c cs]; [contradiction|]. unfold rd; rewrite Eb; cbn [bind].
    pose proof (iv_b0 _ _ _ Eb Eg) as (HBl & B1 & B2 & B3 & B4 & B5 & B6 & B7 & B8).
    destruct (set_cnt_ok b j c (max_len s) cs HBl T3 Ht) as (b' & E & R1 & R2 & R3 & R4 & R5 & R6).
    rewrite E. cbn [bind]. set (o := match cs with [] => None | _ => Some f end).
    eexists _, (upd g i (GLive o j)). split; [reflexivity|]. split; [|cbn; rewrite upd_length; auto].
    rewrite <- (log_many_nil (set_filler _ _ _)).
    eapply inv_fill; eauto; cbn; try discriminate; auto.
    + intros f' Hn. apply Some_inj_other. exact Hn.
    + split; [exact R5|]. destruct R6 as (P1 & P2 & P3 & P4). repeat split; try congruence; try (apply P1); try lia; unfold o; destruct cs; cbn; intros Q; try discriminate.
      * apply P3; reflexivity.
      * congruence.
      * apply P4; discriminate.
    + destruct cs as [|c2 cs]; [exact I|]. split; [exact V|].
      eexists. rewrite !nth_error_upd_same; [|rewrite iv_len0|]; try (apply nth_error_Some; congruence).
      split; [reflexivity|]. split; [reflexivity|]. split; [apply R6|discriminate].
    + intros o0 j0 Q. injection Q as <- <-. exists o. split; [reflexivity|discriminate].
    + left. congruence.
    + intros j0. destruct cs; cbn; [discriminate|auto].
Qed.

Lemma expect_app l : forall e m, expect e (l ++ [m]) = advance (expect e l) m.
Proof. induction l as [|h t IH]; intros e m; cbn; auto. Qed.

Lemma advance_next e m : advance e m = if (0 <=? tx_order_id_expect_next m)%Z then tx_order_id_expect_next m else (e + 1)%Z.
Proof. unfold advance. destruct (Z.ltb_spec (tx_order_id_expect_next m) 0), (Z.leb_spec 0 (tx_order_id_expect_next m)); try lia; reflexivity. Qed.

Lemma in_order_app l : forall e m, in_order e l -> tx_order_id m = expect e l -> in_order e (l ++ [m]).
Proof.
  induction l as [|h t IH]; intros e m; cbn; [auto|]. intros (H1 & H2) H3. split; [exact H1|]. rewrite <- advance_next in *. auto.
Qed.

Lemma firstn_seg {A} (m : list A) a t : a <= t -> firstn a m ++ firstn (t - a) (skipn a m) = firstn t m.
Proof.
  intros H. rewrite firstn_skipn_comm. replace (a + (t - a)) with t by lia.
  rewrite <- (firstn_skipn a (firstn t m)) at 2. f_equal. rewrite firstn_firstn. f_equal. lia.
Qed.

Lemma tx_step_inv good s g c : Inv good s g ->
  exists s' g', tx_step s c = Ok s' /\ Inv good s' g' /\ max_len s' = max_len s /\ simulator s' = simulator s /\ length (bufs s') = length (bufs s).
Proof.
  intros H. pose proof H as []. unfold tx_step. destruct (tx s) as [e i|e i done|e i] eqn:Et.
  - destruct (nth_error (bufs s) i) as [b|] eqn:Eb.
    + destruct (b_inner b && (tx_order_id (b_meta b) =? e)%Z) eqn:Ec.
      * apply andb_prop in Ec. destruct Ec as (Ec1 & Ec2). apply Z.eqb_eq in Ec2.
        destruct (ghost_at _ _ _ _ _ H Eb) as (x & Ex). pose proof (iv_b0 _ _ _ Eb Ex) as (HBl & HB).
        destruct x as [|f0|o j]; [destruct HB as (_ & ? & _); congruence|destruct HB; congruence|].
        destruct HB as (B1 & B2 & B3 & B4 & B5 & B6 & B7 & B8).
        eexists _, g. split; [reflexivity|]. split; [|auto]. constructor; cbn; auto.
        exists o, j. repeat split; auto; try congruence. intros Z. lia.
      * eexists _, g. split; [reflexivity|]. split; [|auto]. constructor; cbn; auto.
    + eexists _, g. split; [reflexivity|]. split; [|auto]. constructor; cbn; auto.
  - destruct iv_tx0 as (o & j & Eg & Eo & Ed & Ef).
    assert (exists b, nth_error (bufs s) i = Some b) as (b & Eb).
    { destruct (nth_error (bufs s) i) eqn:E; eauto. apply nth_error_None in E.
      assert (i < length g) by (apply nth_error_Some; congruence). lia. }
    pose proof (iv_b0 _ _ _ Eb Eg) as (HBl & B1 & B2 & B3 & B4 & B5 & B6 & B7 & B8).
    unfold rd. rewrite Eb. cbn [bind]. destruct (Nat.eqb_spec (length done) (b_len b)) as [El|El].
    + specialize (Ef ltac:(congruence)). subst o. unfold set_transmitted. rewrite B1, B2. cbn [andb guard bind].
      assert (Hdone : done = j_samples j).
      { rewrite Ed, El, B4. unfold jlen. apply firstn_all. }
      eexists _, (upd g i GFree). split; [reflexivity|]. split; [|cbn; rewrite upd_length; auto].
      constructor; cbn [set_tx log_sent set_buf bufs max_len simulator fillers tx announced sent].
      * rewrite !upd_length. exact iv_len0.
      * intros k b0 x0. rewrite !nth_upd_case, Eb, Eg. destruct (i =? k); [|apply iv_b0].
        intros E1 E2. injection E1 as <-. injection E2 as <-. split; cbn; auto.
      * intros f st E. eapply fi_other; eauto. cbn. discriminate.
      * destruct (simulator s) eqn:Es; [|exact I]. rewrite upd_length. split; [apply nth_error_Some; congruence|reflexivity].
      * etransitivity; [exact iv_perm0|]. rewrite <- app_assoc. apply Permutation_app_head.
        pose proof (flat_map_upd_perm live g i _ GFree Eg) as P. cbn [live] in P. rewrite app_nil_r in P.
        rewrite Hdone. fold (pkt j). replace (b_meta b, j_samples j) with (pkt j) by (unfold pkt; congruence).
        etransitivity; [symmetry; exact P|]. apply Permutation_app_comm.
      * intros Hgd Hsim. destruct (iv_next0 Hgd Hsim) as (N1 & N2). split; [|exact N2].
        intros k b0. rewrite nth_upd_case, Eb. destruct (i =? k); [|apply N1]. intros E. injection E as <-. cbn. eauto.
      * intros Hgd. destruct (iv_ord0 Hgd) as (O1 & O2). rewrite map_app. cbn [map fst]. split.
        -- apply in_order_app; [exact O1|]. congruence.
        -- rewrite expect_app, <- O2. destruct (simulator s) eqn:Es; [|reflexivity].
           destruct (iv_next0 Hgd eq_refl) as (N1 & _). specialize (N1 _ _ Eb). unfold advance.
           destruct (Z.ltb_spec (tx_order_id_expect_next (b_meta b)) 0); [reflexivity|lia].
    + set (target := Nat.min (length done + S c) (b_len b)).
      destruct (Nat.leb_spec target (b_len b)); [|lia]. cbn [guard].
      destruct (Nat.ltb_spec (b_cnt b) target).
      * exists s, g. split; [reflexivity|]. split; [exact H|auto].
      * rewrite B1, B2. cbn [andb guard]. destruct B6 as (B6 & B6').
        destruct (Nat.leb_spec target (length (b_mem b))); [|lia].
        eexists _, g. split; [reflexivity|]. split; [|auto]. constructor; cbn; auto.
        assert (Hld : length done <= b_len b).
        { rewrite Ed. rewrite firstn_length, B4. unfold jlen. lia. }
        assert (Hlt : length done < target) by lia.
        assert (Hseg : done ++ firstn (target - length done) (skipn (length done) (b_mem b)) = firstn target (j_samples j)).
        { assert (Hm : firstn target (b_mem b) = firstn target (j_samples j)).
          { replace target with (Nat.min target (b_cnt b)) by lia. rewrite <- !firstn_firstn. f_equal. exact B6. }
          rewrite <- Hm. assert (Hd : done = firstn (length done) (b_mem b)).
          { rewrite Ed at 1. replace (length done) with (Nat.min (length done) target) by lia. rewrite <- !firstn_firstn. f_equal. symmetry. exact Hm. }
          rewrite Hd at 1. apply firstn_seg. lia. }
        rewrite Hseg. exists o, j. split; [exact Eg|]. split; [exact Eo|]. rewrite firstn_length.
        replace (Nat.min target (length (j_samples j))) with target by (unfold jlen in *; lia).
        split; [reflexivity|]. intros Ht. destruct o; [|reflexivity]. specialize (B8 ltac:(discriminate)). lia.
  - destruct iv_tx0 as (Hi & Hsim). destruct (nth_error (bufs s) i) as [b|] eqn:Eb.
    2:{ apply nth_error_None in Eb. lia. }
    unfold rd. rewrite Eb. cbn [bind]. eexists _, g. split; [reflexivity|]. split; [|auto]. constructor; cbn; auto.
    intros Hgd. destruct (iv_ord0 Hgd) as (O1 & O2). split; [exact O1|]. rewrite <- O2.
    destruct (iv_next0 Hgd Hsim) as (N1 & _). specialize (N1 _ _ Eb). unfold advance.
    destruct (Z.ltb_spec (tx_order_id_expect_next (b_meta b)) 0); [reflexivity|lia].
Qed.

(** Executions. *)
Definition starved (s : sys) (a : act) : Prop :=
  match a with
  | AFill f => exists i j, nth_error (fillers s) f = Some (FScan i j) /\ length (bufs s) <= i
  | _ => False
  end.

Lemma bstep_inv good s g a : Inv good s g -> act_ok (valid_job (max_len s)) a ->
  (good = true -> simulator s = true -> act_ok no_override a) ->
  (exists s' g', bstep s a = Ok s' /\ Inv good s' g' /\ max_len s' = max_len s /\ simulator s' = simulator s /\ length (bufs s') = length (bufs s)) \/
  (bstep s a = Abort /\ starved s a).
Proof.
  intros H V O. destruct a as [f j|f|c]; cbn [bstep].
  - left. destruct (nth_error (fillers s) f) as [st|] eqn:Ef; [|exists s, g; auto].
    destruct st; try (exists s, g; split; [reflexivity|auto]; fail).
    eexists _, g. split; [reflexivity|]. split; [|auto]. eapply inv_state; eauto; cbn.
    intros Hg Hs j0 E. injection E as <-. right. exact (O Hg Hs).
  - destruct (fill_step_inv good s g f H) as [X|(E & j & i & E1 & E2)]; [left; exact X|right]. split; [exact E|]. cbn. eauto.
  - left. apply (tx_step_inv good s g c H).
Qed.

Lemma brun_inv good acts : forall s g, Inv good s g -> Forall (act_ok (valid_job (max_len s))) acts ->
  (good = true -> simulator s = true -> Forall (act_ok no_override) acts) ->
  (exists s' g', brun s acts = Ok s' /\ Inv good s' g') \/
  (brun s acts = Abort /\ exists pre a rest s1, acts = pre ++ a :: rest /\ brun s pre = Ok s1 /\ starved s1 a /\ length (bufs s1) = length (bufs s)).
Proof.
  induction acts as [|a t IH]; intros s g H V O; cbn [brun]; [left; eauto|].
  inversion V as [|? ? V1 V2]; subst.
  destruct (bstep_inv good s g a H V1) as [(s' & g' & E & H' & M & S & L)|(E & St)].
  - intros G1 G2. specialize (O G1 G2). inversion O; auto.
  - rewrite E. cbn [bind]. destruct (IH s' g' H') as [X|(E' & pre & a' & rest & s1 & -> & E1 & E2 & E3)].
    + rewrite M. exact V2.
    + intros G1 G2. rewrite S in G2. specialize (O G1 G2). inversion O; auto.
    + left. exact X.
    + right. split; [exact E'|]. exists (a :: pre), a', rest, s1. cbn. rewrite E. cbn [bind]. rewrite L in E3. auto.
  - right. rewrite E. split; [reflexivity|]. exists [], a, t, s. auto.
Qed.

Lemma inv_new mems max n sim : Forall (fun m => length m = max) mems ->
  Inv true (sys_new mems max n sim) (repeat GFree (length mems)).
Proof.
  intros Hm. constructor; cbn [sys_new bufs max_len simulator fillers tx announced sent].
  - rewrite repeat_length, map_length. reflexivity.
  - intros i b x Eb Ex. apply nth_error_In, repeat_spec in Ex. subst x. apply nth_error_In, in_map_iff in Eb.
    destruct Eb as (m & <- & Hin). rewrite Forall_forall in Hm. split; cbn; auto.
  - intros f st E. apply nth_error_In, repeat_spec in E. subst st. exact I.
  - exact I.
  - cbn. replace (flat_map live (repeat GFree (length mems))) with (@nil (meta * list N)); [constructor|].
    induction (length mems); cbn; auto.
  - intros _ _. split.
    + intros i b Eb. apply nth_error_In, in_map_iff in Eb. destruct Eb as (m & <- & _). cbn. lia.
    + intros f st j E. apply nth_error_In, repeat_spec in E. subst st. discriminate.
  - intros _. cbn. auto.
Qed.

Lemma inv_weaken s g : Inv true s g -> Inv false s g.
Proof. intros []. constructor; auto; discriminate. Qed.

Lemma tx_sent_is_announced mems max n sim acts s : Forall (fun m => length m = max) mems ->
  Forall (act_ok (valid_job max)) acts -> brun (sys_new mems max n sim) acts = Ok s ->
  exists pending, Permutation (map (fun j => (j_meta j, j_samples j)) (announced s)) (sent s ++ pending).
Proof.
  intros Hm V E. destruct (brun_inv false acts (sys_new mems max n sim) _ (inv_weaken _ _ (inv_new mems max n sim Hm)) V ltac:(discriminate)) as [(s' & g & E' & [])|(E' & _)]; [|congruence].
  rewrite E in E'. injection E' as <-. eexists. exact iv_perm0.
Qed.

Lemma tx_in_order mems max n sim acts s : Forall (fun m => length m = max) mems ->
  Forall (act_ok (valid_job max)) acts -> sim = false \/ Forall (act_ok no_override) acts ->
  brun (sys_new mems max n sim) acts = Ok s -> in_order 0 (map fst (sent s)).
Proof.
  intros Hm V O E. destruct (brun_inv true acts (sys_new mems max n sim) _ (inv_new mems max n sim Hm) V) as [(s' & g & E' & [])|(E' & _)]; [| |congruence].
  - cbn. intros _ Hs. destruct O; [congruence|auto].
  - rewrite E in E'. injection E' as <-. apply iv_ord0. reflexivity.
Qed.

Lemma tx_only_starvation mems max n sim acts : Forall (fun m => length m = max) mems ->
  Forall (act_ok (valid_job max)) acts ->
  match brun (sys_new mems max n sim) acts with
  | Ok _ => True
  | Abort => exists pre f rest s i j, acts = pre ++ AFill f :: rest /\ brun (sys_new mems max n sim) pre = Ok s /\
      nth_error (fillers s) f = Some (FScan i j) /\ length mems <= i
  | _ => False
  end.
Proof.
  intros Hm V. destruct (brun_inv false acts (sys_new mems max n sim) _ (inv_weaken _ _ (inv_new mems max n sim Hm)) V ltac:(discriminate)) as [(s' & g & E & _)|(E & pre & a & rest & s1 & E1 & E2 & E3 & E4)]; rewrite E; [exact I|].
  destruct a as [| f |]; cbn in E3; try contradiction. destruct E3 as (i & j & E5 & E6).
  cbn in E4. rewrite map_length in E4. exists pre, f, rest, s1, i, j. repeat split; auto. lia.
Qed.

Lemma fi_holds max bs g f st i : FI max bs g f st -> holds st i -> exists x, nth_error g i = Some x /\ owner x = Some f.
Proof.
  destruct st; cbn; intros H E; try contradiction; subst; destruct H as (_ & b & _ & E & _); eexists; split; try exact E; reflexivity.
Qed.

Lemma tx_exclusive mems max n sim acts s : Forall (fun m => length m = max) mems ->
  Forall (act_ok (valid_job max)) acts -> brun (sys_new mems max n sim) acts = Ok s ->
  (forall i f1 f2 st1 st2, nth_error (fillers s) f1 = Some st1 -> nth_error (fillers s) f2 = Some st2 ->
     holds st1 i -> holds st2 i -> f1 = f2) /\
  (forall i f st, nth_error (fillers s) f = Some st -> not_yet_transmittable st i -> ~ sending (tx s) i).
Proof.
  intros Hm V E. destruct (brun_inv false acts (sys_new mems max n sim) _ (inv_weaken _ _ (inv_new mems max n sim Hm)) V ltac:(discriminate)) as [(s' & g & E' & [])|(E' & _)]; [|congruence].
  rewrite E in E'. injection E' as <-. split.
  - intros i f1 f2 st1 st2 E1 E2 H1 H2.
    destruct (fi_holds _ _ _ _ _ _ (iv_f0 _ _ E1) H1) as (x1 & X1 & O1).
    destruct (fi_holds _ _ _ _ _ _ (iv_f0 _ _ E2) H2) as (x2 & X2 & O2). congruence.
  - intros i f st Ef Hn Hs. destruct (tx s) as [|e k done|]; cbn in Hs; try contradiction. subst k.
    destruct iv_tx0 as (o & j & Eg & _). pose proof (iv_f0 _ _ Ef) as HF.
    destruct st; cbn in *; try contradiction; subst; destruct HF as (_ & b & _ & X & _); congruence.
Qed.
