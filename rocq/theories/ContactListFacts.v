From Verif Require Import Base Bimap BimapSpec BimapFacts ContactList ContactListSpec.
Open Scope Z_scope.

Section Facts.
  Context {T : Type} (dflt : T).

  (** The partial function listed by (key, value) pairs of registrations. *)
  Definition lists (gs : list reg) (val : reg -> Z) (f : fn) : Prop :=
    forall k v, f k = Some v <-> exists g, In g gs /\ lng g = k /\ val g = v.

  Definition um_ok (gs : list reg) (c : clist T) : Prop :=
    length (vec c) = length gs /\
    forall k i, um_find (um c) k = Some i <->
      exists g, nth_error gs i = Some g /\ lng g = k.

  Definition cinv (gs : list reg) (d : Z -> option T) (c : clist T) : Prop :=
    (exists f, rep true (srdid c) f /\ lists gs shrt f) /\
    (exists f, rep true (server c) f /\ lists gs srv f) /\
    (exists f, rep true (client c) f /\ lists gs clt f) /\
    um_ok gs c /\ NoDup (map lng gs) /\
    (forall i g, nth_error gs i = Some g -> d (lng g) = nth_error (vec c) i) /\
    (forall l, ~ In l (map lng gs) -> d l = None).

  Lemma um_insert_find m k i x :
    um_find m k = None -> um_find (um_insert m k i) x = if k =? x then Some i else um_find m x.
  Proof.
    intros H. unfold um_insert. rewrite H. unfold um_find in *.
    induction m as [|[a b] r IH]; cbn [app find fst snd] in *.
    - now destruct (k =? x).
    - destruct (Z.eqb_spec a k); [discriminate|].
      destruct (Z.eqb_spec a x).
      + destruct (Z.eqb_spec k x); [congruence|auto].
      + apply IH. auto.
  Qed.

  Lemma insert_lists m f gs val g :
    rep true m f -> lists gs val f ->
    (Forall (fun h => lng h <> lng g /\ val h <> val g) gs ->
      exists m' f', insert true m (lng g) (val g) = Ok m' /\ rep true m' f' /\ lists (gs ++ [g]) val f') /\
    (~ Forall (fun h => lng h <> lng g /\ val h <> val g) gs ->
      insert true m (lng g) (val g) = Abort).
  Proof.
    intros Hr Hl. destruct (step_rep true m f (Insert (lng g) (val g)) Hr) as [H1 H2].
    cbn in H1, H2.
    assert (Hiff : Forall (fun h => lng h <> lng g /\ val h <> val g) gs <->
                   (f (lng g) = None /\ (true = true -> ~ has_value f (val g)))).
    { rewrite Forall_forall. split.
      - intros H. split.
        + destruct (f (lng g)) as [v|] eqn:E; auto. exfalso.
          apply Hl in E. destruct E as (h & Hin & E1 & E2). destruct (H h Hin). auto.
        + intros _ [k Hk]. apply Hl in Hk. destruct Hk as (h & Hin & E1 & E2).
          destruct (H h Hin). auto.
      - intros [E1 E2] h Hin. split.
        + intros E. assert (Hx : f (lng g) = Some (val h)) by (apply Hl; exists h; auto). congruence.
        + intros E. apply E2; auto. exists (lng h). apply Hl. exists h. auto. }
    split.
    - intros Hfr. apply Hiff in Hfr. destruct (H1 Hfr) as (m' & E & Hr').
      exists m', (fset f (lng g) (Some (val g))). split; auto. split; auto.
      intros k v. unfold fset. destruct (Z.eqb_spec k (lng g)) as [->|Hne].
      + split.
        * intros E2; injection E2 as <-. exists g. rewrite in_app_iff. cbn. auto.
        * intros (h & Hin & E1 & E2). apply in_app_iff in Hin. destruct Hin as [Hin|[<-|[]]].
          -- exfalso. assert (Hx : f (lng g) = Some v) by (apply Hl; exists h; auto).
             destruct Hfr. congruence.
          -- congruence.
      + rewrite (Hl k v). split.
        * intros (h & Hin & E1 & E2). exists h. rewrite in_app_iff. auto.
        * intros (h & Hin & E1 & E2). apply in_app_iff in Hin. destruct Hin as [Hin|[<-|[]]].
          -- exists h. auto.
          -- congruence.
    - intros Hn. apply H2. intros Ha. apply Hn. now apply Hiff.
  Qed.

  Definition upd_data (d : Z -> option T) (o : cop T) (l : Z) : option T :=
    match o with
    | AddContact l' _ _ _ => if l' =? l then Some dflt else d l
    | SetContact l' x => if l' =? l then Some x else d l
    end.

  Lemma nth_error_snoc {A} (l : list A) x i y :
    nth_error (l ++ [x]) i = Some y <-> nth_error l i = Some y \/ (i = length l /\ y = x).
  Proof.
    destruct (Nat.lt_ge_cases i (length l)).
    - rewrite nth_error_app1 by auto. split; [auto|]. intros [?|[? _]]; [auto|lia].
    - rewrite nth_error_app2 by lia.
      assert (Hn : nth_error l i = None) by (apply nth_error_None; lia). rewrite Hn.
      destruct (i - length l)%nat as [|k] eqn:Ek; cbn.
      + split; [intros E; injection E as <-; right; split; [lia|auto]|].
        intros [?|[_ ->]]; [discriminate|auto].
      + destruct k; (split; [discriminate|]; intros [?|[? _]]; [discriminate|lia]).
  Qed.

  Lemma add_step gs d c l s sv cl :
    cinv gs d c ->
    let g := {| lng := l; shrt := s; srv := sv; clt := cl |} in
    (Forall (fun h => lng h <> l /\ shrt h <> s /\ srv h <> sv /\ clt h <> cl) gs ->
       exists c', add dflt c l s sv cl = Ok c' /\
         cinv (gs ++ [g]) (upd_data d (AddContact l s sv cl)) c') /\
    (~ Forall (fun h => lng h <> l /\ shrt h <> s /\ srv h <> sv /\ clt h <> cl) gs ->
       add dflt c l s sv cl = Abort).
  Proof.
    intros ((f1 & R1 & L1) & (f2 & R2 & L2) & (f3 & R3 & L3) & (Hlen & Hum) & Hnd & Hd & Hd0) g.
    pose proof (insert_lists (srdid c) f1 gs shrt g R1 L1) as [A1 B1].
    pose proof (insert_lists (server c) f2 gs srv g R2 L2) as [A2 B2].
    pose proof (insert_lists (client c) f3 gs clt g R3 L3) as [A3 B3].
    unfold g in A1, B1, A2, B2, A3, B3. cbn [lng shrt srv clt] in A1, B1, A2, B2, A3, B3. split.
    - intros Hf. rewrite Forall_forall in Hf.
      destruct A1 as (m1 & f1' & E1 & R1' & L1'); [apply Forall_forall; intros h Hh; destruct (Hf h Hh); tauto|].
      destruct A2 as (m2 & f2' & E2 & R2' & L2'); [apply Forall_forall; intros h Hh; destruct (Hf h Hh); tauto|].
      destruct A3 as (m3 & f3' & E3 & R3' & L3'); [apply Forall_forall; intros h Hh; destruct (Hf h Hh); tauto|].
      unfold add. rewrite E1, E2, E3. cbn [bind].
      assert (Hfresh : ~ In l (map lng gs)).
      { intros Hin. apply in_map_iff in Hin. destruct Hin as (h & E & Hin). destruct (Hf h Hin). auto. }
      assert (Hnone : um_find (um c) l = None).
      { destruct (um_find (um c) l) as [i|] eqn:E; auto. exfalso. apply Hum in E.
        destruct E as (h & Hh & E). apply Hfresh. apply in_map_iff. exists h. split; auto.
        eapply nth_error_In; eauto. }
      eexists. split; [reflexivity|]. unfold cinv; cbn [srdid server client um vec].
      split; [eauto|]. split; [eauto|]. split; [eauto|]. split.
      { split; cbn [um vec]; [rewrite !app_length; cbn; lia|].
        intros k i. rewrite um_insert_find by auto.
        destruct (Z.eqb_spec l k) as [->|Hne].
        - rewrite Hlen. split.
          + intros E; injection E as <-. exists g. rewrite nth_error_app2, Nat.sub_diag by lia. auto.
          + intros (h & Hh & E). apply nth_error_snoc in Hh. destruct Hh as [Hh|[-> ->]]; auto.
            exfalso. apply Hfresh. apply in_map_iff. exists h. split; auto. eapply nth_error_In; eauto.
        - rewrite Hum. split.
          + intros (h & Hh & E). exists h. split; auto. apply nth_error_snoc. auto.
          + intros (h & Hh & E). apply nth_error_snoc in Hh. destruct Hh as [Hh|[-> ->]]; eauto.
            cbn in E. congruence. }
      split; [rewrite map_app; cbn; apply NoDup_snoc; auto|].
      split.
      + intros i h Hh. apply nth_error_snoc in Hh. unfold upd_data.
        destruct Hh as [Hh|[-> ->]].
        * destruct (Z.eqb_spec l (lng h)) as [->|Hne].
          -- exfalso. apply Hfresh. apply in_map_iff. exists h. split; auto. eapply nth_error_In; eauto.
          -- rewrite (Hd i h Hh). rewrite nth_error_app1; auto. rewrite Hlen.
             apply nth_error_Some. congruence.
        * cbn. rewrite Z.eqb_refl. rewrite nth_error_app2 by lia. now rewrite Hlen, Nat.sub_diag.
      + intros k Hk. rewrite map_app, in_app_iff in Hk. cbn in Hk. unfold upd_data.
        destruct (Z.eqb_spec l k); [tauto|]. apply Hd0. tauto.
    - intros Hn. unfold add.
      assert (Hdec : forall P : reg -> Prop, (forall h, {P h} + {~ P h}) -> Forall P gs \/ ~ Forall P gs).
      { intros P HP. destruct (Forall_dec P HP gs); auto. }
      assert (Hz : forall a b : Z, {a <> b} + {~ a <> b}) by (intros; destruct (Z.eq_dec a b); [right|left]; lia).
      destruct (Hdec (fun h => lng h <> l /\ shrt h <> s)) as [F1|F1].
      { intros h. destruct (Hz (lng h) l), (Hz (shrt h) s); (left; tauto) || (right; tauto). }
      2:{ rewrite (B1 F1). reflexivity. }
      destruct (A1 F1) as (m1 & _ & -> & _). cbn [bind].
      destruct (Hdec (fun h => lng h <> l /\ srv h <> sv)) as [F2|F2].
      { intros h. destruct (Hz (lng h) l), (Hz (srv h) sv); (left; tauto) || (right; tauto). }
      2:{ rewrite (B2 F2). reflexivity. }
      destruct (A2 F2) as (m2 & _ & -> & _). cbn [bind].
      destruct (Hdec (fun h => lng h <> l /\ clt h <> cl)) as [F3|F3].
      { intros h. destruct (Hz (lng h) l), (Hz (clt h) cl); (left; tauto) || (right; tauto). }
      2:{ rewrite (B3 F3). reflexivity. }
      exfalso. apply Hn. rewrite Forall_forall in *. intros h Hh.
      destruct (F1 h Hh), (F2 h Hh), (F3 h Hh). auto.
  Qed.

  Lemma set_step gs d c l x :
    cinv gs d c ->
    ((exists g, In g gs /\ lng g = l) ->
       exists c', set_contact c l x = Ok c' /\ cinv gs (upd_data d (SetContact l x)) c') /\
    (~ (exists g, In g gs /\ lng g = l) -> set_contact c l x = Throw).
  Proof.
    intros (H1 & H2 & H3 & (Hlen & Hum) & Hnd & Hd & Hd0). unfold set_contact. split.
    - intros (g & Hin & Hg). destruct (In_nth_error _ _ Hin) as [i Hi].
      assert (Ei : um_find (um c) l = Some i) by (apply Hum; eauto). rewrite Ei.
      assert (Hil : (i < length (vec c))%nat) by (rewrite Hlen; apply nth_error_Some; congruence).
      destruct (nth_error (vec c) i) as [y|] eqn:Ey; [|apply nth_error_None in Ey; lia].
      eexists. split; [reflexivity|]. unfold cinv; cbn [srdid server client um vec].
      do 3 (split; [auto|]). split; [split; cbn [um vec]; [now rewrite upd_length|auto]|].
      split; [auto|]. split.
      + intros j h Hj. unfold upd_data. destruct (Z.eqb_spec l (lng h)) as [E|Hne].
        * assert (i = j).
          { assert (Some i = Some j) as E'; [|now injection E']. rewrite <- Ei. apply Hum. eauto. }
          subst j. now rewrite nth_error_upd_same.
        * rewrite nth_error_upd_other; auto. intros ->. congruence.
      + intros k Hk. unfold upd_data. destruct (Z.eqb_spec l k) as [->|]; [|auto].
        exfalso. apply Hk. apply in_map_iff. eauto.
    - intros Hn. destruct (um_find (um c) l) as [i|] eqn:E; auto.
      exfalso. apply Hum in E. destruct E as (g & Hg & E). apply Hn. exists g. split; auto.
      eapply nth_error_In; eauto.
  Qed.

  Lemma cinv_init : cinv [] (fun _ => None) init.
  Proof.
    unfold cinv, init; cbn.
    assert (Hl : forall val, lists [] val fempty).
    { intros val k v. unfold fempty. split; [discriminate|]. intros (g & [] & _). }
    do 3 (split; [exists fempty; split; [apply rep_empty|apply Hl]|]).
    split; [split; cbn; auto; intros k i; cbn; split; [discriminate|intros (g & Hg & _); destruct i; discriminate]|].
    split; [constructor|]. split; [intros [|i] g Hg; discriminate|auto].
  Qed.

  Definition data_fold (os : list (cop T)) (d : Z -> option T) : Z -> option T :=
    fold_left (fun d o => upd_data d o) os d.

  Lemma data_fold_of os : forall d l, data_fold os d l =
    fold_left (fun d o => match o with
                          | AddContact l' _ _ _ => if l' =? l then Some dflt else d
                          | SetContact l' x => if l' =? l then Some x else d
                          end) os (d l).
  Proof.
    induction os as [|o r IH]; intros d l; cbn; auto. unfold data_fold in IH. rewrite IH.
    f_equal.
  Qed.

  Lemma crun_inv os : forall gs d c,
    cinv gs d c ->
    (well_used gs os -> exists c', crun dflt c os = Ok c' /\ cinv (gs ++ regs os) (data_fold os d) c') /\
    (~ well_used gs os -> is_ok (crun dflt c os) = false).
  Proof.
    induction os as [|o r IH]; intros gs d c Hi; cbn [crun well_used].
    - cbn. rewrite app_nil_r. split; [eauto|tauto].
    - destruct o as [l s sv cl|l x]; cbn [cstep].
      + destruct (add_step gs d c l s sv cl Hi) as [A B].
        destruct (Forall_dec (fun h => lng h <> l /\ shrt h <> s /\ srv h <> sv /\ clt h <> cl))
          with (l := gs) as [F|F].
        { intros h. destruct (Z.eq_dec (lng h) l); [right; tauto|].
          destruct (Z.eq_dec (shrt h) s); [right; tauto|].
          destruct (Z.eq_dec (srv h) sv); [right; tauto|].
          destruct (Z.eq_dec (clt h) cl); [right; tauto|left; tauto]. }
        * destruct (A F) as (c1 & -> & Hi1). cbn [bind].
          destruct (IH _ _ _ Hi1) as [C D]. split.
          -- intros [_ Hw]. destruct (C Hw) as (c' & E & Hi'). exists c'. split; auto.
             rewrite <- app_assoc in Hi'. exact Hi'.
          -- intros Hn. apply D. tauto.
        * rewrite (B F). cbn. split; tauto.
      + destruct (set_step gs d c l x Hi) as [A B].
        assert (Hdec : (exists g, In g gs /\ lng g = l) \/ ~ (exists g, In g gs /\ lng g = l)).
        { destruct (in_dec Z.eq_dec l (map lng gs)) as [Hin|Hin].
          - left. apply in_map_iff in Hin. destruct Hin as (g & ? & ?). eauto.
          - right. intros (g & ? & ?). apply Hin. apply in_map_iff. eauto. }
        destruct Hdec as [F|F].
        * destruct (A F) as (c1 & -> & Hi1). cbn [bind].
          destruct (IH _ _ _ Hi1) as [C D]. split.
          -- intros [_ Hw]. destruct (C Hw) as (c' & E & Hi'). exists c'. split; auto.
          -- intros Hn. apply D. tauto.
        * rewrite (B F). cbn. split; tauto.
  Qed.

  Lemma contact_list_ok os :
    (~ well_used [] os -> is_ok (crun dflt init os) = false) /\
    (well_used [] os -> exists c, crun dflt init os = Ok c /\
      (forall g, In g (regs os) ->
         get_srdid_from_lrdid c (lng g) = Ok (shrt g) /\
         get_lrdid_from_srdid c (shrt g) = Ok (lng g) /\
         get_lrdid_from_conn_idx_server c (srv g) = Ok (lng g) /\
         get_conn_idx_client_from_lrdid c (lng g) = Ok (clt g)) /\
      (forall l, is_lrdid_known c l = true <-> In l (map lng (regs os))) /\
      (forall s, is_srdid_known c s = true <-> In s (map shrt (regs os))) /\
      (forall l, get_contact c l = match data_of dflt os l with Some x => Ok x | None => Throw end) /\
      (forall l, data_of dflt os l <> None <-> In l (map lng (regs os))) /\
      length (vec c) = length (regs os)).
  Proof.
    destruct (crun_inv os [] (fun _ => None) init cinv_init) as [A B]. split; [auto|].
    intros Hw. destruct (A Hw) as (c & E & Hi). cbn [app] in Hi.
    exists c. split; [auto|].
    destruct Hi as ((f1 & R1 & L1) & (f2 & R2 & L2) & (f3 & R3 & L3) & (Hlen & Hum) & Hnd & Hd & Hd0).
    assert (Hdo : forall l, data_of dflt os l = data_fold os (fun _ => None) l)
      by (intros l; unfold data_of; rewrite data_fold_of; reflexivity).
    split.
    { intros g Hg. split; [|split; [|split]].
      - unfold get_srdid_from_lrdid. rewrite (rep_get_v _ _ _ _ R1).
        assert (Hx : f1 (lng g) = Some (shrt g)) by (apply L1; eauto). now rewrite Hx.
      - unfold get_lrdid_from_srdid. apply (rep_get_k _ _ (shrt g) R1). apply L1. eauto.
      - unfold get_lrdid_from_conn_idx_server. apply (rep_get_k _ _ (srv g) R2). apply L2. eauto.
      - unfold get_conn_idx_client_from_lrdid. rewrite (rep_get_v _ _ _ _ R3).
        assert (Hx : f3 (lng g) = Some (clt g)) by (apply L3; eauto). now rewrite Hx. }
    split.
    { intros l. unfold is_lrdid_known, is_k_known. pose proof (rep_left _ _ _ l R1) as Hk.
      rewrite in_map_iff. destruct (left_find (srdid c) l) as [p|]; cbn.
      - split; auto. intros _. destruct Hk as [Hk _]. apply L1 in Hk. destruct Hk as (g & ? & ? & _). eauto.
      - split; [discriminate|]. intros (g & <- & Hin).
        assert (Hx : f1 (lng g) = Some (shrt g)) by (apply L1; eauto). congruence. }
    split.
    { intros s. unfold is_srdid_known, is_v_known. pose proof (rep_right _ _ _ s R1) as Hk.
      rewrite in_map_iff. destruct (right_find (srdid c) s) as [p|]; cbn.
      - split; auto. intros _. destruct Hk as [Hk _]. apply L1 in Hk. destruct Hk as (g & ? & _ & ?). eauto.
      - split; [discriminate|]. intros (g & <- & Hin). exfalso. apply Hk.
        exists (lng g). apply L1. eauto. }
    split.
    { intros l. rewrite Hdo. unfold get_contact.
      destruct (um_find (um c) l) as [i|] eqn:Ei.
      - apply Hum in Ei. destruct Ei as (g & Hg & <-). rewrite (Hd i g Hg). reflexivity.
      - rewrite Hd0; auto. intros Hin. apply in_map_iff in Hin. destruct Hin as (g & <- & Hin).
        destruct (In_nth_error _ _ Hin) as [i Hi].
        assert (um_find (um c) (lng g) = Some i) by (apply Hum; eauto). congruence. }
    split; [|auto].
    intros l. rewrite Hdo. split.
    - intros Hn. destruct (in_dec Z.eq_dec l (map lng (regs os))); auto. exfalso. auto.
    - intros Hin. apply in_map_iff in Hin. destruct Hin as (g & <- & Hin).
      destruct (In_nth_error _ _ Hin) as [i Hi]. rewrite (Hd i g Hi).
      apply nth_error_Some. rewrite Hlen. apply nth_error_Some. congruence.
  Qed.
End Facts.
