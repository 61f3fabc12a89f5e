(** Facts about the connection of pools and termination points. *)
From Coq Require Import Ascii String.
From Verif Require Import Base UpperCfg UpperCfgFacts Wiring WiringSpec.
Open Scope nat_scope.

Lemma known_in : forall f, known f <-> In f firmwares.
Proof.
  intros f. unfold known, firmwares. cbn [map In].
  split; intros H; decompose [or] H; subst; try contradiction; tauto.
Qed.

Lemma starts_begins : forall name f, starts_with name f = true <-> begins name f.
Proof.
  intros name f. split; [intros H; exact (starts_split f name H)|]. intros [r ->]. apply starts_app.
Qed.

Lemma pick_ok : forall name l f, pick name l = Ok f -> In f l /\ begins name f.
Proof.
  induction l as [|g l IH]; intros f H; cbn [pick] in H; [discriminate|].
  destruct (starts_with name g) eqn:E.
  - injection H as <-. split; [left; reflexivity|apply starts_begins, E].
  - destruct (IH f H) as [A B]. split; [right; exact A|exact B].
Qed.

Lemma pick_total : forall name l f, In f l -> begins name f -> exists g, pick name l = Ok g.
Proof.
  induction l as [|g l IH]; intros f Hi Hb; [contradiction|]. cbn [pick].
  destruct (starts_with name g) eqn:E; [exists g; reflexivity|].
  destruct Hi as [->|Hi]; [apply starts_begins in Hb; congruence|exact (IH f Hi Hb)].
Qed.

Lemma add_ok : forall c f, add_tpoint c = Ok f -> known f /\ begins (firmware_name c) f.
Proof. intros c f H. destruct (pick_ok _ _ _ H) as [A B]. split; [apply known_in, A|exact B]. Qed.
Lemma add_total : forall c, (exists f, known f /\ begins (firmware_name c) f) -> exists g, add_tpoint c = Ok g.
Proof. intros c [f [K B]]. exact (pick_total _ _ f (proj1 (known_in f) K) B). Qed.

Lemma configure_many_ok : forall nets ids ps, configure_many nets ids = Ok ps ->
  ps = map (fun i => mkPool 0 0 i nets) ids /\ Forall (fun i => i < 4) ids.
Proof.
  induction ids as [|i ids IH]; intros ps H; cbn [configure_many] in H.
  - injection H as <-. split; [reflexivity|constructor].
  - apply bind_ok in H. destruct H as [p [Hp H]]. apply bind_ok in H. destruct H as [r [Hr H]]. injection H as <-.
    apply guard_ok in Hp. destruct Hp as [G Hp]. injection Hp as <-. apply Nat.ltb_lt in G. destruct (IH _ Hr) as [-> F].
    split; [reflexivity|]. constructor; [exact G|exact F].
Qed.

Lemma configure_many_total : forall nets ids, Forall (fun i => i < 4) ids ->
  configure_many nets ids = Ok (map (fun i => mkPool 0 0 i nets) ids).
Proof.
  intros nets ids H. induction H as [|i ids Hi _ IH]; [reflexivity|]. cbn [configure_many map].
  unfold configure_tpoint_calls, guard, max_pairs. rewrite (proj2 (Nat.ltb_lt _ _) Hi). cbn [bind]. rewrite IH. reflexivity.
Qed.

Lemma one_from_ok : forall cs t tps ps, one_to_one_from t cs = Ok (tps, ps) ->
  List.length tps = List.length cs /\ List.length ps = List.length cs /\ map config tps = cs /\
  (forall k c, nth_error cs k = Some c -> id c = Z.of_nat (t + k)) /\
  (forall k x, nth_error tps k = Some x -> known (firmware x) /\ begins (firmware_name (config x)) (firmware x) /\
     token x = t + k /\ lower_ctrl_vec x = [t + k]) /\
  (forall k x, nth_error ps k = Some x -> calls x = t + k /\ pool_token x = t + k /\ token_call_id x = 0 /\
     exists c, nth_error cs k = Some c /\ networks x = network_ids c).
Proof.
  induction cs as [|c cs IH]; intros t tps ps H; cbn [one_to_one_from] in H.
  - injection H as <- <-. repeat split; try reflexivity; destruct k; discriminate.
  - apply guard_ok in H. destruct H as [G H]. apply Z.eqb_eq in G. apply bind_ok in H. destruct H as [f [Hf H]].
    apply bind_ok in H. destruct H as [p [Hp H]]. apply bind_ok in H. destruct H as [[tps' ps'] [Hr H]]. cbn [fst snd] in H.
    injection H as <- <-. apply guard_ok in Hp. destruct Hp as [_ Hp]. injection Hp as <-.
    destruct (IH _ _ _ Hr) as [L1 [L2 [M [I [T P]]]]]. destruct (add_ok _ _ Hf) as [K B].
    cbn [List.length map config]. split; [congruence|]. split; [congruence|]. split; [congruence|]. split; [|split].
    + intros [|k] x Hx; cbn [nth_error] in Hx.
      * injection Hx as <-. rewrite Nat.add_0_r. exact G.
      * replace (t + S k) with (t + 1 + k) by lia. exact (I k x Hx).
    + intros [|k] x Hx; cbn [nth_error] in Hx.
      * injection Hx as <-. rewrite Nat.add_0_r. cbn [firmware config token lower_ctrl_vec].
        split; [exact K|]. split; [exact B|]. split; reflexivity.
      * replace (t + S k) with (t + 1 + k) by lia. exact (T k x Hx).
    + intros [|k] x Hx; cbn [nth_error] in Hx.
      * injection Hx as <-. rewrite Nat.add_0_r. cbn [calls pool_token token_call_id networks nth_error].
        split; [reflexivity|]. split; [reflexivity|]. split; [reflexivity|]. exists c. split; reflexivity.
      * replace (t + S k) with (t + 1 + k) by lia. exact (P k x Hx).
Qed.

Lemma one_from_total : forall cs t, (forall k c, nth_error cs k = Some c -> id c = Z.of_nat (t + k)) ->
  (forall c, In c cs -> exists f, known f /\ begins (firmware_name c) f) -> exists r, one_to_one_from t cs = Ok r.
Proof.
  induction cs as [|c cs IH]; intros t Hi Hf; cbn [one_to_one_from]; [eexists; reflexivity|].
  rewrite (Hi 0 c eq_refl), Nat.add_0_r, Z.eqb_refl. cbn [guard].
  destruct (add_total c (Hf c (or_introl eq_refl))) as [g Hg]. rewrite Hg. cbn [bind configure_tpoint_calls guard max_pairs Nat.ltb Nat.leb].
  destruct (IH (t + 1)) as [r Hr].
  - intros k x Hx. rewrite (Hi (S k) x Hx). f_equal. lia.
  - intros x Hx. apply Hf. right. exact Hx.
  - rewrite Hr. eexists. reflexivity.
Qed.

Lemma nth_map_seq : forall A (f : nat -> A) n p x, nth_error (map f (seq 0 n)) p = Some x -> p < n /\ x = f p.
Proof.
  intros A f n p x H. assert (L : p < n).
  { assert (Q : nth_error (map f (seq 0 n)) p <> None) by congruence. apply nth_error_Some in Q. rewrite map_length, seq_length in Q. exact Q. }
  split; [exact L|]. rewrite nth_error_map in H. rewrite (nth_error_nth' _ 0) in H by (rewrite seq_length; exact L).
  rewrite seq_nth in H by exact L. cbn in H. congruence.
Qed.
Lemma nth_map_seq_in : forall A (f : nat -> A) n p, p < n -> nth_error (map f (seq 0 n)) p = Some (f p).
Proof.
  intros A f n p L. rewrite nth_error_map, (nth_error_nth' _ 0) by (rewrite seq_length; exact L).
  rewrite seq_nth by exact L. reflexivity.
Qed.
Lemma nth_seq : forall n i p, nth_error (seq 0 n) i = Some p -> i < n /\ p = i.
Proof. intros n i p H. rewrite <- (map_id (seq 0 n)) in H. exact (nth_map_seq _ (fun x => x) n i p H). Qed.
Lemma nth_seq_in : forall n i, i < n -> nth_error (seq 0 n) i = Some i.
Proof. intros n i H. rewrite <- (map_id (seq 0 n)). exact (nth_map_seq_in _ (fun x => x) n i H). Qed.

Lemma one_to_many_wired : forall s n c tps ps, 1 < n -> init_one_to_many s n [c] = Ok (tps, ps) ->
  wired n [c] tps ps /\ id c = 0%Z /\ s = false /\ n <= 4.
Proof.
  intros s n c tps ps Hn H. unfold init_one_to_many in H. apply guard_ok in H. destruct H as [S H].
  apply guard_ok in H. destruct H as [G H]. apply Nat.leb_le in G. unfold max_pairs in G.
  apply bind_ok in H. destruct H as [u [_ H]]. apply guard_ok in H. destruct H as [I H]. apply Z.eqb_eq in I.
  apply bind_ok in H. destruct H as [f [Hf H]]. apply bind_ok in H. destruct H as [r [Hr H]]. injection H as <- <-.
  destruct (configure_many_ok _ _ _ Hr) as [-> F]. destruct (add_ok _ _ Hf) as [K B].
  split; [|split; [exact I|split; [destruct s; [discriminate|reflexivity]|exact G]]].
  constructor.
  - reflexivity.
  - intros t [<-|[]]. split; [exact K|exact B].
  - rewrite map_length, seq_length. reflexivity.
  - intros p x Hx. apply nth_map_seq in Hx. destruct Hx as [L ->]. cbn [calls token_call_id pool_token networks].
    eexists. split; [reflexivity|]. cbn [lower_ctrl_vec token config]. split; [apply nth_seq_in, L|]. split; reflexivity.
  - intros [|[|k]] t i p Ht Hi; cbn in Ht; try discriminate. injection Ht as <-. cbn [lower_ctrl_vec] in Hi.
    apply nth_seq in Hi. destruct Hi as [L ->]. eexists. split; [apply nth_map_seq_in, L|]. split; reflexivity.
  - intros t [<-|[]]. cbn [lower_ctrl_vec]. destruct n; [lia|discriminate].
  - intros [|[|k]] [|[|k']] t t' H1 H2 _; cbn in H1, H2; try discriminate; reflexivity.
  - intros x Hx. apply in_map_iff in Hx. destruct Hx as [i [<- Hi]]. cbn [token_call_id]. rewrite Forall_forall in F. exact (F i Hi).
Qed.

Lemma one_to_one_wired : forall n cs tps ps, init_one_to_one n cs = Ok (tps, ps) ->
  wired n cs tps ps /\ n = List.length cs /\ n <= 4 /\ (forall k c, nth_error cs k = Some c -> id c = Z.of_nat k).
Proof.
  intros n cs tps ps H. unfold init_one_to_one in H. apply guard_ok in H. destruct H as [G H]. apply Nat.eqb_eq in G.
  apply bind_ok in H. destruct H as [u [Hu H]]. apply guard_ok in Hu. destruct Hu as [U _]. apply Nat.leb_le in U. unfold max_pairs in U.
  destruct (one_from_ok _ _ _ _ H) as [L1 [L2 [M [I [T P]]]]]. cbn [Nat.add] in *.
  split; [|split; [exact G|split; [exact U|exact I]]].
  constructor.
  - exact M.
  - intros t Ht. apply In_nth_error in Ht. destruct Ht as [k Hk]. destruct (T k t Hk) as [A [B _]]. split; assumption.
  - congruence.
  - intros p x Hx. destruct (P p x Hx) as [C1 [C2 [C3 [c [C4 C5]]]]].
    assert (E : nth_error (map config tps) p = Some c) by (rewrite M; exact C4). rewrite nth_error_map in E.
    destruct (nth_error tps p) as [t|] eqn:Ht; [|discriminate]. cbn in E. injection E as E.
    destruct (T p t Ht) as [_ [_ [T1 T2]]]. exists t. rewrite C1, C2, C3, C5, T1, T2, E. repeat split. exact Ht.
  - intros k t i p Ht Hi. destruct (T k t Ht) as [_ [_ [T1 T2]]]. rewrite T2 in Hi.
    destruct i as [|[|i]]; cbn in Hi; try discriminate. injection Hi as <-.
    assert (L : k < List.length ps).
    { rewrite L2, <- L1. apply nth_error_Some. congruence. }
    apply nth_error_Some in L. destruct (nth_error ps k) as [x|] eqn:E; [|contradiction].
    destruct (P k x E) as [C1 [_ [C3 _]]]. exists x. split; [reflexivity|]. split; assumption.
  - intros t Ht. apply In_nth_error in Ht. destruct Ht as [k Hk]. destruct (T k t Hk) as [_ [_ [_ T2]]]. rewrite T2. discriminate.
  - intros k k' t t' H1 H2 E. destruct (T k t H1) as [_ [_ [A _]]]. destruct (T k' t' H2) as [_ [_ [B _]]]. congruence.
  - intros x Hx. apply In_nth_error in Hx. destruct Hx as [k Hk]. destruct (P k x Hk) as [_ [_ [C _]]]. lia.
Qed.

Lemma wired_known : forall n cs tps ps, wired n cs tps ps -> forall c, In c cs -> exists f, known f /\ begins (firmware_name c) f.
Proof.
  intros n cs tps ps W c Hc. rewrite <- (w_configs _ _ _ _ W) in Hc. apply in_map_iff in Hc. destruct Hc as [t [<- Ht]].
  exists (firmware t). exact (w_firmware _ _ _ _ W t Ht).
Qed.

Lemma upper_ok : forall s n cs tps ps, upper s n cs = Ok (tps, ps) -> wired n cs tps ps /\ startable s n cs.
Proof.
  intros s n cs tps ps H. unfold upper in H. apply guard_ok in H. destruct H as [G H]. apply Nat.leb_le in G.
  destruct ((1 <? n) && (List.length cs =? 1)) eqn:E.
  - apply andb_prop in E. destruct E as [E1 E2]. apply Nat.ltb_lt in E1. apply Nat.eqb_eq in E2.
    destruct cs as [|c [|c' cs]]; try discriminate. destruct (one_to_many_wired _ _ _ _ _ E1 H) as [W [I [S L]]].
    split; [exact W|]. split; [|split; [exact (wired_known _ _ _ _ W)|split; [lia|right; split; [reflexivity|exact S]]]].
    intros [|[|k]] x Hx; cbn in Hx; try discriminate. injection Hx as <-. exact I.
  - destruct (one_to_one_wired _ _ _ _ H) as [W [N [L I]]]. split; [exact W|].
    split; [exact I|]. split; [exact (wired_known _ _ _ _ W)|]. split; [lia|left; congruence].
Qed.

Lemma upper_total : forall s n cs, startable s n cs -> exists r, upper s n cs = Ok r.
Proof.
  intros s n cs [I [F [N D]]]. unfold upper, guard at 1.
  rewrite (proj2 (Nat.leb_le _ _)) by (destruct D as [D|[D _]]; lia).
  destruct ((1 <? n) && (List.length cs =? 1)) eqn:E.
  - apply andb_prop in E. destruct E as [E1 E2]. apply Nat.ltb_lt in E1. apply Nat.eqb_eq in E2.
    destruct cs as [|c [|c' cs]]; try discriminate. destruct D as [D|[_ ->]]; [cbn in D; lia|].
    unfold init_one_to_many, token_create, guard, max_pairs. cbn [negb]. rewrite (proj2 (Nat.leb_le _ _)) by lia. cbn [bind].
    rewrite (I 0 c eq_refl). cbn [Z.of_nat Z.eqb]. destruct (add_total c (F c (or_introl eq_refl))) as [g Hg]. rewrite Hg. cbn [bind].
    rewrite configure_many_total.
    + eexists. reflexivity.
    + apply Forall_forall. intros i Hi. apply in_seq in Hi. lia.
  - assert (Q : List.length cs = n).
    { destruct D as [D|[D _]]; [exact D|]. rewrite D, Bool.andb_true_r in E. apply Nat.ltb_ge in E. lia. }
    unfold init_one_to_one, token_create, guard, max_pairs. rewrite Q, Nat.eqb_refl, (proj2 (Nat.leb_le _ _)) by lia. cbn [bind].
    apply one_from_total; [exact I|exact F].
Qed.
