(** Facts about the TX thread of the USRP radio. *)
From Verif Require Import Base UsrpTx UsrpTxSpec.
From Coq Require Import Sorting.
Open Scope Z_scope.

Section facts.
Variable smp : Type.
Variable zero garbage : smp.
Variable adj : Type.
Variable spp gap_max advance prefix : Z.
Variable packets : list (packet smp adj).
Hypothesis SPP : 0 < spp.
Hypothesis PRE : 0 <= prefix <= spp.
Hypothesis GM : gap_max < 2147483648.
Hypothesis WT : well_timed smp adj spp packets.

Notation tx := (tx_time smp adj).
Notation smps := (samples smp adj).
Notation ln := (lenp smp adj).
Notation eop := (end_of smp adj).
Notation sig := (signal smp zero adj packets).
Notation stp := (step smp zero garbage adj spp gap_max advance prefix packets).
Notation go_run := (run smp zero garbage adj spp gap_max advance prefix packets).
Notation at_ i p := (nth_error packets i = Some p).

(** *** The packets on the time axis *)
Lemma end_len p : eop p = tx p + ln p. Proof. reflexivity. Qed.
Lemma len_pos p : 0 <= ln p. Proof. unfold lenp. lia. Qed.
Lemma long i p : at_ i p -> spp < ln p.
Proof. intros E. apply (long_enough _ _ _ _ WT). exact (nth_error_In _ _ E). Qed.
Lemma order i j p q : (i < j)%nat -> at_ i p -> at_ j q -> eop p <= tx q.
Proof.
  intros L. replace j with (i + S (j - i - 1))%nat by lia. generalize (j - i - 1)%nat. clear j L. intros k. revert q.
  induction k as [|k IH]; intros q P Q.
  - rewrite Nat.add_1_r in Q. apply (in_order _ _ _ _ WT _ _ _ P Q).
  - rewrite Nat.add_succ_r in Q.
    destruct (nth_error packets (i + S k)) as [r|] eqn:R.
    + pose proof (IH _ P eq_refl). destruct (in_order _ _ _ _ WT _ _ _ R Q). pose proof (end_len r). pose proof (len_pos r). lia.
    + apply nth_error_None in R. assert (nth_error packets (S (i + S k)) <> None) as N by congruence.
      apply nth_error_Some in N. lia.
Qed.
Lemma on_air_at i j p q t : at_ i p -> at_ j q -> on_air smp adj p t = true -> on_air smp adj q t = true -> i = j.
Proof.
  unfold on_air. intros P Q A B. destruct (lt_eq_lt_dec i j) as [[L|L]|L]; [|exact L|].
  - pose proof (order _ _ _ _ L P Q). lia.
  - pose proof (order _ _ _ _ L Q P). lia.
Qed.
Lemma sig_packet b p i : at_ b p -> 0 <= i < ln p -> sig (tx p + i) = nth (Z.to_nat i) (smps p) zero.
Proof.
  intros E I. unfold signal.
  assert (A : on_air smp adj p (tx p + i) = true) by (unfold on_air; rewrite end_len; lia).
  destruct (find _ packets) as [q|] eqn:F.
  - apply find_some in F. destruct F as [F1 F2]. apply In_nth_error in F1. destruct F1 as [j F1].
    pose proof (on_air_at _ _ _ _ _ E F1 A F2). subst j. rewrite F1 in E. injection E as ->.
    f_equal. lia.
  - pose proof (find_none _ _ F _ (nth_error_In _ _ E)) as X. cbn beta in X. congruence.
Qed.
(** Between the end of the previous packet and packet b there is nothing. *)
Lemma sig_before b p t : at_ b p -> t < tx p -> (forall i q, b = S i -> at_ i q -> eop q <= t) -> sig t = zero.
Proof.
  intros E T PV. unfold signal. destruct (find _ packets) as [q|] eqn:F; [|reflexivity].
  apply find_some in F. destruct F as [F1 F2]. apply In_nth_error in F1. destruct F1 as [j F1].
  unfold on_air in F2. exfalso.
  destruct (lt_eq_lt_dec j b) as [[L|L]|L].
  - destruct b as [|b]; [lia|].
    destruct (Nat.eq_dec j b) as [->|NE]; [specialize (PV _ _ eq_refl F1); lia|].
    destruct (nth_error packets b) as [r|] eqn:R.
    + specialize (PV _ _ eq_refl R). assert (J : (j < b)%nat) by lia. pose proof (order _ _ _ _ J F1 R).
      pose proof (end_len r). pose proof (len_pos r). lia.
    + apply nth_error_None in R. assert (nth_error packets (S b) <> None) as N by congruence.
      apply nth_error_Some in N. lia.
  - subst j. rewrite F1 in E. injection E as ->. lia.
  - pose proof (order _ _ _ _ L E F1). pose proof (end_len p). pose proof (len_pos p). lia.
Qed.

(** *** What is on air so far *)
Definition pos (d : device) : option Z := match d with Idle e => e | Burst e => Some e end.
Definition in_zone (t : Z) : Prop :=
  exists p, In p packets /\ tx p - prefix <= t < eop p + Z.max 0 gap_max.
Record good (d : device) (log : list (Z * smp)) : Prop := {
  g_sound : forall t s, In (t, s) log -> s = sig (t + advance) /\ in_zone (t + advance);
  g_before : forall t s, In (t, s) log -> exists e, pos d = Some e /\ t < e;
  g_sorted : StronglySorted (fun a b => fst a < fst b) log;
  g_complete : forall p i e, In p packets -> 0 <= i < ln p -> pos d = Some e -> tx p + i - advance < e ->
                 In (tx p + i - advance) (map fst log) }.

Lemma in_stamped s (data : list smp) x v :
  In (x, v) (combine (map (fun i => s + Z.of_nat i) (seq 0 (length data))) data) <->
  exists i, (i < length data)%nat /\ x = s + Z.of_nat i /\ nth_error data i = Some v.
Proof.
  revert s. induction data as [|a data IH]; intros s; cbn [length seq map combine In].
  - split; [tauto|]. intros (i & L & _). lia.
  - assert (SH : map (fun i => s + Z.of_nat i) (seq 1 (length data)) = map (fun i => (s + 1) + Z.of_nat i) (seq 0 (length data))).
    { rewrite <- seq_shift, map_map. apply map_ext. intros i. lia. }
    rewrite SH, IH. split.
    + intros [Q|(i & L & X & V)].
      * injection Q as <- <-. exists 0%nat. split; [lia|]. split; [lia|reflexivity].
      * exists (S i). split; [lia|]. split; [lia|exact V].
    + intros ([|i] & L & X & V).
      * left. cbn in V. injection V as ->. f_equal. lia.
      * right. exists i. split; [lia|]. split; [lia|exact V].
Qed.
Lemma sorted_stamped s (data : list smp) :
  StronglySorted (fun a b : Z * smp => fst a < fst b) (combine (map (fun i => s + Z.of_nat i) (seq 0 (length data))) data).
Proof.
  revert s. induction data as [|a data IH]; intros s; cbn [length seq map combine].
  - constructor.
  - assert (SH : map (fun i => s + Z.of_nat i) (seq 1 (length data)) = map (fun i => (s + 1) + Z.of_nat i) (seq 0 (length data))).
    { rewrite <- seq_shift, map_map. apply map_ext. intros i. lia. }
    rewrite SH. constructor; [apply IH|]. apply Forall_forall. intros [x v] I.
    apply in_stamped in I. destruct I as (i & _ & -> & _). cbn [fst]. lia.
Qed.
Lemma sorted_app (l m : list (Z * smp)) :
  StronglySorted (fun a b => fst a < fst b) l -> StronglySorted (fun a b => fst a < fst b) m ->
  (forall a b, In a l -> In b m -> fst a < fst b) -> StronglySorted (fun a b => fst a < fst b) (l ++ m).
Proof.
  intros L M X. induction L as [|a l L IH A]; cbn [app]; [exact M|]. constructor.
  - apply IH. intros b c B C. apply X; [right; exact B|exact C].
  - apply Forall_app. split; [exact A|]. apply Forall_forall. intros b B. apply X; [left; reflexivity|exact B].
Qed.

(** A chunk of samples at time s: nothing is missed before, and every sample is the right one. *)
Lemma extend d log s data d1 :
  good d log ->
  pos d1 = Some (s + Z.of_nat (length data)) ->
  (forall e, pos d = Some e -> e <= s) ->
  (forall p i, In p packets -> 0 <= i < ln p -> tx p + i - advance < s -> exists e, pos d = Some e /\ tx p + i - advance < e) ->
  (forall i v, nth_error data i = Some v -> v = sig (s + Z.of_nat i + advance) /\ in_zone (s + Z.of_nat i + advance)) ->
  good d1 (log ++ combine (map (fun i => s + Z.of_nat i) (seq 0 (length data))) data).
Proof.
  intros G P1 LE NM OK. constructor.
  - intros t v I. apply in_app_or in I. destruct I as [I|I]; [exact (g_sound _ _ G _ _ I)|].
    apply in_stamped in I. destruct I as (i & L & -> & V). exact (OK _ _ V).
  - intros t v I. exists (s + Z.of_nat (length data)). split; [exact P1|]. apply in_app_or in I. destruct I as [I|I].
    + destruct (g_before _ _ G _ _ I) as (e & E & LT). pose proof (LE _ E). lia.
    + apply in_stamped in I. destruct I as (i & L & -> & V). lia.
  - apply sorted_app; [exact (g_sorted _ _ G)|apply sorted_stamped|]. intros [t v] [u w] A B. cbn [fst].
    destruct (g_before _ _ G _ _ A) as (e & E & LT). pose proof (LE _ E).
    apply in_stamped in B. destruct B as (i & L & -> & V). lia.
  - intros p i e IP I E LT. rewrite P1 in E. injection E as <-. rewrite map_app. apply in_or_app.
    destruct (Z_lt_dec (tx p + i - advance) s) as [B|B].
    + left. destruct (NM _ _ IP I B) as (e & E & X). exact (g_complete _ _ G _ _ _ IP I E X).
    + right. apply in_map_iff.
      assert (J : (Z.to_nat (tx p + i - advance - s) < length data)%nat) by lia.
      destruct (nth_error data (Z.to_nat (tx p + i - advance - s))) as [v|] eqn:V;
        [|apply nth_error_None in V; lia].
      exists (tx p + i - advance, v). split; [reflexivity|]. apply in_stamped.
      exists (Z.to_nat (tx p + i - advance - s)). split; [exact J|]. split; [lia|exact V].
Qed.

(** *** The place of the thread *)
Definition last_end (b : nat) : option Z :=
  match b with
  | O => None
  | S i => match nth_error packets i with Some p => Some (eop p - advance) | None => None end
  end.
Definition placed (t : thread) (d : device) : Prop :=
  match at_place t with
  | Outer => d = Idle (last_end (expected t)) /\ (expected t <= length packets)%nat
  | First b None => b = expected t /\ exists p, at_ b p /\ d = Burst (tx p - advance)
  | First b (Some s) => b = expected t /\ prefix = 0 /\ exists p, at_ b p /\ s = tx p - advance /\ d = Idle (last_end b)
  | Middle b cnt => expected t = S b /\ exists p, at_ b p /\ 0 <= cnt < ln p /\ d = Burst (tx p - advance + cnt)
  | Gap b go n cnt => expected t = S b /\ exists p, at_ b p /\
      if go then exists q, at_ (S b) q /\ n = tx q - eop p /\ 0 <= cnt <= n /\ n <= gap_max /\ d = Burst (eop p - advance + cnt)
      else n = 0 /\ cnt = 0 /\ d = Idle (Some (eop p - advance))
  end.

Lemma last_end_some b e : last_end b = Some e -> exists i p, b = S i /\ at_ i p /\ e = eop p - advance.
Proof.
  destruct b as [|i]; cbn [last_end]; [discriminate|]. destruct (nth_error packets i) as [p|] eqn:P; [|discriminate].
  intros Q. injection Q as <-. exists i, p. repeat split. exact P.
Qed.
(** Nothing is missed between the end of the last packet and the beginning of packet b. *)
Lemma nothing_missed b p s : at_ b p -> s <= tx p - advance ->
  forall q i, In q packets -> 0 <= i < ln q -> tx q + i - advance < s -> exists e, last_end b = Some e /\ tx q + i - advance < e.
Proof.
  intros P SL q i IQ I LT. apply In_nth_error in IQ. destruct IQ as [j J].
  destruct (le_lt_dec b j) as [L|L].
  - assert (tx p <= tx q).
    { destruct (Nat.eq_dec b j) as [->|NE]; [rewrite P in J; injection J as ->; lia|].
      assert (K : (b < j)%nat) by lia. pose proof (order _ _ _ _ K P J). pose proof (end_len p). pose proof (len_pos p). lia. }
    lia.
  - destruct b as [|b]; [lia|]. cbn [last_end].
    destruct (nth_error packets b) as [r|] eqn:R.
    + exists (eop r - advance). split; [reflexivity|].
      destruct (Nat.eq_dec j b) as [->|NE]; [rewrite R in J; injection J as ->; rewrite end_len; lia|].
      assert (K : (j < b)%nat) by lia. pose proof (order _ _ _ _ K J R). pose proof (end_len r). pose proof (len_pos r).
      pose proof (end_len q). lia.
    + apply nth_error_None in R. assert (nth_error packets (S b) <> None) as N by congruence.
      apply nth_error_Some in N. lia.
Qed.

(** *** The samples of a call *)
Lemma offer_ok p target off n : 0 <= off -> 0 <= n -> off + n <= target -> target <= ln p ->
  offer smp garbage adj p target off n = Ok (firstn (Z.to_nat n) (skipn (Z.to_nat off) (smps p))).
Proof.
  intros O N1 T L. unfold offer. replace (target <=? ln p) with true by lia. cbn [guard]. f_equal.
  unfold lenp in L. set (l := smps p) in *. clearbody l.
  rewrite skipn_app. rewrite firstn_app. rewrite skipn_length, firstn_length.
  replace (Z.to_nat n - _)%nat with 0%nat by lia. cbn [firstn]. rewrite app_nil_r.
  rewrite skipn_firstn_comm, firstn_firstn. f_equal. lia.
Qed.
Lemma sent_length p off n acc : 0 <= off -> off + n <= ln p -> 0 <= n ->
  Z.of_nat (length (firstn (Z.to_nat (taken n acc)) (firstn (Z.to_nat n) (skipn (Z.to_nat off) (smps p))))) = taken n acc.
Proof. intros. unfold lenp, taken in *. rewrite !firstn_length, skipn_length. lia. Qed.
Lemma zeros_length n acc : 0 <= n -> Z.of_nat (length (firstn (Z.to_nat (taken n acc)) (zeros smp zero n))) = taken n acc.
Proof. intros. unfold zeros, taken. rewrite firstn_length, repeat_length. lia. Qed.
Lemma zeros_nth n k i v : nth_error (firstn k (zeros smp zero n)) i = Some v -> v = zero.
Proof.
  intros E. apply nth_error_In in E. assert (In v (zeros smp zero n)) as I.
  { rewrite <- (firstn_skipn k). apply in_or_app. left. exact E. }
  unfold zeros in I. apply repeat_spec in I. exact I.
Qed.
Lemma sent_nth (l : list smp) off n k i v : nth_error (firstn k (firstn n (skipn off l))) i = Some v ->
  (off + i < length l)%nat /\ v = nth (off + i) l zero /\ (i < n)%nat /\ (i < k)%nat.
Proof.
  intros E. assert (L : (i < length (firstn k (firstn n (skipn off l))))%nat) by (apply nth_error_Some; congruence).
  rewrite !firstn_length, skipn_length in L.
  assert (E2 : nth_error l (off + i) = Some v).
  { rewrite <- E. rewrite <- (firstn_skipn off l) at 1. rewrite nth_error_app2 by (rewrite firstn_length; lia).
    rewrite firstn_length. replace (off + i - Nat.min off (length l))%nat with i by lia.
    rewrite <- (firstn_skipn n (skipn off l)) at 1. rewrite nth_error_app1 by (rewrite firstn_length, skipn_length; lia).
    rewrite <- (firstn_skipn k (firstn n (skipn off l))) at 1.
    rewrite nth_error_app1 by (rewrite !firstn_length, skipn_length; lia). reflexivity. }
  repeat split; try lia. symmetry. apply nth_error_nth. exact E2.
Qed.
Lemma sent_good b p off n k s i v : at_ b p -> 0 <= off -> s = tx p - advance + off ->
  nth_error (firstn k (firstn n (skipn (Z.to_nat off) (smps p)))) i = Some v ->
  v = sig (s + Z.of_nat i + advance) /\ in_zone (s + Z.of_nat i + advance).
Proof.
  intros P O -> E. apply sent_nth in E. destruct E as (L & -> & _). split.
  - replace (tx p - advance + off + Z.of_nat i + advance) with (tx p + (off + Z.of_nat i)) by lia.
    rewrite (sig_packet b p) by (try exact P; unfold lenp; lia). f_equal. lia.
  - exists p. split; [exact (nth_error_In _ _ P)|]. rewrite end_len. unfold lenp. lia.
Qed.

Lemma i32_id z : 0 <= z < 2147483648 -> to_i32 z = z.
Proof. intros. unfold to_i32. rewrite Z.mod_small by lia. lia. Qed.
Lemma u32_id z : 0 <= z < 2147483648 -> to_u32 z = z.
Proof. intros. unfold to_u32. rewrite Z.mod_small by lia. lia. Qed.

Lemma air_app d a b : air smp adj d (a ++ b) =
  match air smp adj d a with
  | Some (d1, x) => match air smp adj d1 b with Some (d2, y) => Some (d2, x ++ y) | None => None end
  | None => None
  end.
Proof.
  revert d. induction a as [|c a IH]; intros d; cbn [app air].
  - destruct (air smp adj d b) as [[? ?]|]; reflexivity.
  - destruct (on_device smp adj d c) as [[d1 x]|]; [|reflexivity]. rewrite IH.
    destruct (air smp adj d1 a) as [[d2 y]|]; [|reflexivity].
    destruct (air smp adj d2 b) as [[d3 z]|]; [|reflexivity]. rewrite app_assoc. reflexivity.
Qed.

Lemma air_burst e eob n data d1 y : air smp adj (Burst e) [Send smp adj None eob n data] = Some (d1, y) ->
  d1 = (if eob then Idle (Some (e + Z.of_nat (length data))) else Burst (e + Z.of_nat (length data))) /\
  y = combine (map (fun i => e + Z.of_nat i) (seq 0 (length data))) data.
Proof. cbn [air on_device]. intros Q. injection Q as <- <-. rewrite app_nil_r. split; reflexivity. Qed.
Lemma air_idle e s eob n data d1 y : air smp adj (Idle e) [Send smp adj (Some s) eob n data] = Some (d1, y) ->
  (forall x, e = Some x -> x <= s) /\
  d1 = (if eob then Idle (Some (s + Z.of_nat (length data))) else Burst (s + Z.of_nat (length data))) /\
  y = combine (map (fun i => s + Z.of_nat i) (seq 0 (length data))) data.
Proof.
  cbn [air on_device]. destruct (match e with Some e0 => e0 <=? s | None => true end) eqn:C; [|discriminate].
  intros Q. injection Q as <- <-. rewrite app_nil_r. split; [|split; reflexivity].
  intros x ->. lia.
Qed.
Lemma air_adjust d l : (forall a, In a l -> match a with Send _ _ _ _ _ _ => False | _ => True end) ->
  air smp adj d l = Some (d, []).
Proof.
  induction l as [|a l IH]; intros A; cbn [air]; [reflexivity|].
  assert (on_device smp adj d a = Some (d, [])) as ->.
  { specialize (A a (or_introl eq_refl)). destruct a; [destruct A|reflexivity|reflexivity]. }
  rewrite IH by (intros b B; apply A; right; exact B). reflexivity.
Qed.

Lemma burst_extend e log b p off n acc eob y d1 len :
  good (Burst e) log -> at_ b p -> 0 <= off -> 0 <= n -> off + n <= ln p -> e = tx p - advance + off ->
  air smp adj (Burst e) [send smp adj None eob len (firstn (Z.to_nat n) (skipn (Z.to_nat off) (smps p))) acc] = Some (d1, y) ->
  len = n ->
  good d1 (log ++ y) /\
  d1 = (if eob then Idle (Some (e + taken n acc)) else Burst (e + taken n acc)).
Proof.
  intros G P O N1 ON E A ->. unfold send in A. apply air_burst in A. destruct A as [-> ->].
  split; [|rewrite sent_length by assumption; reflexivity].
  apply (extend (Burst e)).
  - exact G.
  - destruct eob; reflexivity.
  - intros x X. injection X as <-. lia.
  - intros q i _ _ L. exists e. split; [reflexivity|exact L].
  - intros i v V. exact (sent_good _ _ _ _ _ _ _ _ P O E V).
Qed.

Lemma step_inv t d log a t1 o d1 y :
  good d log -> placed t d -> stp t a = Ok (t1, o) -> starts_taken smp adj o -> air smp adj d o = Some (d1, y) ->
  good d1 (log ++ y) /\ placed t1 d1.
Proof.
  destruct a as [found acc]. unfold placed, step. destruct t as [ex pl]. cbn [at_place expected].
  destruct pl as [|b [s|]|b cnt|b go n cnt]; intros G PL ST TK A.
  - (* Outer *)
    destruct PL as [-> LE]. unfold outer in ST. cbn [expected] in ST.
    destruct (nth_error packets ex) as [p|] eqn:P.
    2:{ injection ST as <- <-. cbn [air] in A. injection A as <- <-. rewrite app_nil_r. cbn [at_place expected].
        split; [exact G|]. split; [reflexivity|exact LE]. }
    destruct found.
    2:{ injection ST as <- <-. cbn [air] in A. injection A as <- <-. rewrite app_nil_r. cbn [at_place expected].
        split; [exact G|]. split; [reflexivity|exact LE]. }
    destruct (0 <? prefix) eqn:PP.
    + injection ST as <- <-. cbn [at_place expected].
      assert (T : taken prefix acc = prefix).
      { pose proof (TK _ _ _ _ (or_introl eq_refl)) as X. rewrite zeros_length in X by lia. symmetry. exact X. }
      unfold send in A. apply air_idle in A. destruct A as (LB & -> & ->). split; [|split; [reflexivity|]; exists p; split; [exact P|rewrite zeros_length by lia; f_equal; lia]].
      apply (extend (Idle (last_end ex))).
      * exact G.
      * reflexivity.
      * exact LB.
      * cbn [pos]. apply (nothing_missed ex p); [exact P|lia].
      * intros i v V. pose proof (zeros_nth _ _ _ _ V) as ->.
        assert (I : (i < Z.to_nat prefix)%nat).
        { assert (nth_error (firstn (Z.to_nat (taken prefix acc)) (zeros smp zero prefix)) i <> None) as N1 by congruence.
          apply nth_error_Some in N1. rewrite firstn_length in N1. unfold zeros in N1. rewrite repeat_length in N1. lia. }
        split.
        -- symmetry. apply (sig_before ex p); [exact P|lia|]. intros j q -> Q.
           assert (X : last_end (S j) = Some (eop q - advance)) by (cbn [last_end]; rewrite Q; reflexivity).
           specialize (LB _ X). lia.
        -- exists p. split; [exact (nth_error_In _ _ P)|]. pose proof (end_len p). pose proof (len_pos p). lia.
    + injection ST as <- <-. cbn [air] in A. injection A as <- <-. rewrite app_nil_r. cbn [at_place expected].
      split; [exact G|]. split; [reflexivity|]. split; [lia|]. exists p. split; [exact P|]. split; [lia|reflexivity].
  - (* First with the start of the burst *)
    destruct PL as (-> & P0 & p & P & -> & ->). unfold first, rd in ST. rewrite P in ST. cbn [bind] in ST.
    pose proof (long _ _ P) as LG. replace (spp <? ln p) with true in ST by lia. cbn [guard] in ST.
    rewrite offer_ok in ST by lia. cbn [bind expected] in ST.
    assert (ET : t1 = {| expected := S ex; at_place := Middle ex (taken spp acc) |} /\
                 o = [send smp adj (Some (tx p - advance)) false spp (firstn (Z.to_nat spp) (skipn (Z.to_nat 0) (smps p))) acc])
      by (injection ST as <- <-; split; reflexivity).
    destruct ET as [-> ->]. clear ST. cbn [at_place expected].
    unfold send in A. apply air_idle in A. destruct A as (LB & -> & ->).
    split; [|split; [reflexivity|]; exists p; split; [exact P|]; split; [unfold taken; lia|rewrite sent_length by lia; reflexivity]].
    apply (extend (Idle (last_end ex))).
    + exact G.
    + reflexivity.
    + exact LB.
    + cbn [pos]. apply (nothing_missed ex p); [exact P|lia].
    + intros i v V. eapply (sent_good ex p 0); [exact P|lia|lia|exact V].
  - (* First within a burst *)
    destruct PL as (-> & p & P & ->). unfold first, rd in ST. rewrite P in ST. cbn [bind] in ST.
    pose proof (long _ _ P) as LG. replace (spp <? ln p) with true in ST by lia. cbn [guard] in ST.
    rewrite offer_ok in ST by lia. cbn [bind expected] in ST.
    assert (ET : t1 = {| expected := S ex; at_place := Middle ex (taken spp acc) |} /\
                 o = [send smp adj None false spp (firstn (Z.to_nat spp) (skipn (Z.to_nat 0) (smps p))) acc])
      by (injection ST as <- <-; split; reflexivity).
    destruct ET as [-> ->]. clear ST. cbn [at_place expected].
    destruct (burst_extend _ _ ex p 0 spp acc false y d1 spp G P) as [G1 ->]; [lia|lia|lia|lia|exact A|reflexivity|].
    split; [exact G1|]. split; [reflexivity|]. exists p. split; [exact P|]. split; [unfold taken; lia|reflexivity].
  - (* Middle *)
    destruct PL as (-> & p & P & C & ->). unfold middle, rd in ST. rewrite P in ST. cbn [bind expected] in ST.
    destruct (spp <? ln p - cnt) eqn:MORE.
    + rewrite offer_ok in ST by lia. cbn [bind expected] in ST. injection ST as <- <-. cbn [at_place expected].
      destruct (burst_extend _ _ b p cnt spp acc false y d1 spp G P) as [G1 ->]; [lia|lia|lia|lia|exact A|reflexivity|].
      split; [exact G1|]. split; [reflexivity|]. exists p. split; [exact P|]. split; [unfold taken; lia|f_equal; lia].
    + replace ((0 <? ln p - cnt) && (ln p - cnt <=? spp)) with true in ST by lia. cbn [guard] in ST.
      unfold next_gap in ST. cbn [expected] in ST.
      assert (NG : exists g, (if 0 <=? gap_max
          then match nth_error packets (S b) with
               | Some q => if found then guard (tx p - advance + ln p <=? tx q - advance)
                     (Ok (if gap_max <? to_i32 (tx q - advance - (tx p - advance + ln p)) then None
                          else Some (to_u32 (to_i32 (tx q - advance - (tx p - advance + ln p))))))
                   else Ok None
               | None => Ok None end
          else Ok None) = Ok g /\
          match g with Some x => exists q, at_ (S b) q /\ x = tx q - eop p /\ 0 <= x <= gap_max | None => True end).
      { destruct (0 <=? gap_max); [|exists None; split; [reflexivity|exact I]].
        destruct (nth_error packets (S b)) as [q|] eqn:Q; [|exists None; split; [reflexivity|exact I]].
        destruct found; [|exists None; split; [reflexivity|exact I]].
        destruct (in_order _ _ _ _ WT _ _ _ P Q) as [O1 O2]. rewrite end_len in O1, O2.
        replace (tx p - advance + ln p <=? tx q - advance) with true by lia. cbn [guard].
        rewrite i32_id by lia. rewrite u32_id by lia.
        destruct (gap_max <? tx q - advance - (tx p - advance + ln p)) eqn:GT; eexists; (split; [reflexivity|]); cbv beta iota; [exact I|].
        exists q. split; [reflexivity|]. rewrite end_len. lia. }
      destruct NG as (g & NG & GG). cbn zeta in ST. rewrite NG in ST. clear NG. cbn [bind] in ST.
      rewrite offer_ok in ST by lia. cbn [bind expected] in ST.
      destruct (ln p =? cnt + taken (ln p - cnt) acc) eqn:FULL; cbn [guard] in ST; [|discriminate].
      injection ST as <- <-. cbn [at_place expected].
      destruct (burst_extend _ _ b p cnt (ln p - cnt) acc (negb match g with Some _ => true | None => false end) y d1 (ln p - cnt) G P)
        as [G1 ->]; [lia|lia|lia|lia|exact A|reflexivity|].
      split; [exact G1|]. split; [reflexivity|]. exists p. split; [exact P|].
      destruct g as [x|]; cbn [negb].
      * destruct GG as (q & Q & X & XB). exists q. split; [exact Q|]. split; [exact X|]. split; [lia|]. split; [lia|].
        rewrite end_len. f_equal. lia.
      * split; [reflexivity|]. split; [reflexivity|]. rewrite end_len. f_equal. f_equal. lia.
  - (* Gap *)
    destruct PL as (-> & p & P & PL). unfold gap in ST. cbn [expected] in ST.
    destruct (cnt <? n) eqn:MORE.
    + destruct go; cbn [guard] in ST; [|lia]. destruct PL as (q & Q & -> & C & NB & ->).
      injection ST as <- <-. cbn [at_place expected].
      unfold send in A. apply air_burst in A. destruct A as [-> ->].
      split.
      2:{ rewrite zeros_length by lia. split; [reflexivity|]. exists p. split; [exact P|]. exists q. split; [exact Q|]. split; [reflexivity|].
          split; [unfold taken; lia|]. split; [exact NB|]. f_equal. lia. }
      apply (extend (Burst (eop p - advance + cnt))).
      * exact G.
      * reflexivity.
      * intros x X. injection X as <-. lia.
      * intros r i _ _ L. eexists. split; [reflexivity|exact L].
      * intros i v V. pose proof (zeros_nth _ _ _ _ V) as ->.
        assert (I : (i < Z.to_nat (Z.min spp (tx q - eop p - cnt)))%nat).
        { assert (nth_error (firstn (Z.to_nat (taken (Z.min spp (tx q - eop p - cnt)) acc)) (zeros smp zero (Z.min spp (tx q - eop p - cnt)))) i <> None) as N1 by congruence.
          apply nth_error_Some in N1. rewrite firstn_length in N1. unfold zeros in N1. rewrite repeat_length in N1. lia. }
        split.
        -- symmetry. apply (sig_before (S b) q); [exact Q|lia|]. intros j r [= <-] R. rewrite P in R. injection R as <-. lia.
        -- exists p. split; [exact (nth_error_In _ _ P)|]. pose proof (end_len p). pose proof (len_pos p). lia.
    + unfold rd in ST. rewrite P in ST. cbn [bind] in ST.
      destruct (negb (go && has_adj smp adj p)); cbn [guard] in ST; [|discriminate].
      injection ST as <- <-. cbn [at_place expected].
      rewrite air_adjust in A.
      2:{ intros a IA. apply in_app_or in IA. destruct (tx_adj smp adj p), (rx_adj smp adj p);
            cbn [In] in IA; destruct IA as [IA|IA]; intuition (subst; auto). }
      injection A as <- <-. rewrite app_nil_r. split; [exact G|].
      destruct go.
      * destruct PL as (q & Q & -> & C & NB & ->). split; [reflexivity|]. exists q. split; [exact Q|]. f_equal. lia.
      * destruct PL as (-> & -> & ->). cbn [last_end]. rewrite P. split; [reflexivity|].
        assert (nth_error packets b <> None) as N1 by congruence. apply nth_error_Some in N1. lia.
Qed.

Lemma starts_app l m : starts_taken smp adj (l ++ m) <-> starts_taken smp adj l /\ starts_taken smp adj m.
Proof.
  unfold starts_taken. split.
  - intros A. split; intros s e n d I; apply (A s e); apply in_or_app; [left|right]; exact I.
  - intros [A B] s e n d I. apply in_app_or in I. destruct I as [I|I]; [exact (A _ _ _ _ I)|exact (B _ _ _ _ I)].
Qed.

Lemma run_inv env : forall t d log t1 o d1 y,
  good d log -> placed t d -> go_run t env = Ok (t1, o) -> starts_taken smp adj o -> air smp adj d o = Some (d1, y) ->
  good d1 (log ++ y) /\ placed t1 d1.
Proof.
  induction env as [|a env IH]; intros t d log t1 o d1 y G PL R TK A; cbn [run] in R.
  - injection R as <- <-. cbn [air] in A. injection A as <- <-. rewrite app_nil_r. split; assumption.
  - apply bind_ok_inv in R. destruct R as ([t2 o2] & ST & R). apply bind_ok_inv in R. destruct R as ([t3 o3] & R & Q).
    injection Q as <- <-. apply starts_app in TK. destruct TK as [T1 T2]. rewrite air_app in A.
    destruct (air smp adj d o2) as [[d2 y2]|] eqn:A2; [|discriminate].
    destruct (air smp adj d2 o3) as [[d3 y3]|] eqn:A3; [|discriminate]. injection A as <- <-.
    destruct (step_inv _ _ _ _ _ _ _ _ G PL ST T1 A2) as [G2 P2].
    rewrite app_assoc. exact (IH _ _ _ _ _ _ _ G2 P2 R T2 A3).
Qed.

Lemma good_new : good (Idle None) [].
Proof. constructor; [intros ? ? []|intros ? ? []|constructor|intros p i e _ _ Q; discriminate]. Qed.
Lemma placed_new : placed thread_new (Idle None).
Proof. split; [reflexivity|]. cbn. lia. Qed.

(** *** Bursts follow each other *)
Definition roomy : Prop := forall i p q, at_ i p -> at_ (S i) q -> eop p + prefix <= tx q.
Lemma step_order t d a t1 o : roomy -> placed t d -> stp t a = Ok (t1, o) -> air smp adj d o <> None.
Proof.
  intros RM. destruct a as [found acc]. unfold placed, step. destruct t as [ex pl]. cbn [at_place expected].
  destruct pl as [|b [s|]|b cnt|b go n cnt]; intros PL ST.
  - destruct PL as [-> LE]. unfold outer in ST. cbn [expected] in ST.
    destruct (nth_error packets ex) as [p|] eqn:P; [|injection ST as <- <-; discriminate].
    destruct found; [|injection ST as <- <-; discriminate].
    destruct (0 <? prefix) eqn:PP; [|injection ST as <- <-; discriminate].
    injection ST as <- <-. unfold send. cbn [air on_device].
    assert (match last_end ex with Some e => e <=? tx p - advance - prefix | None => true end = true) as ->; [|discriminate].
    destruct (last_end ex) as [e|] eqn:LE2; [|reflexivity].
    apply last_end_some in LE2. destruct LE2 as (i & q & -> & Q & ->). pose proof (RM _ _ _ Q P). lia.
  - destruct PL as (-> & P0 & p & P & -> & ->). unfold first, rd in ST. rewrite P in ST. cbn [bind] in ST.
    destruct (spp <? ln p); cbn [guard] in ST; [|discriminate].
    apply bind_ok_inv in ST. destruct ST as (dd & _ & ST). injection ST as <- <-. unfold send. cbn [air on_device].
    assert (match last_end ex with Some e => e <=? tx p - advance | None => true end = true) as ->; [|discriminate].
    destruct (last_end ex) as [e|] eqn:LE2; [|reflexivity].
    apply last_end_some in LE2. destruct LE2 as (i & q & -> & Q & ->). pose proof (RM _ _ _ Q P). lia.
  - destruct PL as (-> & p & P & ->). unfold first in ST.
    apply bind_ok_inv in ST. destruct ST as (pp & _ & ST). unfold guard in ST. destruct (spp <? ln pp); [|discriminate].
    apply bind_ok_inv in ST. destruct ST as (dd & _ & ST). injection ST as <- <-. unfold send. cbn [air on_device]. discriminate.
  - destruct PL as (-> & p & P & C & ->). unfold middle in ST.
    apply bind_ok_inv in ST. destruct ST as (pp & _ & ST). destruct (spp <? ln pp - cnt).
    + apply bind_ok_inv in ST. destruct ST as (dd & _ & ST). injection ST as <- <-. unfold send. cbn [air on_device]. discriminate.
    + unfold guard in ST. destruct ((0 <? ln pp - cnt) && (ln pp - cnt <=? spp)); [|discriminate].
      apply bind_ok_inv in ST. destruct ST as (g & _ & ST). apply bind_ok_inv in ST. destruct ST as (dd & _ & ST).
      cbv zeta in ST. destruct (ln pp =? cnt + taken (ln pp - cnt) acc); [|discriminate]. injection ST as <- <-.
      unfold send. cbn [air on_device]. discriminate.
  - destruct PL as (-> & p & P & PL). unfold gap in ST. destruct (cnt <? n) eqn:MORE.
    + destruct go; cbn [guard] in ST; [|discriminate]. destruct PL as (q & Q & -> & C & NB & ->).
      injection ST as <- <-. unfold send. cbn [air on_device]. discriminate.
    + apply bind_ok_inv in ST. destruct ST as (pp & _ & ST). unfold guard in ST.
      destruct (negb (go && has_adj smp adj pp)); [|discriminate]. injection ST as <- <-.
      rewrite air_adjust; [discriminate|]. intros a IA. apply in_app_or in IA.
      destruct (tx_adj smp adj pp), (rx_adj smp adj pp); cbn [In] in IA; destruct IA as [IA|IA]; intuition (subst; auto).
Qed.
Lemma run_order env : forall t d log t1 o, roomy -> good d log -> placed t d -> go_run t env = Ok (t1, o) ->
  starts_taken smp adj o -> air smp adj d o <> None.
Proof.
  induction env as [|a env IH]; intros t d log t1 o RM G PL R TK; cbn [run] in R.
  - injection R as <- <-. discriminate.
  - apply bind_ok_inv in R. destruct R as ([t2 o2] & ST & R). apply bind_ok_inv in R. destruct R as ([t3 o3] & R & Q).
    injection Q as <- <-. apply starts_app in TK. destruct TK as [T1 T2]. rewrite air_app.
    pose proof (step_order _ _ _ _ _ RM PL ST) as NN.
    destruct (air smp adj d o2) as [[d2 y2]|] eqn:A2; [|congruence].
    destruct (step_inv _ _ _ _ _ _ _ _ G PL ST T1 A2) as [G2 P2].
    pose proof (IH _ _ _ _ _ RM G2 P2 R T2). destruct (air smp adj d2 o3) as [[d3 y3]|]; [discriminate|congruence].
Qed.

(** *** Adjustments *)
Notation want := (wanted smp adj advance).
Definition spot (t : thread) : Prop :=
  match at_place t with Outer => True | First b _ => b = expected t | Middle b _ | Gap b _ _ _ => expected t = S b end.
Lemma adjustments_app l m : adjustments smp adj (l ++ m) = adjustments smp adj l ++ adjustments smp adj m.
Proof. apply filter_app. Qed.
Lemma firstn_next b p : at_ b p -> firstn (S b) packets = firstn b packets ++ [p].
Proof.
  clear. revert b. induction packets as [|q l IH]; intros [|b] E; cbn in *; try discriminate.
  - injection E as ->. reflexivity.
  - f_equal. exact (IH _ E).
Qed.
Lemma step_adjust t a t1 o : spot t -> stp t a = Ok (t1, o) ->
  spot t1 /\ concat (map want (firstn (released t1) packets)) = concat (map want (firstn (released t) packets)) ++ adjustments smp adj o.
Proof.
  destruct a as [found acc]. unfold spot, step, released. destruct t as [ex pl]. cbn [at_place expected].
  destruct pl as [|b s|b cnt|b go n cnt]; intros SP ST.
  - unfold outer in ST. cbn [expected] in ST.
    destruct (nth_error packets ex) as [p|]; [|injection ST as <- <-; cbn; rewrite app_nil_r; split; [exact I|reflexivity]].
    destruct found; [|injection ST as <- <-; cbn; rewrite app_nil_r; split; [exact I|reflexivity]].
    destruct (0 <? prefix); injection ST as <- <-; cbn; rewrite app_nil_r; split; reflexivity.
  - subst b. unfold first in ST.
    apply bind_ok_inv in ST. destruct ST as (pp & _ & ST). unfold guard in ST. destruct (spp <? ln pp); [|discriminate].
    apply bind_ok_inv in ST. destruct ST as (dd & _ & ST). injection ST as <- <-. cbn. rewrite app_nil_r. split; reflexivity.
  - subst ex. unfold middle in ST.
    apply bind_ok_inv in ST. destruct ST as (pp & _ & ST). destruct (spp <? ln pp - cnt).
    + apply bind_ok_inv in ST. destruct ST as (dd & _ & ST). injection ST as <- <-. cbn. rewrite app_nil_r. split; reflexivity.
    + unfold guard in ST. destruct ((0 <? ln pp - cnt) && (ln pp - cnt <=? spp)); [|discriminate].
      apply bind_ok_inv in ST. destruct ST as (g & _ & ST). apply bind_ok_inv in ST. destruct ST as (dd & _ & ST).
      cbv zeta in ST. destruct (ln pp =? cnt + taken (ln pp - cnt) acc); [|discriminate]. injection ST as <- <-.
      cbn. rewrite app_nil_r. split; reflexivity.
  - subst ex. unfold gap in ST. destruct (cnt <? n) eqn:MORE.
    + destruct go; cbn [guard] in ST; [|discriminate].
      injection ST as <- <-. cbn. rewrite app_nil_r. split; reflexivity.
    + unfold rd in ST. destruct (nth_error packets b) as [p|] eqn:P; [|discriminate]. cbn [bind] in ST. unfold guard in ST.
      destruct (negb (go && has_adj smp adj p)); [|discriminate]. injection ST as <- <-. cbn [expected at_place].
      split; [destruct go; [reflexivity|exact I]|].
      assert (match (if go then First (S b) None else Outer) with
              | Outer | First _ _ => S b | Middle b0 _ | Gap b0 _ _ _ => b0 end = S b) as -> by (destruct go; reflexivity).
      rewrite (firstn_next _ _ P), map_app, concat_app. cbn [map concat]. rewrite app_nil_r. f_equal.
      unfold wanted. replace (eop p - advance) with (tx p - advance + ln p) by (rewrite end_len; lia).
      destruct (tx_adj smp adj p), (rx_adj smp adj p); reflexivity.
Qed.
Lemma run_adjust env : forall t t1 o, spot t -> go_run t env = Ok (t1, o) ->
  concat (map want (firstn (released t1) packets)) = concat (map want (firstn (released t) packets)) ++ adjustments smp adj o.
Proof.
  induction env as [|a env IH]; intros t t1 o SP R; cbn [run] in R.
  - injection R as <- <-. cbn. rewrite app_nil_r. reflexivity.
  - apply bind_ok_inv in R. destruct R as ([t2 o2] & ST & R). apply bind_ok_inv in R. destruct R as ([t3 o3] & R & Q).
    injection Q as <- <-. destruct (step_adjust _ _ _ _ SP ST) as [S2 E2]. rewrite (IH _ _ _ S2 R), E2.
    rewrite adjustments_app, app_assoc. reflexivity.
Qed.

(** *** A driver that takes everything: the thread never aborts, and sends all packets *)
Definition loose : Prop := forall i p q, at_ i p -> at_ (S i) q -> has_adj smp adj p = true -> gap_max < tx q - eop p.
Fixpoint work (l : list (packet smp adj)) : Z := match l with [] => 0 | p :: l => ln p + Z.max 0 gap_max + 5 + work l end.
Definition left (t : thread) : Z :=
  match at_place t with
  | Outer => work (skipn (expected t) packets)
  | First b _ => work (skipn b packets) - 1
  | Middle b cnt => work (skipn (S b) packets) + Z.max 0 gap_max + 3 +
      match nth_error packets b with Some p => ln p - cnt | None => 0 end
  | Gap b _ n cnt => work (skipn (S b) packets) + 1 + (n - cnt)
  end.
Lemma work_next b p : at_ b p -> work (skipn b packets) = ln p + Z.max 0 gap_max + 5 + work (skipn (S b) packets).
Proof.
  clear. revert b. induction packets as [|q l IH]; intros [|b] E; cbn in *; try discriminate.
  - injection E as ->. reflexivity.
  - exact (IH _ E).
Qed.
Lemma work_pos l : 0 <= work l.
Proof. induction l as [|p l IH]; cbn [work]; [lia|]. pose proof (len_pos p). lia. Qed.

Lemma no_starts eob n data : starts_taken smp adj [Send smp adj None eob n data].
Proof. intros s e k d [Q|[]]. discriminate. Qed.
Lemma adjust_starts p e : starts_taken smp adj
  (match tx_adj smp adj p with Some a => [Adjust_tx smp adj e a] | None => [] end ++
   match rx_adj smp adj p with Some a => [Adjust_rx smp adj e a] | None => [] end).
Proof. intros s x k d I. destruct (tx_adj smp adj p), (rx_adj smp adj p); cbn in I; intuition discriminate. Qed.

Lemma step_total t d found acc : loose -> placed t d -> spp <= acc ->
  exists t1 o, stp t (found, acc) = Ok (t1, o) /\ (exists d1, placed t1 d1) /\ starts_taken smp adj o /\
    (found = true -> (at_place t = Outer -> (expected t < length packets)%nat) -> left t1 < left t).
Proof.
  intros LO. unfold placed, step. destruct t as [ex pl]. cbn [at_place expected].
  destruct pl as [|b [s|]|b cnt|b go n cnt]; intros PL ACC.
  - destruct PL as [-> LE]. unfold outer. cbn [expected].
    destruct (nth_error packets ex) as [p|] eqn:P.
    2:{ eexists _, _. split; [reflexivity|]. split; [eexists; split; [reflexivity|exact LE]|]. split; [intros ? ? ? ? []|].
        intros _ LT. specialize (LT eq_refl). apply nth_error_None in P. lia. }
    destruct found.
    2:{ eexists _, _. split; [reflexivity|]. split; [eexists; split; [reflexivity|exact LE]|]. split; [intros ? ? ? ? []|]. discriminate. }
    destruct (0 <? prefix) eqn:PP.
    + eexists _, _. split; [reflexivity|]. cbn [at_place expected left]. split; [|split].
      * eexists. split; [reflexivity|]. exists p. split; [exact P|reflexivity].
      * intros s e k dd [Q|[]]. injection Q as <- <- <- <-. rewrite zeros_length by lia. unfold taken. lia.
      * intros _ _. unfold left. cbn [at_place expected]. lia.
    + eexists _, _. split; [reflexivity|]. cbn [at_place expected]. split; [|split].
      * eexists. split; [reflexivity|]. split; [lia|]. exists p. split; [exact P|]. split; [lia|reflexivity].
      * intros ? ? ? ? [].
      * intros _ _. unfold left. cbn [at_place expected]. lia.
  - destruct PL as (-> & P0 & p & P & -> & ->). unfold first, rd. rewrite P. cbn [bind].
    pose proof (long _ _ P) as LG. replace (spp <? ln p) with true by lia. cbn [guard]. rewrite offer_ok by lia. cbn [bind].
    eexists _, _. split; [reflexivity|]. cbn [at_place expected]. split; [|split].
    + eexists. split; [reflexivity|]. exists p. split; [exact P|]. split; [unfold taken; lia|reflexivity].
    + intros s e k dd [Q|[]].
      assert (k = spp /\ dd = firstn (Z.to_nat (taken spp acc)) (firstn (Z.to_nat spp) (skipn (Z.to_nat 0) (smps p)))) as [-> ->]
        by (injection Q as _ _ <- <-; split; reflexivity).
      rewrite sent_length by lia. unfold taken. lia.
    + intros _ _. unfold left. cbn [at_place expected]. rewrite P. rewrite (work_next _ _ P). unfold taken. lia.
  - destruct PL as (-> & p & P & ->). unfold first, rd. rewrite P. cbn [bind].
    pose proof (long _ _ P) as LG. replace (spp <? ln p) with true by lia. cbn [guard]. rewrite offer_ok by lia. cbn [bind].
    eexists _, _. split; [reflexivity|]. cbn [at_place expected]. split; [|split].
    + eexists. split; [reflexivity|]. exists p. split; [exact P|]. split; [unfold taken; lia|reflexivity].
    + apply no_starts.
    + intros _ _. unfold left. cbn [at_place expected]. rewrite P. rewrite (work_next _ _ P). unfold taken. lia.
  - destruct PL as (-> & p & P & C & ->). unfold middle, rd. rewrite P. cbn [bind expected].
    destruct (spp <? ln p - cnt) eqn:MORE.
    + rewrite offer_ok by lia. cbn [bind]. eexists _, _. split; [reflexivity|]. cbn [at_place expected]. split; [|split].
      * eexists. split; [reflexivity|]. exists p. split; [exact P|]. split; [unfold taken; lia|reflexivity].
      * apply no_starts.
      * intros _ _. unfold left. cbn [at_place expected]. rewrite P. unfold taken. lia.
    + replace ((0 <? ln p - cnt) && (ln p - cnt <=? spp)) with true by lia. cbn [guard].
      assert (NG : exists g, next_gap smp adj gap_max advance packets {| expected := S b; at_place := Middle b cnt |}
                               (tx p - advance + ln p) found = Ok g /\
          match g with Some x => exists q, at_ (S b) q /\ x = tx q - eop p /\ 0 <= x <= gap_max | None => True end).
      { unfold next_gap. cbn [expected]. destruct (0 <=? gap_max); [|exists None; split; [reflexivity|exact I]].
        destruct (nth_error packets (S b)) as [q|] eqn:Q; [|exists None; split; [reflexivity|exact I]].
        destruct found; [|exists None; split; [reflexivity|exact I]].
        destruct (in_order _ _ _ _ WT _ _ _ P Q) as [O1 O2]. rewrite end_len in O1, O2. cbv zeta.
        replace (tx p - advance + ln p <=? tx q - advance) with true by lia. cbn [guard].
        rewrite i32_id by lia. rewrite u32_id by lia.
        destruct (gap_max <? tx q - advance - (tx p - advance + ln p)) eqn:GT; eexists; (split; [reflexivity|]); cbv beta iota; [exact I|].
        exists q. split; [reflexivity|]. rewrite end_len. lia. }
      destruct NG as (g & NG & GG). rewrite NG. cbn [bind]. rewrite offer_ok by lia. cbn [bind].
      replace (ln p =? cnt + taken (ln p - cnt) acc) with true by (unfold taken; lia). cbn [guard].
      eexists _, _. split; [reflexivity|]. cbn [at_place expected]. split; [|split].
      * destruct g as [x|]; eexists; (split; [reflexivity|]); exists p; (split; [exact P|]).
        -- destruct GG as (q & Q & X & XB). exists q. split; [exact Q|]. split; [exact X|]. split; [lia|]. split; [lia|]. reflexivity.
        -- split; [reflexivity|]. split; [reflexivity|]. reflexivity.
      * apply no_starts.
      * intros _ _. unfold left. cbn [at_place expected]. rewrite P.
        destruct g as [x|]; [destruct GG as (q & Q & X & XB)|]; lia.
  - destruct PL as (-> & p & P & PL). unfold gap. cbn [expected]. destruct (cnt <? n) eqn:MORE.
    + destruct go; cbn [guard]; [|lia]. destruct PL as (q & Q & -> & C & NB & ->).
      eexists _, _. split; [reflexivity|]. cbn [at_place expected]. split; [|split].
      * eexists. split; [reflexivity|]. exists p. split; [exact P|]. exists q. split; [exact Q|]. split; [reflexivity|].
        split; [unfold taken; lia|]. split; [exact NB|]. reflexivity.
      * apply no_starts.
      * intros _ _. unfold left. cbn [at_place expected]. unfold taken. lia.
    + unfold rd. rewrite P. cbn [bind].
      assert (negb (go && has_adj smp adj p) = true) as ->.
      { destruct go; [|reflexivity]. destruct PL as (q & Q & -> & C & NB & ->).
        destruct (has_adj smp adj p) eqn:HA; [|reflexivity]. pose proof (LO _ _ _ P Q HA). lia. }
      cbn [guard]. eexists _, _. split; [reflexivity|]. cbn [at_place expected]. split; [|split].
      * destruct go.
        -- destruct PL as (q & Q & -> & C & NB & ->). eexists. split; [reflexivity|]. exists q. split; [exact Q|reflexivity].
        -- eexists. split; [reflexivity|].
           assert (nth_error packets b <> None) as N1 by congruence. apply nth_error_Some in N1. lia.
      * apply adjust_starts.
      * intros _ _. unfold left. cbn [at_place expected]. destruct go.
        -- destruct PL as (q & Q & -> & C & NB & ->). lia.
        -- destruct PL as (-> & -> & ->). lia.
Qed.

Lemma run_total env : forall t d, loose -> placed t d -> Forall (fun a => spp <= snd a) env ->
  exists t1 o, go_run t env = Ok (t1, o) /\ starts_taken smp adj o.
Proof.
  induction env as [|[found acc] env IH]; intros t d LO PL A; cbn [run].
  - eexists _, _. split; [reflexivity|]. intros ? ? ? ? [].
  - apply Forall_cons_iff in A. destruct A as [A1 A2]. cbn [snd] in A1.
    destruct (step_total t d found acc LO PL A1) as (t1 & o1 & ST & [d1 P1] & T1 & _). rewrite ST. cbn [bind].
    destruct (IH _ _ LO P1 A2) as (t2 & o2 & R & T2). rewrite R. cbn [bind].
    eexists _, _. split; [reflexivity|]. apply starts_app. split; assumption.
Qed.

Lemma left_pos t d : placed t d -> 0 <= left t.
Proof.
  unfold placed, left. destruct t as [ex [|b [s|]|b cnt|b go n cnt]]; cbn [at_place expected].
  - intros _. apply work_pos.
  - intros (-> & _ & p & P & _). rewrite (work_next _ _ P). pose proof (work_pos (skipn (S ex) packets)). pose proof (len_pos p). lia.
  - intros (-> & p & P & _). rewrite (work_next _ _ P). pose proof (work_pos (skipn (S ex) packets)). pose proof (len_pos p). lia.
  - intros (_ & p & P & C & _). rewrite P. pose proof (work_pos (skipn (S b) packets)). lia.
  - intros (_ & p & P & PL). pose proof (work_pos (skipn (S b) packets)). destruct go.
    + destruct PL as (q & Q & -> & C & _). lia.
    + destruct PL as (-> & -> & _). lia.
Qed.
Lemma run_done env : forall t d t1 o, loose -> placed t d -> Forall (fun a => fst a = true /\ spp <= snd a) env ->
  left t <= Z.of_nat (length env) -> go_run t env = Ok (t1, o) -> at_place t1 = Outer /\ expected t1 = length packets.
Proof.
  induction env as [|[found acc] env IH]; intros t d t1 o LO PL A LF R; cbn [run length] in *.
  - injection R as <- <-. pose proof (left_pos _ _ PL) as LP. assert (Z0 : left t = 0) by lia.
    revert PL Z0. unfold placed, left. destruct t as [ex [|b [s|]|b cnt|b go n cnt]]; cbn [at_place expected].
    + intros [_ LE] W. split; [reflexivity|]. destruct (nth_error packets ex) as [p|] eqn:P.
      * rewrite (work_next _ _ P) in W. pose proof (work_pos (skipn (S ex) packets)). pose proof (len_pos p). lia.
      * apply nth_error_None in P. lia.
    + intros (-> & _ & p & P & _) W. rewrite (work_next _ _ P) in W. pose proof (work_pos (skipn (S ex) packets)). pose proof (len_pos p). lia.
    + intros (-> & p & P & _) W. rewrite (work_next _ _ P) in W. pose proof (work_pos (skipn (S ex) packets)). pose proof (len_pos p). lia.
    + intros (_ & p & P & C & _) W. rewrite P in W. pose proof (work_pos (skipn (S b) packets)). lia.
    + intros (_ & p & P & PL) W. pose proof (work_pos (skipn (S b) packets)). destruct go.
      * destruct PL as (q & Q & -> & C & _). lia.
      * destruct PL as (-> & -> & _). lia.
  - apply Forall_cons_iff in A. destruct A as [[A0 A1] A2]. cbn [fst snd] in A0, A1.
    destruct (step_total t d found acc LO PL A1) as (t2 & o2 & ST & [d1 P1] & T1 & LS). rewrite ST in R. cbn [bind] in R.
    apply bind_ok_inv in R. destruct R as ([t3 o3] & R & Q). injection Q as <- <-.
    refine (IH _ _ _ _ LO P1 A2 _ R).
    destruct (at_place t) eqn:PT; try (specialize (LS A0 ltac:(discriminate)); lia).
    destruct (Nat.lt_ge_cases (expected t) (length packets)) as [L|L].
    + specialize (LS A0 ltac:(intros _; exact L)). lia.
    + assert (t2 = t).
      { unfold step in ST. rewrite PT in ST. unfold outer in ST. apply nth_error_None in L. rewrite L in ST.
        injection ST as <- _. reflexivity. }
      subst t2. pose proof PL as PL2. unfold placed in PL2. rewrite PT in PL2. destruct PL2 as [_ LE].
      unfold left in *. rewrite PT in *. rewrite skipn_all2 by lia. cbn [work]. lia.
Qed.
End facts.
