From Verif Require Import Base Ring DatagramQueue DatagramQueueSpec.

Definition Inv (q : queue) : Prop :=
  0 < N_datagram (q_size q) /\
  length (datagram_vec q) = N_datagram (q_size q) /\
  length (datagram_level_vec q) = N_datagram (q_size q) /\
  ring_ok (N_datagram (q_size q)) (w_idx q) (r_idx q) /\
  (forall i a, nth_error (datagram_vec q) i = Some a -> length a = N_datagram_max_byte (q_size q)) /\
  (forall i, nth i (datagram_level_vec q) 0 <= N_datagram_max_byte (q_size q)).

Definition levels (q : queue) : list nat := ring_list (datagram_level_vec q) (w_idx q) (r_idx q) 0.
Definition arrays (q : queue) : list (list N) := ring_list (datagram_vec q) (w_idx q) (r_idx q) [].
Definition abs (q : queue) : list (list N) :=
  map (fun p => firstn (fst p) (snd p)) (combine (levels q) (arrays q)).

Lemma get_used_ring q : get_used q = ring_used (N_datagram (q_size q)) (w_idx q) (r_idx q).
Proof. reflexivity. Qed.

Lemma get_free_used q : Inv q -> get_free q = N_datagram (q_size q) - 1 - get_used q.
Proof.
  intros (Hn & _ & _ & [Hw Hr] & _). unfold get_free, get_used.
  destruct (Nat.ltb_spec (w_idx q) (r_idx q)); destruct (Nat.leb_spec (r_idx q) (w_idx q)); lia.
Qed.

Lemma levels_length q : Inv q -> length (levels q) = get_used q.
Proof. intros (_ & _ & H & _). unfold levels. rewrite ring_list_length, H. reflexivity. Qed.
Lemma arrays_length q : Inv q -> length (arrays q) = get_used q.
Proof. intros (_ & H & _). unfold arrays. rewrite ring_list_length, H. reflexivity. Qed.
Lemma abs_length q : Inv q -> length (abs q) = get_used q.
Proof.
  intros H. unfold abs. rewrite map_length, combine_length, levels_length, arrays_length by exact H.
  apply Nat.min_id.
Qed.

Lemma combine_app_eq {A B} (l1 l2 : list A) (m1 m2 : list B) :
  length l1 = length m1 -> combine (l1 ++ l2) (m1 ++ m2) = combine l1 m1 ++ combine l2 m2.
Proof.
  revert m1; induction l1 as [|a l1 IH]; intros [|b m1] H; cbn in *; try lia; auto.
  rewrite IH by lia. reflexivity.
Qed.

Lemma inv_new sz fill :
  queue_size_is_valid sz = true -> Inv (queue_new sz fill) /\ abs (queue_new sz fill) = [].
Proof.
  unfold queue_size_is_valid. intros H.
  assert (0 < N_datagram sz) by (destruct (N_datagram sz); cbn in H; [discriminate | lia]).
  split.
  - unfold Inv, queue_new; cbn. repeat split; try lia; try apply repeat_length.
    + intros i a Ha. apply nth_error_In in Ha. apply repeat_spec in Ha. subst. apply repeat_length.
    + intros i. destruct (Nat.ltb_spec i (N_datagram sz)).
      * rewrite nth_repeat. lia.
      * rewrite nth_overflow; [lia | rewrite repeat_length; lia].
  - unfold abs, levels, queue_new; cbn [datagram_level_vec w_idx r_idx].
    rewrite ring_list_empty. reflexivity.
Qed.

Lemma write_refines q inp n :
  Inv q -> n <= length inp ->
  match spec_step (N_datagram (q_size q) - 1) (N_datagram_max_byte (q_size q)) (abs q) (OWrite inp n true) with
  | Ok (s', RWrite k) =>
      exists q', write_under_lock q inp n = Ok (q', k) /\ Inv q' /\ abs q' = s' /\ q_size q' = q_size q
  | Ok _ => False
  | Abort => write_under_lock q inp n = Abort
  | _ => False
  end.
Proof.
  intros HI Hn. pose proof HI as (Hpos & Hlv & Hll & Hok & Ha & Hl).
  cbn [spec_step]. unfold write_under_lock. rewrite (abs_length _ HI), (get_free_used _ HI).
  pose proof (ring_used_lt _ _ _ Hok) as Hu. rewrite <- get_used_ring in Hu.
  destruct (Nat.leb_spec (N_datagram (q_size q) - 1) (get_used q)).
  - replace (N_datagram (q_size q) - 1 - get_used q) with 0 by lia. cbn.
    exists q. auto.
  - destruct (Nat.eqb_spec (N_datagram (q_size q) - 1 - get_used q) 0); [lia|].
    destruct (Nat.ltb_spec (N_datagram_max_byte (q_size q)) n) as [Hb|Hb].
    + unfold guard. destruct (Nat.leb_spec n (N_datagram_max_byte (q_size q))); [lia|reflexivity].
    + unfold guard. destruct (Nat.leb_spec n (N_datagram_max_byte (q_size q))); [|lia].
      destruct Hok as [Hw Hr].
      assert (Hwl : w_idx q < length (datagram_vec q)) by lia.
      destruct (nth_error (datagram_vec q) (w_idx q)) as [arr|] eqn:Earr;
        [|apply nth_error_None in Earr; lia].
      unfold rd at 1. rewrite Earr. cbn [bind].
      pose proof (Ha _ _ Earr) as Hal.
      unfold memcpy. rewrite Hal.
      destruct (Nat.leb_spec n (N_datagram_max_byte (q_size q))); [|lia].
      destruct (Nat.leb_spec n (length inp)); [|lia]. cbn [andb bind].
      eexists; split; [reflexivity|]. cbn [q_size w_idx r_idx datagram_vec datagram_level_vec].
      split; [|split; [|reflexivity]].
      * unfold Inv; cbn [q_size w_idx r_idx datagram_vec datagram_level_vec].
        rewrite !upd_length. repeat split; auto.
        -- apply Nat.mod_upper_bound; lia.
        -- intros i a Hi. destruct (Nat.eq_dec i (w_idx q)) as [->|Hne].
           ++ rewrite nth_error_upd_same in Hi by lia. inversion Hi; subst.
              rewrite app_length, firstn_length, skipn_length, Hal. lia.
           ++ rewrite nth_error_upd_other in Hi by congruence. eapply Ha; eassumption.
        -- intros i. destruct (Nat.eq_dec i (w_idx q)) as [->|Hne].
           ++ rewrite nth_upd_same by lia. lia.
           ++ rewrite nth_upd_other by congruence. apply Hl.
      * unfold abs, levels, arrays; cbn [q_size w_idx r_idx datagram_vec datagram_level_vec].
        assert (E1 : ring_list (upd (datagram_level_vec q) (w_idx q) n)
                       ((w_idx q + 1) mod N_datagram (q_size q)) (r_idx q) 0 = levels q ++ [n]).
        { rewrite <- Hll at 1. apply ring_list_push.
          - rewrite Hll. split; assumption.
          - rewrite Hll, <- get_used_ring. lia. }
        assert (E2 : ring_list (upd (datagram_vec q) (w_idx q) (firstn n inp ++ skipn n arr))
                       ((w_idx q + 1) mod N_datagram (q_size q)) (r_idx q) []
                     = arrays q ++ [firstn n inp ++ skipn n arr]).
        { rewrite <- Hlv at 1. apply ring_list_push.
          - rewrite Hlv. split; assumption.
          - rewrite Hlv, <- get_used_ring. lia. }
        rewrite E1, E2, combine_app_eq by (rewrite levels_length, arrays_length by exact HI; reflexivity).
        rewrite map_app. cbn [combine map fst snd]. unfold abs. do 2 f_equal.
        rewrite firstn_app, firstn_firstn, Nat.min_id, firstn_length.
        replace (n - Nat.min n (length inp)) with 0 by lia. cbn. apply app_nil_r.
Qed.

Lemma read_refines q want :
  Inv q ->
  match spec_step (N_datagram (q_size q) - 1) (N_datagram_max_byte (q_size q)) (abs q) (ORead want true) with
  | Ok (s', RRead k b) =>
      exists q', read_under_lock q want = Ok (q', k, b) /\ Inv q' /\ abs q' = s' /\ q_size q' = q_size q
  | _ => False
  end.
Proof.
  intros HI. pose proof HI as (Hpos & Hlv & Hll & Hok & Ha & Hl).
  pose proof (abs_length _ HI) as Hlen.
  cbn [spec_step]. unfold read_under_lock.
  destruct (Nat.eqb_spec (get_used q) 0) as [E|E].
  - rewrite E in Hlen. destruct (abs q) eqn:Eq; cbn in Hlen; [|lia].
    exists q. auto.
  - assert (Hu : 0 < ring_used (N_datagram (q_size q)) (w_idx q) (r_idx q))
      by (rewrite <- get_used_ring; lia).
    assert (E1 : levels q = nth (r_idx q) (datagram_level_vec q) 0 ::
              ring_list (datagram_level_vec q) (w_idx q) ((r_idx q + 1) mod N_datagram (q_size q)) 0).
    { unfold levels. rewrite <- Hll at 1. apply ring_list_pop; rewrite Hll; assumption. }
    assert (E2 : arrays q = nth (r_idx q) (datagram_vec q) [] ::
              ring_list (datagram_vec q) (w_idx q) ((r_idx q + 1) mod N_datagram (q_size q)) []).
    { unfold arrays. rewrite <- Hlv at 1. apply ring_list_pop; rewrite Hlv; assumption. }
    unfold abs. rewrite E1, E2. cbn [combine map fst snd].
    destruct Hok as [Hw Hr].
    rewrite (rd_ok (datagram_level_vec q) (r_idx q) 0) by lia.
    rewrite (rd_ok (datagram_vec q) (r_idx q) []) by lia. cbn [bind].
    set (n := nth (r_idx q) (datagram_level_vec q) 0) in *.
    set (arr := nth (r_idx q) (datagram_vec q) []) in *.
    assert (Harr : length arr = N_datagram_max_byte (q_size q)).
    { apply (Ha (r_idx q)). apply nth_error_nth'. lia. }
    assert (Hn : n <= length arr) by (rewrite Harr; apply Hl).
    assert (Eo : (if want then if n <=? length arr then Ok (firstn n arr) else Oob else Ok [])
                 = Ok (if want then firstn n arr else [])).
    { destruct want; [|reflexivity]. destruct (Nat.leb_spec n (length arr)); [reflexivity|lia]. }
    rewrite Eo. cbn [bind].
    eexists. split; [|split; [|split]].
    + rewrite firstn_length, Nat.min_l by lia. reflexivity.
    + unfold Inv; cbn [q_size w_idx r_idx datagram_vec datagram_level_vec].
      repeat split; auto. apply Nat.mod_upper_bound; lia.
    + reflexivity.
    + reflexivity.
Qed.

Lemma abs_level_lengths q : Inv q -> map (@length N) (abs q) = levels q.
Proof.
  intros HI. pose proof HI as (Hpos & Hlv & Hll & Hok & Ha & Hl).
  unfold abs. rewrite map_map. unfold levels, arrays, ring_list.
  rewrite Hll, Hlv.
  set (l := seq 0 (ring_used (N_datagram (q_size q)) (w_idx q) (r_idx q))).
  assert (H : forall l : list nat,
    map (fun p : nat * list N => length (firstn (fst p) (snd p)))
      (combine (map (fun i => nth ((r_idx q + i) mod N_datagram (q_size q)) (datagram_level_vec q) 0) l)
         (map (fun i => nth ((r_idx q + i) mod N_datagram (q_size q)) (datagram_vec q) []) l))
    = map (fun i => nth ((r_idx q + i) mod N_datagram (q_size q)) (datagram_level_vec q) 0) l).
  { clear l. induction l as [|i l IH]; [reflexivity|]. cbn [map combine fst snd].
    rewrite IH. f_equal. rewrite firstn_length.
    assert (Hi : (r_idx q + i) mod N_datagram (q_size q) < N_datagram (q_size q))
      by (apply Nat.mod_upper_bound; lia).
    rewrite (Ha _ _ (nth_error_nth' _ [] (eq_ind_r (fun x => _ < x) Hi Hlv))).
    apply Nat.min_l. apply Hl. }
  apply H.
Qed.

Lemma level_loop_spec q : Inv q -> forall k r,
  r < N_datagram (q_size q) ->
  level_loop q r k = Ok (map (fun i => nth ((r + i) mod N_datagram (q_size q)) (datagram_level_vec q) 0) (seq 0 k)).
Proof.
  intros (Hpos & Hlv & Hll & Hok & Ha & Hl).
  induction k as [|k IH]; intros r Hr; [reflexivity|]. cbn [level_loop].
  rewrite (rd_ok _ r 0) by lia. cbn [bind].
  rewrite IH by (apply Nat.mod_upper_bound; lia). cbn [bind seq map].
  rewrite Nat.add_0_r, (Nat.mod_small r) by lia. do 2 f_equal.
  rewrite <- seq_shift, map_map. apply map_ext. intros i.
  f_equal. rewrite Nat.add_mod_idemp_l by lia. f_equal. lia.
Qed.

Lemma firstn_seq k n a : firstn k (seq a n) = seq a (min k n).
Proof.
  revert k a; induction n as [|n IH]; intros [|k] a; cbn; auto. f_equal. apply IH.
Qed.

Lemma level_refines q n :
  Inv q ->
  get_queue_level_under_lock q n =
  (if 8 <? n then Abort else Ok (map (@length N) (firstn n (abs q)))).
Proof.
  intros HI. unfold get_queue_level_under_lock, guard, max_queue_level_reported.
  destruct (Nat.leb_spec n 8); destruct (Nat.ltb_spec 8 n); try lia; [|reflexivity].
  pose proof HI as (Hpos & Hlv & Hll & [Hw Hr] & Ha & Hl).
  rewrite level_loop_spec by assumption.
  rewrite <- firstn_map, abs_level_lengths by exact HI.
  unfold levels, ring_list. rewrite Hll, firstn_map, firstn_seq. reflexivity.
Qed.

Lemma clear_refines q : Inv q -> Inv (clear q) /\ abs (clear q) = [].
Proof.
  intros (Hpos & Hlv & Hll & Hok & Ha & Hl). split.
  - unfold Inv, clear; cbn. repeat split; auto.
  - unfold abs, levels, clear; cbn [datagram_level_vec w_idx r_idx].
    rewrite ring_list_empty. reflexivity.
Qed.

(** One step of the model is one step of the specification. *)
Lemma step_refines q o :
  Inv q -> op_wf o ->
  match spec_step (N_datagram (q_size q) - 1) (N_datagram_max_byte (q_size q)) (abs q) o with
  | Ok (s', r) => exists q', step q o = Ok (q', r) /\ Inv q' /\ abs q' = s' /\ q_size q' = q_size q
  | Abort => step q o = Abort
  | _ => False
  end.
Proof.
  intros HI Hwf. destruct o as [inp n [|]|want [|]|n [|]|].
  - pose proof (write_refines q inp n HI Hwf) as H. unfold step.
    destruct (spec_step _ _ (abs q) (OWrite inp n true)) as [[s' r]| | |]; auto.
    + destruct r; try contradiction. destruct H as (q' & E & ? & ? & ?).
      exists q'. rewrite E. cbn. auto.
    + rewrite H. reflexivity.
  - cbn. exists q. auto.
  - pose proof (read_refines q want HI) as H. unfold step.
    destruct (spec_step _ _ (abs q) (ORead want true)) as [[s' r]| | |]; auto; try contradiction.
    destruct r; try contradiction. destruct H as (q' & E & ? & ? & ?).
    exists q'. rewrite E. cbn. auto.
  - cbn. exists q. auto.
  - unfold step. rewrite level_refines by exact HI. cbn [spec_step].
    destruct (8 <? n); cbn [bind]; [reflexivity|]. exists q. auto.
  - cbn. exists q. auto.
  - cbn. destruct (clear_refines q HI). exists (clear q). auto.
Qed.

Lemma run_refines ops : forall q,
  Inv q -> Forall op_wf ops ->
  match spec_run (N_datagram (q_size q) - 1) (N_datagram_max_byte (q_size q)) (abs q) ops with
  | Ok (s', rs) => exists q', run q ops = Ok (q', rs) /\ Inv q' /\ abs q' = s' /\ q_size q' = q_size q
  | Abort => run q ops = Abort
  | _ => False
  end.
Proof.
  induction ops as [|o ops IH]; intros q HI Hwf.
  - cbn. exists q. auto.
  - inversion Hwf as [|? ? Ho Hos]; subst. cbn [spec_run run].
    pose proof (step_refines q o HI Ho) as H.
    destruct (spec_step _ _ (abs q) o) as [[s' r]| | |]; try contradiction.
    + destruct H as (q' & E & HI' & Ea & Es). rewrite E. cbn [bind fst snd].
      specialize (IH q' HI' Hos). rewrite Ea, Es in IH.
      destruct (spec_run _ _ s' ops) as [[s'' rs]| | |]; try contradiction.
      * destruct IH as (q'' & E' & HI'' & Ea' & Es'). rewrite E'. cbn.
        exists q''. split; [reflexivity|]. split; [assumption|]. split; [assumption|]. congruence.
      * rewrite IH. reflexivity.
    + rewrite H. reflexivity.
Qed.

(** The specification is a FIFO. *)
Lemma spec_step_cap cap maxb s o s' r :
  length s <= cap -> spec_step cap maxb s o = Ok (s', r) -> length s' <= cap.
Proof.
  intros H. destruct o as [inp n [|]|want [|]|n [|]|]; cbn [spec_step].
  - destruct (Nat.leb_spec cap (length s)); [intros E; inversion E; subst; assumption|].
    destruct (maxb <? n); intros E; inversion E; subst. rewrite app_length; cbn; lia.
  - intros E; inversion E; subst; assumption.
  - destruct s; intros E; inversion E; subst; cbn in *; lia.
  - intros E; inversion E; subst; assumption.
  - destruct (8 <? n); intros E; inversion E; subst; assumption.
  - intros E; inversion E; subst; assumption.
  - intros E; inversion E; subst; cbn; lia.
Qed.

Lemma spec_run_cap cap maxb ops : forall s s' rs,
  length s <= cap -> spec_run cap maxb s ops = Ok (s', rs) -> length s' <= cap.
Proof.
  induction ops as [|o ops IH]; intros s s' rs H E; cbn [spec_run] in E.
  - inversion E; subst; assumption.
  - destruct (spec_step cap maxb s o) as [[s1 r]| | |] eqn:E1; cbn [bind fst snd] in E; try discriminate.
    destruct (spec_run cap maxb s1 ops) as [[s2 rs2]| | |] eqn:E2; cbn [bind fst snd] in E; try discriminate.
    inversion E; subst. eapply IH; [|eassumption]. eapply spec_step_cap; eassumption.
Qed.

Lemma spec_fifo cap maxb ops : forall s s' rs,
  Forall op_plain ops -> Forall (fun d => d <> []) s ->
  spec_run cap maxb s ops = Ok (s', rs) ->
  s ++ accepted ops rs = delivered rs ++ s' /\ Forall (fun d => d <> []) s'.
Proof.
  induction ops as [|o ops IH]; intros s s' rs Hp Hs E; cbn [spec_run] in E.
  - inversion E; subst. cbn. rewrite app_nil_r. auto.
  - inversion Hp as [|? ? Ho Hos]; subst.
    destruct (spec_step cap maxb s o) as [[s1 r]| | |] eqn:E1; cbn [bind fst snd] in E; try discriminate.
    destruct (spec_run cap maxb s1 ops) as [[s2 rs2]| | |] eqn:E2; cbn [bind fst snd] in E; try discriminate.
    inversion E; subst; clear E.
    destruct o as [inp n [|]|want [|]|n [|]|]; cbn [spec_step] in E1.
    + destruct (Nat.leb_spec cap (length s)).
      * inversion E1; subst. cbn [accepted delivered Nat.eqb]. eapply IH; eassumption.
      * destruct (maxb <? n); inversion E1; subst. cbn [op_plain] in Ho. cbn [accepted delivered].
        destruct (Nat.eqb_spec n 0); [lia|].
        destruct (IH (s ++ [firstn n inp]) s' rs2 Hos) as [IH1 IH2]; [|exact E2|].
        { apply Forall_app; split; [assumption|]. constructor; [|constructor].
          intro Hnil. apply (f_equal (@length N)) in Hnil. rewrite firstn_length in Hnil. cbn in Hnil. lia. }
        split; [|exact IH2]. rewrite <- IH1, <- app_assoc. reflexivity.
    + inversion E1; subst. cbn [accepted delivered Nat.eqb]. eapply IH; eassumption.
    + cbn in Ho; subst want. destruct s as [|x s1']; inversion E1; subst; cbn [accepted delivered Nat.eqb length].
      * eapply IH; eassumption.
      * inversion Hs as [|? ? Hx Hs']; subst.
        destruct x as [|b x]; [congruence|]. cbn [length Nat.eqb].
        destruct (IH s1 s' rs2 Hos Hs' E2) as [IH1 IH2].
        split; [|exact IH2]. cbn [app]. f_equal. exact IH1.
    + inversion E1; subst. cbn [accepted delivered Nat.eqb]. eapply IH; eassumption.
    + destruct (8 <? n); inversion E1; subst. cbn [accepted delivered]. eapply IH; eassumption.
    + inversion E1; subst. cbn [accepted delivered]. eapply IH; eassumption.
    + destruct Ho.
Qed.

Lemma plain_wf o : op_plain o -> op_wf o.
Proof. destruct o; cbn; auto; lia. Qed.

(** Observable FIFO statement, from a freshly constructed or just cleared queue. *)
Lemma queue_fifo q ops q' rs :
  Inv q -> abs q = [] -> Forall op_plain ops -> run q ops = Ok (q', rs) ->
  exists pending,
    accepted ops rs = delivered rs ++ pending /\ length pending <= N_datagram (q_size q) - 1.
Proof.
  intros HI Ha Hp E.
  assert (Hwf : Forall op_wf ops) by (eapply Forall_impl; [exact plain_wf|exact Hp]).
  pose proof (run_refines ops q HI Hwf) as H. rewrite Ha in H.
  destruct (spec_run _ _ [] ops) as [[s' rs']| | |] eqn:Es; try contradiction.
  - destruct H as (q1 & E' & _ & _ & _). rewrite E' in E. inversion E; subst.
    destruct (spec_fifo _ _ _ _ _ _ Hp (Forall_nil _) Es) as [H1 _].
    exists s'. split; [exact H1|]. eapply spec_run_cap; [|exact Es]. cbn; lia.
  - rewrite H in E. discriminate.
Qed.

Lemma run_app ops1 : forall q ops2,
  run q (ops1 ++ ops2) =
  do a <- run q ops1 ; do b <- run (fst a) ops2 ; Ok (fst b, snd a ++ snd b).
Proof.
  induction ops1 as [|o ops IH]; intros q ops2.
  - cbn. destruct (run q ops2) as [[? ?]| | |]; reflexivity.
  - cbn [app run]. destruct (step q o) as [[q1 r]| | |]; cbn [bind fst snd]; try reflexivity.
    rewrite IH. destruct (run q1 ops) as [[q2 rs]| | |]; cbn [bind fst snd]; try reflexivity.
    destruct (run q2 ops2) as [[? ?]| | |]; reflexivity.
Qed.

Lemma queue_refines_fifo : forall sz fill ops,
  queue_size_is_valid sz = true -> Forall op_wf ops ->
  match spec_run (N_datagram sz - 1) (N_datagram_max_byte sz) [] ops with
  | Ok (_, outs) => exists q, run (queue_new sz fill) ops = Ok (q, outs)
  | Abort => run (queue_new sz fill) ops = Abort
  | Throw | Oob => False
  end.
Proof.
  intros sz fill ops Hv Hwf. destruct (inv_new sz fill Hv) as [HI Ha].
  pose proof (run_refines ops _ HI Hwf) as H. rewrite Ha in H.
  cbn [queue_new q_size] in H.
  destruct (spec_run (N_datagram sz - 1) (N_datagram_max_byte sz) [] ops) as [[s outs]| | |];
    try contradiction; [|exact H].
  destruct H as (q & E & _). exists q. exact E.
Qed.

Lemma queue_fifo_order : forall sz fill ops0 ops q outs0 outs,
  queue_size_is_valid sz = true ->
  Forall op_wf ops0 -> Forall op_plain ops ->
  length outs0 = length ops0 ->
  run (queue_new sz fill) (ops0 ++ OClear :: ops) = Ok (q, outs0 ++ RClear :: outs) ->
  exists pending,
    accepted ops outs = delivered outs ++ pending /\ length pending <= N_datagram sz - 1.
Proof.
  intros sz fill ops0 ops q outs0 outs Hv Hwf Hp Hlen E.
  destruct (inv_new sz fill Hv) as [HI Ha].
  rewrite run_app in E.
  pose proof (run_refines ops0 _ HI Hwf) as H. 
  destruct (spec_run _ _ (abs (queue_new sz fill)) ops0) as [[s0 rs0]| | |] eqn:Es0; try contradiction.
  2:{ rewrite H in E. discriminate. }
  destruct H as (q0 & E0 & HI0 & _ & Hsz0). rewrite E0 in E.
  cbn [bind fst snd run step] in E.
  destruct (run (clear q0) ops) as [[q1 rs1]| | |] eqn:E1; cbn [bind fst snd] in E; try discriminate.
  assert (Hl : length rs0 = length ops0).
  { clear -Es0. revert s0 rs0 Es0. generalize (abs (queue_new sz fill)).
    induction ops0 as [|o os IH]; intros s s0 rs0 E; cbn [spec_run] in E.
    - inversion E; reflexivity.
    - destruct (spec_step _ _ s o) as [[s1 r]| | |]; cbn [bind fst snd] in E; try discriminate.
      destruct (spec_run _ _ s1 os) as [[s2 rs]| | |] eqn:E2; cbn [bind fst snd] in E; try discriminate.
      inversion E; subst. cbn. f_equal. eapply IH. exact E2. }
  inversion E; subst; clear E.
  match goal with H : rs0 ++ _ = outs0 ++ _ |- _ =>
    rename H into E; apply app_inv_head_iff in E || idtac end.
  assert (Hr : rs1 = outs).
  { assert (G : forall (a b : list out) x y, length a = length b -> a ++ RClear :: x = b ++ RClear :: y -> x = y).
    { clear. induction a as [|r a IH]; intros [|r' b] x y Hlab Eab; cbn in *; try discriminate.
      - congruence.
      - inversion Eab; subst. eapply IH; [|eassumption]. lia. }
    eapply G; [|eassumption]. congruence. }
  subst rs1. destruct (clear_refines q0 HI0) as [HIc Hac].
  destruct (queue_fifo (clear q0) ops q outs HIc Hac Hp E1) as (pend & H1 & H2).
  exists pend. split; [exact H1|]. cbn [clear q_size] in H2. rewrite Hsz0 in H2. exact H2.
Qed.

Lemma level_then_reads q n q1 l :
  Inv q -> step q (OLevel n true) = Ok (q1, RLevel l) ->
  q1 = q /\
  exists q2 rs, run q (repeat (ORead true true) (length l)) = Ok (q2, rs) /\
    map read_len rs = map (fun x => Some (x, x)) l /\
    (length l < n -> step q2 (OLevel 1 true) = Ok (q2, RLevel [])).
Proof.
  intros HI E. cbn [step] in E. rewrite level_refines in E by exact HI.
  destruct (8 <? n) eqn:En8; cbn [bind] in E; inversion E; subst; clear E. split; [reflexivity|].
  rewrite map_length.
  assert (G : forall m q, Inv q ->
    exists q2 rs, run q (repeat (ORead true true) (length (firstn m (abs q)))) = Ok (q2, rs) /\
    map read_len rs = map (fun x => Some (x, x)) (map (@length N) (firstn m (abs q))) /\
    Inv q2 /\ abs q2 = skipn m (abs q)).
  { clear. induction m as [|m IH]; intros q HI.
    - exists q, []. cbn. auto.
    - destruct (abs q) as [|x rest] eqn:Ea.
      + exists q, []. cbn. auto.
      + pose proof (step_refines q (ORead true true) HI I) as H. rewrite Ea in H.
        cbn [spec_step] in H. destruct H as (q' & E & HI' & Ea' & _).
        destruct (IH q' HI') as (q2 & rs & E2 & Hm & HI2 & Ha2). rewrite Ea' in *.
        cbn [firstn length repeat run]. rewrite E. cbn [bind fst snd]. rewrite E2. cbn [bind fst snd].
        exists q2, (RRead (length x) x :: rs). split; [reflexivity|].
        cbn [map read_len]. rewrite Hm. auto. }
  destruct (G n q1 HI) as (q2 & rs & E2 & Hm & HI2 & Ha2).
  exists q2, rs. split; [exact E2|]. split; [exact Hm|].
  intros Hlt. cbn [step]. rewrite level_refines by exact HI2. cbn [Nat.ltb Nat.leb bind].
  rewrite firstn_length in Hlt.
  rewrite Ha2, skipn_all2 by lia. reflexivity.
Qed.

Lemma reachable_inv sz fill ops q outs :
  queue_size_is_valid sz = true -> Forall op_wf ops ->
  run (queue_new sz fill) ops = Ok (q, outs) -> Inv q /\ q_size q = sz.
Proof.
  intros Hv Hwf E. destruct (inv_new sz fill Hv) as [HI0 Ha0].
  pose proof (run_refines ops _ HI0 Hwf) as H.
  destruct (spec_run _ _ _ ops) as [[s rs]| | |]; try contradiction; [|congruence].
  destruct H as (q1 & E1 & HI & _ & Hs). rewrite E1 in E. inversion E; subst; auto.
Qed.

Lemma level_announces_reads : forall sz fill ops q outs n q1 l,
  queue_size_is_valid sz = true -> Forall op_wf ops ->
  run (queue_new sz fill) ops = Ok (q, outs) ->
  step q (OLevel n true) = Ok (q1, RLevel l) ->
  q1 = q /\ length l <= n /\
  exists q2 rs, run q (repeat (ORead true true) (length l)) = Ok (q2, rs) /\
    map read_len rs = map (fun x => Some (x, x)) l /\
    (length l < n -> step q2 (OLevel 1 true) = Ok (q2, RLevel [])).
Proof.
  intros sz fill ops q outs n q1 l Hv Hwf E El.
  destruct (reachable_inv _ _ _ _ _ Hv Hwf E) as [HI _].
  destruct (level_then_reads q n q1 l HI El) as [H1 H2]. split; [exact H1|]. split; [|exact H2].
  cbn [step] in El. rewrite level_refines in El by exact HI.
  destruct (8 <? n); cbn [bind] in El; inversion El; subst.
  rewrite map_length, firstn_length. lia.
Qed.

Lemma level_defined : forall sz fill ops q outs n,
  queue_size_is_valid sz = true -> Forall op_wf ops ->
  run (queue_new sz fill) ops = Ok (q, outs) -> n <= 8 ->
  exists l, step q (OLevel n true) = Ok (q, RLevel l).
Proof.
  intros sz fill ops q outs n Hv Hwf E Hn.
  destruct (reachable_inv _ _ _ _ _ Hv Hwf E) as [HI _].
  cbn [step]. rewrite level_refines by exact HI.
  destruct (Nat.ltb_spec 8 n); [lia|]. cbn. eauto.
Qed.

(** The return value 0 does not mean "not accepted" for an empty datagram, and a queue of one slot
    accepts nothing. *)
Lemma zero_length_write_enqueues : exists q1 q2 q3,
  step (queue_new {| N_datagram := 2; N_datagram_max_byte := 4 |} 0%N) (OWrite [] 0 true) = Ok (q1, RWrite 0) /\
  step q1 (OWrite [7%N] 1 true) = Ok (q2, RWrite 0) /\
  step (queue_new {| N_datagram := 2; N_datagram_max_byte := 4 |} 0%N) (OWrite [7%N] 1 true) = Ok (q3, RWrite 1).
Proof. do 3 eexists. vm_compute. repeat split. Qed.

Lemma one_slot_queue_rejects : forall maxb fill ops q outs inp n,
  queue_size_is_valid {| N_datagram := 1; N_datagram_max_byte := maxb |} = true ->
  Forall op_wf ops -> n <= length inp ->
  run (queue_new {| N_datagram := 1; N_datagram_max_byte := maxb |} fill) ops = Ok (q, outs) ->
  step q (OWrite inp n true) = Ok (q, RWrite 0).
Proof.
  intros maxb fill ops q outs inp n Hv Hwf Hn E.
  destruct (reachable_inv _ _ _ _ _ Hv Hwf E) as [HI Hs].
  cbn [step]. unfold write_under_lock. rewrite get_free_used by exact HI. rewrite Hs. reflexivity.
Qed.
