(** Facts about the gain tables. *)
From Verif Require Import Base GainLut GainLutSpec.
From Coq Require Import QArith Qabs Qround Qminmax Lqa Lia.
Open Scope Q_scope.

Lemma Qle_bool_false x y : Qle_bool x y = false -> y < x.
Proof. intros H. apply Qnot_le_lt. intros L. apply Qle_bool_iff in L. congruence. Qed.
Lemma Qle_bool_true x y : Qle_bool x y = true -> x <= y.
Proof. apply Qle_bool_iff. Qed.
Lemma Qbool_lt x y : Qle_bool x y = negb (negb (Qle_bool x y)).
Proof. destruct (Qle_bool x y); reflexivity. Qed.

Lemma first_greater_some v : forall l i k, first_greater v i l = Some k ->
  exists n, k = (i + n)%nat /\ (n < length l)%nat /\ v < nth n l 0 /\ forall j, (j < n)%nat -> nth j l 0 <= v.
Proof.
  induction l as [|x l IH]; intros i k H; [discriminate|]. cbn [first_greater] in H.
  destruct (Qle_bool x v) eqn:E; cbn [negb] in H.
  - apply IH in H. destruct H as (n & -> & Hn & Hv & Hj). exists (S n). cbn [length nth].
    split; [lia|]. split; [lia|]. split; [exact Hv|].
    intros [|j] Lj; [exact (Qle_bool_true _ _ E)|]. apply Hj. lia.
  - injection H as <-. exists 0%nat. cbn [length nth]. split; [lia|]. split; [lia|]. split; [exact (Qle_bool_false _ _ E)|].
    intros j Lj. lia.
Qed.
Lemma first_greater_none v : forall l i, first_greater v i l = None -> forall j, (j < length l)%nat -> nth j l 0 <= v.
Proof.
  induction l as [|x l IH]; intros i H j Lj; [cbn [length] in Lj; lia|]. cbn [first_greater] in H.
  destruct (Qle_bool x v) eqn:E; cbn [negb] in H; [|discriminate].
  destruct j as [|j]; cbn [nth]; [exact (Qle_bool_true _ _ E)|]. cbn [length] in Lj. apply (IH _ H). lia.
Qed.

Lemma limit_spec lo hi v : lo <= hi ->
  (v < lo /\ limit lo hi v == lo) \/ (lo <= v <= hi /\ limit lo hi v == v) \/ (hi < v /\ limit lo hi v == hi).
Proof.
  intros H. unfold limit. destruct (Q.min_spec hi (Qmax lo v)) as [[A B]|[A B]], (Q.max_spec lo v) as [[C D]|[C D]]; rewrite B;
    try rewrite D in A; try rewrite D; destruct (Qlt_le_dec v lo); destruct (Qlt_le_dec hi v); try lra.
Qed.

Lemma points_ok vec value : searchable vec ->
  exists i w, get_interpolation_points vec value = Ok (mkPoints i (S i) w (1 - w)) /\ finds vec value i w.
Proof.
  intros [Len Ends]. unfold get_interpolation_points.
  rewrite (rd_ok vec 0 0) by lia. cbn [bind]. rewrite (rd_ok vec (length vec - 1) 0) by lia. cbn [bind].
  set (v := limit _ _ value).
  assert (V : is_closest vec value v) by (exact (limit_spec _ _ value Ends)).
  assert (B : nth 0 vec 0 <= v <= nth (length vec - 1) vec 0) by (unfold is_closest in V; lra).
  clearbody v. destruct (first_greater v 0 vec) as [k|] eqn:E.
  - apply first_greater_some in E. destruct E as (n & -> & Hn & Hv & Hj). cbn [plus].
    destruct n as [|i]; [exfalso; lra|].
    rewrite (rd_ok vec i 0) by lia. cbn [bind]. rewrite (rd_ok vec (S i) 0) by lia. cbn [bind].
    assert (Li := Hj i ltac:(lia)). cbv zeta.
    destruct (Qle_bool (v - nth i vec 0 + (nth (S i) vec 0 - v)) 0) eqn:P; [exfalso; apply Qle_bool_true in P; lra|]. clear P.
    cbn [negb]. eexists i, _. split; [reflexivity|].
    set (a := nth i vec 0) in *. set (b := nth (S i) vec 0) in *.
    set (w := (b - v) / (v - a + (b - v))).
    assert (Ew : w * (b - a) == b - v) by (unfold w; field; lra).
    assert (Ev : at_point vec i w == v).
    { unfold at_point. fold a b. setoid_replace (w * a + (1 - w) * b) with (b - w * (b - a)) by ring. rewrite Ew. ring. }
    assert (W : 0 <= w <= 1). { clearbody w. clear - Ew Li Hv. split; nra. }
    split; [split; [lia|exact W]|]. split; [unfold is_closest in *; rewrite !Ev; exact V|].
    split; [intros j Lj; rewrite Ev; apply Hj; lia|]. left. rewrite Ev. exact Hv.
  - assert (All := first_greater_none _ _ _ E). clear E.
    destruct (length vec - 1)%nat as [|i] eqn:L; [lia|].
    assert (Lst := All (S i) ltac:(lia)). assert (Li := All i ltac:(lia)).
    rewrite (rd_ok vec i 0) by lia. cbn [bind]. rewrite (rd_ok vec (S i) 0) by lia. cbn [bind]. cbv zeta.
    set (a := nth i vec 0) in *. set (b := nth (S i) vec 0) in *.
    assert (Ev0 : v == b) by lra.
    set (w := if negb (Qle_bool (v - a + (b - v)) 0) then (b - v) / (v - a + (b - v)) else 0).
    assert (Ew : w == 0).
    { unfold w. destruct (Qle_bool _ 0) eqn:P; cbn [negb]; [reflexivity|]. apply Qle_bool_false in P.
      setoid_replace (b - v) with 0 by lra. unfold Qdiv. ring. }
    exists i, w. split; [reflexivity|].
    assert (Ev : at_point vec i w == v). { unfold at_point. fold a b. rewrite Ew. lra. }
    split; [split; [lia|lra]|]. split; [unfold is_closest in *; rewrite L in *; rewrite !Ev; exact V|].
    split; [intros j Lj; rewrite Ev; apply All; lia|]. right. lia.
Qed.

Lemma interpolate_ok vec i w : (S i < length vec)%nat ->
  exists q, interpolate vec (mkPoints i (S i) w (1 - w)) = Ok q /\ q == at_point vec i w.
Proof.
  intros H. unfold interpolate. cbn [p_left p_right p_wl p_wr]. rewrite (rd_ok vec i 0) by lia. cbn [bind].
  rewrite (rd_ok vec (S i) 0) by lia. cbn [bind]. eexists. split; [reflexivity|]. unfold at_point. ring.
Qed.

Lemma round_half x : Qabs (inject_Z (round x) - x) <= 1 # 2.
Proof.
  apply Qabs_Qle_condition. unfold round. destruct (Qle_bool 0 x) eqn:E.
  - pose proof (Qfloor_le (x + (1 # 2))). pose proof (Qlt_floor (x + (1 # 2))) as L. rewrite inject_Z_plus in L. change (inject_Z 1) with 1 in L. lra.
  - pose proof (Qle_ceiling (x - (1 # 2))). pose proof (Qceiling_lt (x - (1 # 2))) as L. unfold Z.sub in L. rewrite inject_Z_plus in L.
    change (inject_Z (- (1))) with (-1) in L. lra.
Qed.
Lemma stepped_half gain step : 0 < step -> Qabs (inject_Z (round (gain / step)) * step - gain) <= step / 2.
Proof.
  intros H. pose proof (round_half (gain / step)) as R. set (n := inject_Z _) in *. clearbody n. apply Qabs_Qle_condition in R.
  apply Qabs_Qle_condition. assert (E : gain == gain / step * step) by (field; lra). set (q := gain / step) in *. clearbody q.
  setoid_replace (step / 2) with (step * (1 # 2)) by field. rewrite E. split; nra.
Qed.

Lemma achievable_ok freqs gains powers step power freq :
  complete freqs gains powers -> 0 < step ->
  exists i w jl wl jr wr pw g,
    finds freqs freq i w /\ finds (nth i powers []) power jl wl /\ finds (nth (S i) powers []) power jr wr /\
    achievable freqs gains powers step power freq = Ok (pw, g) /\
    (exists n : Z, g = inject_Z n * step) /\
    let gain := w * at_point (nth i gains []) jl wl + (1 - w) * at_point (nth (S i) gains []) jr wr in
    Qabs (g - gain) <= step / 2 /\
    pw == w * at_point (nth i powers []) jl wl + (1 - w) * at_point (nth (S i) powers []) jr wr + (g - gain).
Proof.
  intros (Sf & Lp & Lg & Rows) Hs. unfold achievable.
  destruct (points_ok freqs freq Sf) as (i & w & -> & F). cbn [bind p_left p_right p_wl p_wr].
  assert (Li : (S i < length freqs)%nat) by (exact (proj1 (proj1 F))).
  destruct (Rows i ltac:(lia)) as [Sl Gl]. destruct (Rows (S i) Li) as [Sr Gr].
  rewrite (rd_ok powers i []) by lia. cbn [bind]. rewrite (rd_ok powers (S i) []) by lia. cbn [bind].
  destruct (points_ok _ power Sl) as (jl & wl & -> & Fl). cbn [bind].
  destruct (points_ok _ power Sr) as (jr & wr & -> & Fr). cbn [bind].
  pose proof (proj1 (proj1 Fl)) as Ll. pose proof (proj1 (proj1 Fr)) as Lr.
  destruct (interpolate_ok (nth i powers []) jl wl Ll) as (a & -> & Ea). cbn [bind].
  destruct (interpolate_ok (nth (S i) powers []) jr wr Lr) as (b & -> & Eb). cbn [bind].
  rewrite (rd_ok gains i []) by lia. cbn [bind]. rewrite (rd_ok gains (S i) []) by lia. cbn [bind].
  destruct (interpolate_ok (nth i gains []) jl wl ltac:(lia)) as (c & -> & Ec). cbn [bind].
  destruct (interpolate_ok (nth (S i) gains []) jr wr ltac:(lia)) as (e & -> & Ee). cbn [bind]. cbv zeta.
  set (gain := c * w + e * (1 - w)).
  eexists i, w, jl, wl, jr, wr, _, _. split; [exact F|]. split; [exact Fl|]. split; [exact Fr|]. split; [reflexivity|].
  split; [eexists; reflexivity|].
  assert (Eg : w * at_point (nth i gains []) jl wl + (1 - w) * at_point (nth (S i) gains []) jr wr == gain)
    by (unfold gain; rewrite Ec, Ee; ring).
  split; [rewrite Eg; exact (stepped_half gain step Hs)|]. rewrite Eg. rewrite Ea, Eb. ring.
Qed.

(** ** The tables are complete *)
Definition searchableb (l : list Q) : bool := (2 <=? length l)%nat && Qle_bool (nth 0 l 0) (nth (length l - 1) l 0).
Definition completeb (freqs : list Q) (gains powers : list (list Q)) : bool :=
  searchableb freqs && (length freqs <=? length powers)%nat && (length freqs <=? length gains)%nat &&
  forallb (fun i => searchableb (nth i powers []) && (length (nth i powers []) <=? length (nth i gains []))%nat) (seq 0 (length freqs)).
Lemma searchableb_ok l : searchableb l = true -> searchable l.
Proof. intros H. apply andb_prop in H. destruct H as [A B]. split; [apply Nat.leb_le, A|exact (Qle_bool_true _ _ B)]. Qed.
Lemma completeb_ok f g p : completeb f g p = true -> complete f g p.
Proof.
  intros H. unfold completeb in H. apply andb_prop in H. destruct H as [H D]. apply andb_prop in H. destruct H as [H C].
  apply andb_prop in H. destruct H as [A B]. split; [exact (searchableb_ok _ A)|].
  split; [apply Nat.leb_le, B|]. split; [apply Nat.leb_le, C|].
  intros i Hi. rewrite forallb_forall in D. specialize (D i ltac:(apply in_seq; lia)). apply andb_prop in D. destruct D as [D E].
  split; [exact (searchableb_ok _ D)|apply Nat.leb_le, E].
Qed.
Lemma tables_complete t : In t [simulator; n310; n320; x410; b210] -> complete_table t /\ t_step t == 1.
Proof.
  intros H. cbn [In] in H.
  destruct H as [<-|[<-|[<-|[<-|[<-|[]]]]]]; (split; [intros []; apply completeb_ok; vm_compute; reflexivity|reflexivity]).
Qed.

(** ** The radio *)
Lemma lut_ok t x power freq : complete_table t -> 0 < t_step t -> exists a, lut t x power freq = Ok a.
Proof.
  intros C S. destruct x; cbn [lut].
  - destruct (achievable_ok _ _ _ _ power freq (C TX) S) as (? & ? & ? & ? & ? & ? & pw & g & _ & _ & _ & E & _). exists (pw, g). exact E.
  - destruct (achievable_ok _ _ _ _ power freq (C RX) S) as (? & ? & ? & ? & ? & ? & pw & g & _ & _ & _ & E & _). exists (pw, g). exact E.
Qed.
Lemma set_power_ok t x d p : complete_table t -> 0 < t_step t ->
  exists d' a, set_power t x d p = Ok d' /\ lut t x p (d_freq d) = Ok a /\ d_freq d' = d_freq d /\
    ((Qabs (fst a - d_power d) < t_step t /\ d' = d) \/
     (t_step t <= Qabs (fst a - d_power d) /\ d_power d' = fst a /\ d_gain d' = Some (snd a))).
Proof.
  intros C S. unfold set_power. destruct (lut_ok t x p (d_freq d) C S) as [a E]. rewrite E. cbn [bind].
  destruct (Qle_bool (t_step t) _) eqn:B; cbn [negb]; eexists _, a; (split; [reflexivity|]); (split; [reflexivity|]); (split; [reflexivity|]).
  - right. split; [exact (Qle_bool_true _ _ B)|]. split; reflexivity.
  - left. split; [exact (Qle_bool_false _ _ B)|reflexivity].
Qed.

(** The reported power and the gain always belong together, in the table of a frequency used so far. *)
Lemma commands_inv t x : complete_table t -> 0 < t_step t -> forall cs seen d,
  tuned seen (d_freq d) ->
  (d_power d = 0 /\ d_gain d = None \/ exists p f g, tuned seen f /\ lut t x p f = Ok (d_power d, g) /\ d_gain d = Some g) ->
  exists d', commands t x d cs = Ok d' /\ tuned (seen ++ cs) (d_freq d') /\
  (d_power d' = 0 /\ d_gain d' = None \/
   exists p f g, tuned (seen ++ cs) f /\ lut t x p f = Ok (d_power d', g) /\ d_gain d' = Some g).
Proof.
  intros C S. induction cs as [|c cs IH]; intros seen d F I.
  - exists d. rewrite app_nil_r. cbn [commands]. split; [reflexivity|]. split; assumption.
  - cbn [commands]. replace (seen ++ c :: cs) with ((seen ++ [c]) ++ cs) by (rewrite <- app_assoc; reflexivity).
    assert (M : forall f, tuned seen f -> tuned (seen ++ [c]) f) by (intros f [H|H]; [left; exact H|right; apply in_or_app; left; exact H]).
    assert (I' : d_power d = 0 /\ d_gain d = None \/ exists p f g, tuned (seen ++ [c]) f /\ lut t x p f = Ok (d_power d, g) /\ d_gain d = Some g).
    { destruct I as [I|(p & f & g & A & B)]; [left; exact I|right; exists p, f, g; split; [apply M, A|exact B]]. }
    assert (SP : forall p, exists d', set_power t x d p = Ok d' /\ tuned (seen ++ [c]) (d_freq d') /\
      (d_power d' = 0 /\ d_gain d' = None \/ exists p f g, tuned (seen ++ [c]) f /\ lut t x p f = Ok (d_power d', g) /\ d_gain d' = Some g)).
    { intros p. destruct (set_power_ok t x d p C S) as (d' & [pw g] & E & L & Ef & [[_ ->]|(_ & Ep & Eg)]); exists (d') || exists d.
      - split; [exact E|]. split; [apply M, F|exact I'].
      - split; [exact E|]. rewrite Ef. split; [apply M, F|]. right. exists p, (d_freq d), g. split; [apply M, F|].
        cbn [fst snd] in *. rewrite Ep. split; assumption. }
    destruct c as [f|p|a]; cbn [command].
    + cbn [bind]. apply IH; [right; apply in_or_app; right; left; reflexivity|exact I'].
    + destruct (SP p) as (d' & -> & F' & I''). cbn [bind]. apply IH; assumption.
    + unfold adjust. destruct (Qeq_bool a 0); [cbn [bind]; apply IH; [apply M, F|exact I']|].
      destruct (SP (d_power d + a)) as (d' & -> & F' & I''). cbn [bind]. apply IH; assumption.
Qed.
