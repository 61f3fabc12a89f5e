From Verif Require Import Base Beamforming BeamformingSpec MimoEst MimoEstSpec.
From Coq Require Import ZArith QArith Lia.
Open Scope nat_scope.

Definition wd : weight := (0, 0)%Z.

Lemma cadd_assoc a b c : cadd (cadd a b) c = cadd a (cadd b c).
Proof. unfold cadd. cbn. f_equal; lia. Qed.
Lemma cadd_0_l a : cadd wd a = a.
Proof. destruct a. reflexivity. Qed.

Lemma sumC_cons x l : sumC (x :: l) = cadd x (sumC l).
Proof. reflexivity. Qed.

Lemma accumulate_ok stage w : forall n i, i + n <= length stage ->
  accumulate stage i w n = Ok (sumC (map (fun c => cmul (nth (i + c) stage wd) w) (seq 0 n))).
Proof.
  induction n as [|n IH]; intros i H; [reflexivity|]. cbn [accumulate]. rewrite (rd_ok stage i wd) by lia. cbn [bind].
  rewrite IH by lia. cbn [bind seq map sumC fold_right]. rewrite Nat.add_0_r. f_equal. unfold c_add, cadd. rewrite <- seq_shift, map_map.
  assert (E : map (fun c => cmul (nth (S i + c) stage wd) w) (seq 0 n) = map (fun x => cmul (nth (i + S x) stage wd) w) (seq 0 n)).
  { apply map_ext. intros c. f_equal. f_equal. lia. }
  unfold sumC. rewrite E. reflexivity.
Qed.

(** A stage holds the channel [h] of one receive antenna. *)
Definition holds (h : channel) (n_tx rx : nat) (stage : list weight) : Prop :=
  n_tx * n_cells <= length stage /\ forall tx c, tx < n_tx -> c < n_cells -> nth (tx * n_cells + c) stage wd = h rx tx c.

Lemma sum_tx_ok h n_tx rx stage wm : holds h n_tx rx stage -> n_tx <= length wm -> forall n tx sum, tx + n = n_tx ->
  sum_tx stage wm tx n sum = Ok (cadd sum (sumC (map (fun tx => sumC (map (fun c => cmul (h rx tx c) (nth tx wm wd)) (seq 0 n_cells))) (seq tx n)))).
Proof.
  intros [Hl Hh] Hw. induction n as [|n IH]; intros tx sum E.
  - cbn. f_equal. unfold cadd. cbn. rewrite !Z.add_0_r. destruct sum. reflexivity.
  - cbn [sum_tx]. unfold at_. rewrite (nth_error_nth' wm wd) by lia. cbn [bind].
    rewrite accumulate_ok by (unfold n_cells in *; lia). cbn [bind]. rewrite IH by lia. f_equal. cbn [seq map]. rewrite sumC_cons, <- cadd_assoc.
    change c_add with cadd. f_equal. f_equal. f_equal. apply map_ext_in. intros c Hc. apply in_seq in Hc. rewrite Hh by lia. reflexivity.
Qed.

Lemma min_rx_ok h n_tx n_rx stages wm : (forall rx, rx < n_rx -> exists st, nth_error stages rx = Some st /\ holds h n_tx rx st) -> n_tx <= length wm ->
  forall n rx inner, rx + n = n_rx ->
  exists v, min_rx stages wm n_tx rx n inner = Ok v /\ (v <= inner)%Z /\ (forall r, rx <= r < n_rx -> (v <= norm2 (amplitude h n_tx wm r))%Z) /\
    (v = inner \/ exists r, rx <= r < n_rx /\ v = norm2 (amplitude h n_tx wm r)).
Proof.
  intros Hst Hw. induction n as [|n IH]; intros rx inner E.
  - exists inner. cbn. split; [reflexivity|]. split; [lia|]. split; [intros r Hr; lia|]. left. reflexivity.
  - destruct (Hst rx) as (st & Hn & Hh); [lia|]. cbn [min_rx]. unfold at_. rewrite Hn. cbn [bind].
    rewrite (sum_tx_ok h n_tx rx st wm Hh Hw n_tx 0) by lia. cbn [bind]. rewrite cadd_0_l. fold (amplitude h n_tx wm rx). change c_abs2 with norm2.
    set (p := norm2 (amplitude h n_tx wm rx)). destruct (IH (S rx) (if (p <? inner)%Z then p else inner)) as (v & Ev & L & A & B); [lia|].
    exists v. split; [exact Ev|]. destruct (Z.ltb_spec p inner).
    + split; [lia|]. split. { intros r Hr. destruct (Nat.eq_dec r rx) as [->|]; [exact L|]. apply A. lia. }
      right. destruct B as [->|(r & Hr & ->)]; [exists rx|exists r]; (split; [lia|reflexivity]).
    + split; [lia|]. split. { intros r Hr. destruct (Nat.eq_dec r rx) as [->|]; [fold p; lia|]. apply A. lia. }
      destruct B as [->|(r & Hr & ->)]; [left; reflexivity|right; exists r; split; [lia|reflexivity]].
Qed.

Lemma min_rx_weakest h n_tx n_rx stages wm : (forall rx, rx < n_rx -> exists st, nth_error stages rx = Some st /\ holds h n_tx rx st) -> n_tx <= length wm ->
  exists v, min_rx stages wm n_tx 0 n_rx 1000000000000 = Ok v /\
    (0 < n_rx -> (forall rx, rx < n_rx -> (norm2 (amplitude h n_tx wm rx) <= 1000000000000)%Z) -> weakest h n_tx n_rx wm v).
Proof.
  intros Hst Hw. destruct (min_rx_ok h n_tx n_rx stages wm Hst Hw n_rx 0 1000000000000) as (v & E & L & A & B); [lia|].
  exists v. split; [exact E|]. intros P Hb. split; [intros rx Hr; apply A; lia|]. destruct B as [->|(r & Hr & ->)].
  - exists 0. split; [exact P|]. specialize (A 0 ltac:(lia)). specialize (Hb 0 P). lia.
  - exists r. split; [lia|reflexivity].
Qed.

(** ** The search *)
Section Search.
  Variables (W : list (list weight)) (S_ : list nat) (stages : list (list weight)) (n_tx n_rx a s : nat) (val : nat -> Z).
  Hypothesis HW : forall k, a <= k < length W -> exists m, rd W k = Ok m /\ min_rx stages m n_tx 0 n_rx 1000000000000 = Ok (val k) /\ rd S_ k = Ok s.

  Lemma Qle_same x y p : Qle_bool (x # p) (y # p) = (x <=? y)%Z.
  Proof. unfold Qle_bool. cbn. destruct (Z.leb_spec x y); [apply Z.leb_le|apply Z.leb_gt]; nia. Qed.
  Lemma search_from : forall n wm r, a <= r < wm -> wm + n = length W -> (forall k, a <= k < wm -> (val k <= val r)%Z /\ (k < r -> (val k < val r)%Z)) ->
    exists i, search W S_ stages n_tx n_rx wm n (Some (val r # Pos.of_nat s)) (Some r) = Ok (Some i) /\ a <= i < length W /\
      forall k, a <= k < length W -> (val k <= val i)%Z /\ (k < i -> (val k < val i)%Z).
  Proof.
    induction n as [|n IH]; intros wm r Hr E Hk; cbn [search].
    - exists r. split; [reflexivity|]. split; [lia|]. intros k Hk'. apply Hk. lia.
    - destruct (HW wm) as (m & -> & Hm & Hs); [lia|]. cbn [bind]. rewrite Hm. cbn [bind]. rewrite Hs. cbn [bind]. cbv zeta. rewrite Qle_same.
      destruct (Z.leb_spec (val wm) (val r)) as [L|L]; cbn [negb].
      + apply IH; [lia|lia|]. intros k Hk'. destruct (Nat.eq_dec k wm) as [->|]; [split; [exact L|lia]|apply Hk; lia].
      + apply IH; [lia|lia|]. intros k Hk'. destruct (Nat.eq_dec k wm) as [->|]; [lia|]. destruct (Hk k) as [A _]; lia.
  Qed.
  Lemma search_best : a < length W -> exists i, search W S_ stages n_tx n_rx a (length W - a) None None = Ok (Some i) /\ a <= i < length W /\
    forall k, a <= k < length W -> (val k <= val i)%Z /\ (k < i -> (val k < val i)%Z).
  Proof.
    intros L. destruct (length W - a) as [|n] eqn:E; [lia|]. cbn [search]. destruct (HW a) as (m & -> & Hm & Hs); [lia|]. cbn [bind]. rewrite Hm. cbn [bind]. rewrite Hs. cbn [bind]. cbv zeta.
    apply search_from; [lia|lia|]. intros k Hk. replace k with a by lia. split; lia.
  Qed.
End Search.

(** ** The stages *)
Lemma copy_cells_ok est width : forall n stage i d, (n = 0 \/ i + (n - 1) * width < length est) -> d + n <= length stage ->
  exists st, copy_cells est stage width i d n = Ok st /\ length st = length stage /\
    (forall c, c < n -> nth (d + c) st wd = nth (i + c * width) est wd) /\ forall k, k < d \/ d + n <= k -> nth k st wd = nth k stage wd.
Proof.
  induction n as [|n IH]; intros stage i d Hi Hd; cbn [copy_cells].
  - exists stage. repeat split; intros; lia.
  - rewrite (rd_ok est i wd) by nia. cbn [bind]. rewrite (rd_ok stage d wd) by lia. cbn [bind].
    destruct (IH (upd stage d (nth i est wd)) (i + width) (S d)) as (st & E & L & A & B).
    + destruct n; [left; reflexivity|right; nia].
    + rewrite upd_length. lia.
    + exists st. split; [exact E|]. rewrite upd_length in L. split; [exact L|]. split.
      * intros c Hc. destruct c as [|c].
        -- rewrite Nat.add_0_r, B by lia. rewrite nth_upd_same by lia. f_equal. lia.
        -- replace (d + S c) with (S d + c) by lia. rewrite A by lia. f_equal. lia.
      * intros k Hk. rewrite B by lia. apply nth_upd_other. lia.
Qed.

Lemma stage_rx_ok ests b : 1 <= b -> forall n ts stage, ts + n <= length ests -> (forall x, In x ests -> 14 * b <= length x) -> (ts + n) * n_cells <= length stage ->
  exists st, stage_rx ests stage (step_width b) (step_offset b) ts n = Ok st /\ length st = length stage /\
    (forall t c, ts <= t < ts + n -> c < n_cells -> nth (t * n_cells + c) st wd = nth (cell b c) (nth t ests []) wd) /\
    forall k, k < ts * n_cells -> nth k st wd = nth k stage wd.
Proof.
  intros Hb. induction n as [|n IH]; intros ts stage Hl He Hs; cbn [stage_rx].
  - exists stage. split; [reflexivity|]. split; [reflexivity|]. split; [intros; lia|reflexivity].
  - rewrite (rd_ok ests ts []) by lia. cbn [bind].
    destruct (copy_cells_ok (nth ts ests []) (step_width b) n_cells stage (step_offset b) (ts * n_cells)) as (st & E & L & A & B).
    + right. assert (14 * b <= length (nth ts ests [])) by (apply He, nth_In; lia). unfold step_offset, step_width, n_cells in *. lia.
    + unfold n_cells in *. lia.
    + rewrite E. cbn [bind]. destruct (IH (S ts) st) as (st' & E' & L' & A' & B'); [lia|exact He|rewrite L; unfold n_cells in *; lia|].
      exists st'. split; [exact E'|]. split; [lia|]. split.
      * intros t c Ht Hc. destruct (Nat.eq_dec t ts) as [->|].
        -- rewrite B' by (unfold n_cells in *; lia). rewrite A by exact Hc. reflexivity.
        -- apply A'; [lia|exact Hc].
      * intros k Hk. rewrite B' by (unfold n_cells in *; lia). apply B. left. exact Hk.
Qed.

Lemma stages_rx_ok b n_ts n : 1 <= b -> forall ch old, length ch = length old ->
  (forall e, In e ch -> n_ts <= length e /\ forall x, In x e -> 14 * b <= length x) -> (forall s, In s old -> length s = n) -> n_ts * n_cells <= n ->
  exists st, stages_rx ch old (step_width b) (step_offset b) n_ts = Ok st /\ length st = length ch /\ (forall s, In s st -> length s = n) /\
    forall rx t c, rx < length ch -> t < n_ts -> c < n_cells -> nth (t * n_cells + c) (nth rx st []) wd = channel_of ch b rx t c.
Proof.
  intros Hb. induction ch as [|e ch IH]; intros [|s old] L He Hs Hn; cbn in L; try discriminate.
  - exists []. cbn. repeat split; [intros s []|intros; lia].
  - cbn [stages_rx]. destruct (He e (or_introl eq_refl)) as [Hl Hx].
    destruct (stage_rx_ok e b Hb n_ts 0 s) as (s' & E & Ls & A & _); [lia|exact Hx|rewrite (Hs s) by (left; reflexivity); lia|]. rewrite E. cbn [bind].
    destruct (IH old) as (st & E' & L' & S' & A'); [lia|intros; apply He; right; assumption|intros; apply Hs; right; assumption|exact Hn|]. rewrite E'. cbn [bind].
    exists (s' :: st). split; [reflexivity|]. split; [cbn; lia|]. split.
    + intros x [<-|Hi]; [rewrite Ls; apply Hs; left; reflexivity|apply S'; exact Hi].
    + intros [|rx] t c Hr Ht Hc; cbn [nth channel_of].
      * apply A; lia.
      * cbn in Hr. apply A'; [lia|exact Ht|exact Hc].
Qed.

Lemma transpose_ts_ok ts n : forall stages stage rx, (forall s, In s stages -> length s = n) -> (ts + 1) * n_cells <= n -> (rx + length stages) * n_cells <= length stage ->
  exists st, transpose_ts stages stage ts rx = Ok st /\ length st = length stage /\
    (forall r c, r < length stages -> c < n_cells -> nth ((rx + r) * n_cells + c) st wd = nth (ts * n_cells + c) (nth r stages []) wd) /\
    forall k, k < rx * n_cells -> nth k st wd = nth k stage wd.
Proof.
  induction stages as [|s stages IH]; intros stage rx Hs Ht Hl; cbn [transpose_ts].
  - exists stage. split; [reflexivity|]. split; [reflexivity|]. split; [cbn; intros; lia|reflexivity].
  - cbn [length] in Hl. assert (Es : length s = n) by (apply Hs; left; reflexivity).
    destruct (copy_cells_ok s 1 n_cells stage (ts * n_cells) (rx * n_cells)) as (st & E & L & A & B); [right; unfold n_cells in *; lia|unfold n_cells in *; lia|].
    rewrite E. cbn [bind]. destruct (IH st (S rx)) as (st' & E' & L' & A' & B'); [intros; apply Hs; right; assumption|exact Ht|rewrite L; unfold n_cells in *; lia|].
    exists st'. split; [exact E'|]. split; [lia|]. split.
    + intros [|r] c Hr Hc; cbn [nth].
      * rewrite Nat.add_0_r, B' by (unfold n_cells in *; lia). rewrite A by exact Hc. f_equal. lia.
      * replace (rx + S r) with (S rx + r) by lia. apply A'; [cbn in Hr; lia|exact Hc].
    + intros k Hk. rewrite B' by (unfold n_cells in *; lia). apply B. left. exact Hk.
Qed.

Lemma transpose_ok stages n n_rx : length stages = n_rx -> (forall s, In s stages -> length s = n) ->
  forall k ts old, (ts + k) * n_cells <= n -> ts + k <= length old -> (forall s, In s old -> length s = n_rx * n_cells) ->
  exists tr, transpose stages old ts k = Ok tr /\ length tr = length old /\ (forall s, In s tr -> length s = n_rx * n_cells) /\
    (forall t r c, ts <= t < ts + k -> r < n_rx -> c < n_cells -> nth (r * n_cells + c) (nth t tr []) wd = nth (t * n_cells + c) (nth r stages []) wd) /\
    forall t, t < ts -> nth t tr [] = nth t old [].
Proof.
  intros Ls Hs. induction k as [|k IH]; intros ts old Hn Hl Ho; cbn [transpose].
  - exists old. split; [reflexivity|]. split; [reflexivity|]. split; [exact Ho|]. split; [intros; lia|reflexivity].
  - unfold at_. rewrite (nth_error_nth' old []) by lia. cbn [bind].
    assert (Eo : length (nth ts old []) = n_rx * n_cells) by (apply Ho, nth_In; lia).
    destruct (transpose_ts_ok ts n stages (nth ts old []) 0 Hs) as (st & E & L & A & _); [unfold n_cells in *; lia|rewrite Eo; unfold n_cells in *; lia|].
    rewrite E. cbn [bind]. destruct (IH (S ts) (upd old ts st)) as (tr & E' & L' & S' & A' & B').
    + unfold n_cells in *. lia.
    + rewrite upd_length. lia.
    + intros s Hi. apply (In_nth _ _ []) in Hi. destruct Hi as (q & Hq & <-). rewrite upd_length in Hq. destruct (Nat.eq_dec q ts) as [->|].
      * rewrite nth_upd_same by lia. lia.
      * rewrite nth_upd_other by lia. apply Ho, nth_In. exact Hq.
    + exists tr. split; [exact E'|]. rewrite upd_length in L'. split; [exact L'|]. split; [exact S'|]. split.
      * intros t r c Ht Hr Hc. destruct (Nat.eq_dec t ts) as [->|].
        -- rewrite B' by lia. rewrite nth_upd_same by lia. apply (A r c); lia.
        -- apply A'; lia.
      * intros t Ht. rewrite B' by lia. apply nth_upd_other. lia.
Qed.
