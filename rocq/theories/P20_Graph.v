(** C41: the edge index of the complete graph is a bijection. *)
From Verif Require Import Base Graph.
Open Scope Z_scope.

(** An unordered pair of two different vertices out of [v], smaller one first. *)
Definition edge (v a b : Z) : Prop := 0 <= a < b /\ b < v.
Definition before (a b a' b' : Z) : Prop := a < a' \/ (a = a' /\ b < b').

Definition tri (v a : Z) : Z := a * (2 * v - 1 - a) / 2.
Lemma even_tri v a : exists k, a * (2 * v - 1 - a) = 2 * k.
Proof.
  destruct (Z.Even_or_Odd a) as [(k & ->)|(k & ->)].
  - exists (k * (2 * v - 1 - 2 * k)). ring.
  - exists ((2 * k + 1) * (v - 1 - k)). ring.
Qed.
Lemma tri2 v a : 2 * tri v a = a * (2 * v - 1 - a).
Proof. unfold tri. destruct (even_tri v a) as (k & ->). rewrite Z.mul_comm with (n := 2) (m := k), Z.div_mul by lia. lia. Qed.

Lemma u32_cong x y k : x = y + k * 2 ^ 32 -> u32 x = u32 y.
Proof. intros ->. unfold u32. apply Z.mod_add. lia. Qed.
Lemma u32_small x : 0 <= x < 2 ^ 32 -> u32 x = x.
Proof. apply Z.mod_small. Qed.
Lemma u32_eq x : exists k, u32 x = x + k * 2 ^ 32.
Proof. exists (- (x / 2 ^ 32)). unfold u32. pose proof (Z.div_mod x (2 ^ 32) ltac:(lia)). lia. Qed.

Lemma index_val v a b : v <= 65536 -> edge v a b ->
  complete_graph_sorted_edge_index v a b = Ok (tri v a + b - a - 1) /\
  complete_graph_sorted_edge_index v b a = Ok (tri v a + b - a - 1).
Proof.
  intros Hv ((Ha & Hab) & Hb).
  assert (B : 0 <= a * (2 * v - 1 - a) < 2 ^ 32) by nia.
  assert (E : u32 (u32 (u32 (u32 (u32 (2 * v) * a) - a) - u32 (a * a)) / 2 + b - a - 1) = tri v a + b - a - 1).
  { assert (K : u32 (u32 (u32 (u32 (2 * v) * a) - a) - u32 (a * a)) = a * (2 * v - 1 - a)).
    { rewrite (u32_small (2 * v)) by lia.
      destruct (u32_eq (2 * v * a)) as (k1 & E1), (u32_eq (a * a)) as (k2 & E2).
      destruct (u32_eq (u32 (2 * v * a) - a)) as (k3 & E3). rewrite E3, E2, E1.
      rewrite (u32_cong _ (a * (2 * v - 1 - a)) (k1 + k3 - k2)) by ring. now apply u32_small. }
    rewrite K. apply u32_small. unfold tri. pose proof (tri2 v a) as T. unfold tri in T. nia. }
  unfold complete_graph_sorted_edge_index. split.
  - replace (a <? b) with true by lia. cbn [bind]. now rewrite E.
  - replace (b <? a) with false by lia. replace (a <? b) with true by lia. cbn [bind]. now rewrite E.
Qed.
Lemma edges_val v : 0 <= v <= 65536 -> 2 * complete_graph_nof_edges v = v * (v - 1).
Proof.
  intros H. unfold complete_graph_nof_edges. destruct (Z.eq_dec v 0) as [->|V]; [reflexivity|].
  rewrite (u32_small (v - 1)) by lia. rewrite u32_small by nia.
  pose proof (tri2 v (v - 1)) as T. unfold tri in T. replace ((v - 1) * (2 * v - 1 - (v - 1))) with (v * (v - 1)) in T by ring. exact T.
Qed.

(** Order of the arguments does not matter; equal vertices abort. *)
Theorem C41_symmetric : forall v a b, complete_graph_sorted_edge_index v a b = complete_graph_sorted_edge_index v b a.
Proof.
  intros. unfold complete_graph_sorted_edge_index. destruct (a <? b) eqn:A, (b <? a) eqn:B; try reflexivity; lia.
Qed.
Theorem C41_equal_vertices_abort : forall v a, complete_graph_sorted_edge_index v a a = Abort.
Proof. intros. unfold complete_graph_sorted_edge_index. now rewrite Z.ltb_irrefl. Qed.

(** Up to 65536 vertices indices lie in the range and follow the lexicographic order of the pairs, so no two pairs share one. *)
Theorem C41_ordered : forall v a b a' b', v <= 65536 -> edge v a b -> edge v a' b' ->
  exists i i', complete_graph_sorted_edge_index v a b = Ok i /\ complete_graph_sorted_edge_index v a' b' = Ok i' /\
    0 <= i < complete_graph_nof_edges v /\
    (i < i' <-> before a b a' b') /\ (i = i' <-> a = a' /\ b = b').
Proof.
  intros v a b a' b' Hv E E'. destruct (index_val v a b Hv E) as (I & _), (index_val v a' b' Hv E') as (I' & _).
  eexists. eexists. split; [exact I|]. split; [exact I'|].
  pose proof (tri2 v a). pose proof (tri2 v a'). pose proof (edges_val v). unfold edge, before in *.
  assert (M : forall x y p q, 0 <= x -> x < y -> x < p < v -> y < q < v -> tri v x + p - x < tri v y + q - y).
  { intros x y p q X XY P Q. pose proof (tri2 v x). pose proof (tri2 v y).
    assert (2 * tri v y - 2 * tri v x >= 2 * (v - 1 - x)). {
      replace (2 * tri v y - 2 * tri v x) with ((y - x) * (2 * v - 1 - x - y)) by (rewrite !tri2; ring). nia. }
    lia. }
  split; [nia|].
  destruct (Z.lt_trichotomy a a') as [L|[<-|L]].
  - pose proof (M a a' b b' ltac:(lia) L ltac:(lia) ltac:(lia)). split; split; intros; lia.
  - split; split; intros; lia.
  - pose proof (M a' a b' b ltac:(lia) L ltac:(lia) ltac:(lia)). split; split; intros; lia.
Qed.

(** Every index below the number of edges is taken. *)
Theorem C41_onto : forall v i, 0 <= v <= 65536 -> 0 <= i < complete_graph_nof_edges v ->
  exists a b, edge v a b /\ complete_graph_sorted_edge_index v a b = Ok i.
Proof.
  intros v i Hv Hi. pose proof (edges_val v Hv) as N.
  assert (V : 2 <= v) by nia.
  assert (G : forall k, (Z.of_nat k < complete_graph_nof_edges v) ->
              exists a b, edge v a b /\ tri v a + b - a - 1 = Z.of_nat k).
  { induction k as [|k IH]; intros K.
    - exists 0, 1. split; [unfold edge; lia|reflexivity].
    - destruct IH as (a & b & E & T); [lia|]. unfold edge in *. destruct (Z.eq_dec (b + 1) v) as [B|B].
      + exists (a + 1), (a + 2). pose proof (tri2 v a). pose proof (tri2 v (a + 1)).
        assert (tri v (a + 1) = tri v a + v - 1 - a) by nia. split; [|lia].
        assert (a + 2 <> v); [|lia]. intros A. assert (a = v - 2) by lia. subst a. nia.
      + exists a, (b + 1). split; lia. }
  destruct (G (Z.to_nat i)) as (a & b & E & T); [lia|]. exists a, b. split; [exact E|].
  destruct (index_val v a b ltac:(lia) E) as (-> & _). f_equal. lia.
Qed.

(** One vertex more and the 32 bit arithmetic wraps: the last edge gets an index beyond the announced number of edges. *)
Theorem C41_too_many_vertices_refuted :
  complete_graph_nof_edges 65537 = 32768 /\ complete_graph_sorted_edge_index 65537 0 65536 = Ok 65535.
Proof. split; vm_compute; reflexivity. Qed.

Example C41_hypotheses_met :
  edge 5 1 3 /\ edge 5 2 4 /\ complete_graph_nof_edges 5 = 10 /\
  complete_graph_sorted_edge_index 5 1 3 = Ok 5 /\ complete_graph_sorted_edge_index 5 2 4 = Ok 8 /\ before 1 3 2 4.
Proof. unfold edge, before. repeat split; try lia; vm_compute; reflexivity. Qed.

Print Assumptions C41_symmetric.
Print Assumptions C41_equal_vertices_abort.
Print Assumptions C41_ordered.
Print Assumptions C41_onto.
