(** C82: the configuration of the termination points is what the file says. *)
From Coq Require Import QArith Ascii String.
From Verif Require Import Base UpperCfg UpperCfgSpec UpperCfgFacts.
Open Scope nat_scope.

(** A file that describes sensible configurations with the ids 0, 1, 2, ... is read exactly. *)
Theorem C82_exact : forall file cs,
  Forall2 (fun e c => says (fst e) (snd e) c /\ sensible c) file cs ->
  (forall k c, nth_error cs k = Some c -> id c = Z.of_nat k) ->
  (Z.of_nat (List.length file) < 2 ^ 31)%Z ->
  upper_config file = Ok cs.
Proof. intros file cs H Hi Hn. apply (read_from_says file cs 0 H); assumption. Qed.
Print Assumptions C82_exact.

(** Whatever is accepted: one configuration per entry with its position as id, all values in range, and derived from the
    entry up to 32 bits. *)
Theorem C82_accepted : forall file cs, upper_config file = Ok cs ->
  List.length cs = List.length file /\
  forall k key j c, nth_error file k = Some (key, j) -> nth_error cs k = Some c ->
    id c = Z.of_nat k /\ sensible c /\ (exists s, key = lit "TPOINT" ++ s /\ s <> []) /\ derived j c.
Proof. intros file cs H. exact (read_from_inv file 0 cs H). Qed.
Print Assumptions C82_accepted.

(** Two entries in the wrong order, a missing id or an id used twice are never accepted. *)
Theorem C82_order : forall file key j k s n,
  nth_error file k = Some (key, j) -> key = lit "TPOINT" ++ s -> numeral s n -> (0 <= n < 2 ^ 31)%Z -> n <> Z.of_nat k ->
  forall cs, upper_config file <> Ok cs.
Proof.
  intros file key j k s n Hk -> Hs Hn Hne cs H. unfold upper_config in H.
  assert (W : forall l m cs k, nth_error l k = Some (lit "TPOINT" ++ s, j) -> read_from m l = Ok cs -> n = Z.of_nat (m + k)).
  { clear file k Hk Hne cs H. induction l as [|[key0 j0] l IH]; intros m cs k Hk H; [destruct k; discriminate|].
    cbn [read_from] in H. apply bind_ok in H. destruct H as [c [Hc H]]. apply bind_ok in H. destruct H as [r [Hr _]].
    destruct k as [|k]; cbn [nth_error] in Hk.
    - injection Hk as Hkey _. subst key0. unfold read_tpoint in Hc. apply guard_ok in Hc. destruct Hc as [_ Hc].
      apply bind_ok in Hc. destruct Hc as [i [Hi Hc]].
      assert (Y := eq_trans (eq_sym Hi) (extract_numeral json_log_key _ _ Hs Hn)). injection Y as ->.
      do 5 (apply bind_ok in Hc; destruct Hc as [? [_ Hc]]). apply guard_ok in Hc.
      destruct Hc as [G _]. apply Z.eqb_eq in G. rewrite Nat.add_0_r. exact G.
    - rewrite (IH _ _ _ Hk Hr). f_equal. lia. }
  apply Hne. exact (W file 0 cs k Hk H).
Qed.
Print Assumptions C82_order.

(** ** What is accepted although it is wrong *)

Definition entry (fid : json) (nets : list json) : json :=
  JObj [ (lit "firmware_name", JString (lit "basic")); (lit "firmware_id", fid); (lit "network_ids", JArr nets);
         (lit "application_server_thread_config", JArr [JInt 0; JInt (-1)]);
         (lit "application_client_thread_config", JArr [JInt 1; JInt 2]) ].

Definition read_as (c : Z) (nets : list Z) : tpoint_config := mkCfg 0 (lit "basic") c nets (0, -1)%Z (1, 2)%Z.

(** "A firmware id outside 0 to 999 is rejected" is false: 2 ^ 32 + 1 is read as 1. *)
Theorem C82_range_refuted :
  ~ (forall file cs o x, upper_config file = Ok cs -> In (JObj o) (map snd file) -> has (lit "firmware_id") (JInt x) o ->
     (0 <= x <= 999)%Z).
Proof.
  intros H.
  assert (E : upper_config [(lit "TPOINT0", entry (JInt 4294967297) [JInt 100])] = Ok [read_as 1 [100%Z]]) by (vm_compute; reflexivity).
  specialize (H _ _ _ 4294967297%Z E (or_introl eq_refl)).
  assert (A : (0 <= 4294967297 <= 999)%Z) by (apply H; apply has_later; [discriminate|apply has_here]). lia.
Qed.
Print Assumptions C82_range_refuted.

(** "Every network id of an accepted file is an integer" is false: only the first one is checked. *)
Theorem C82_array_refuted :
  ~ (forall file cs o l, upper_config file = Ok cs -> In (JObj o) (map snd file) -> has (lit "network_ids") (JArr l) o ->
     Forall (fun v => exists x, v = JInt x) l).
Proof.
  intros H.
  assert (E : upper_config [(lit "TPOINT0", entry (JInt 7) [JInt 100; JBool true; JFloat (5 # 2)])] = Ok [read_as 7 [100; 1; 2]%Z])
    by (vm_compute; reflexivity).
  specialize (H _ _ _ [JInt 100; JBool true; JFloat (5 # 2)] E (or_introl eq_refl)).
  assert (A := H ltac:(apply has_later; [discriminate|]; apply has_later; [discriminate|]; apply has_here)).
  rewrite Forall_forall in A. destruct (A (JBool true) (or_intror (or_introl eq_refl))) as [y Y]. discriminate.
Qed.
Print Assumptions C82_array_refuted.

(** "Every key of an accepted file is TPOINT and a numeral" is false: whatever follows the digits is ignored. *)
Theorem C82_key_refuted :
  ~ (forall file cs key, upper_config file = Ok cs -> In key (map fst file) -> exists s n, key = lit "TPOINT" ++ s /\ numeral s n).
Proof.
  intros H.
  assert (E : upper_config [(lit "TPOINT +0.5", entry (JInt 7) [JInt 100])] = Ok [read_as 7 [100%Z]]) by (vm_compute; reflexivity).
  destruct (H _ _ _ E (or_introl eq_refl)) as [s [n [Q [_ [ds [F _]]]]]].
  assert (S : s = lit " +0.5") by (apply (app_inv_head (lit "TPOINT")); rewrite <- Q; reflexivity).
  subst s. change (lit " +0.5") with (" "%char :: lit "+0.5") in F.
  destruct (f2_head _ _ _ _ _ _ F) as [d [D1 D2]]. change (Z.of_nat (nat_of_ascii " "%char)) with 32%Z in D2. lia.
Qed.
Print Assumptions C82_key_refuted.

(** ** The hypotheses can be met *)

Definition example_file : list (str * json) :=
  [ (lit "TPOINT0", entry (JInt 7) [JInt 100; JInt 4294967295]); (lit "TPOINT01", entry (JInt 999) [JInt 0]) ].
Definition example_cfg : list tpoint_config :=
  [ read_as 7 [100; 4294967295]%Z; mkCfg 1 (lit "basic") 999 [0%Z] (0, -1)%Z (1, 2)%Z ].

Ltac find := first [apply has_here | apply has_later; [discriminate|find]].

Example C82_exact_nonvacuous :
  Forall2 (fun e c => says (fst e) (snd e) c /\ sensible c) example_file example_cfg /\
  (forall k c, nth_error example_cfg k = Some c -> id c = Z.of_nat k) /\
  upper_config example_file = Ok example_cfg.
Proof.
  split; [|split; [|vm_compute; reflexivity]].
  - constructor; [|constructor; [|constructor]]; split.
    + split.
      * exists (lit "0"). split; [reflexivity|]. split; [discriminate|]. exists [0%Z].
        split; [repeat constructor; vm_compute; congruence|reflexivity].
      * eexists. split; [reflexivity|]. repeat split; find.
    + unfold sensible, int32, uint32. cbn. repeat split; try discriminate; try lia. repeat constructor; lia.
    + split.
      * exists (lit "01"). split; [reflexivity|]. split; [discriminate|]. exists [0%Z; 1%Z].
        split; [repeat constructor; vm_compute; congruence|reflexivity].
      * eexists. split; [reflexivity|]. repeat split; find.
    + unfold sensible, int32, uint32. cbn. repeat split; try discriminate; try lia. repeat constructor; lia.
  - intros [|[|k]] c H; cbn in H; [injection H as <-; reflexivity|injection H as <-; reflexivity|destruct k; discriminate].
Qed.

Example C82_swapped_rejected : upper_config (rev example_file) = Abort.
Proof. vm_compute. reflexivity. Qed.
Example C82_negative_rejected : upper_config [(lit "TPOINT0", entry (JInt (-1)) [JInt 100])] = Abort.
Proof. vm_compute. reflexivity. Qed.
Example C82_no_number_throws : upper_config [(lit "TPOINTx", entry (JInt 1) [JInt 100])] = Throw.
Proof. vm_compute. reflexivity. Qed.
