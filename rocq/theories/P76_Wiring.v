(** C83: every worker pool works for exactly one termination point. *)
From Coq Require Import Ascii String.
From Verif Require Import Base UpperCfg UpperCfgSpec UpperCfgFacts Wiring WiringSpec WiringFacts.
Open Scope nat_scope.

(** Whenever the upper layers start, pools, termination points and tokens are connected consistently. *)
Theorem C83_wired : forall simulation n cs tps pools, upper simulation n cs = Ok (tps, pools) -> wired n cs tps pools.
Proof. intros s n cs tps ps H. exact (proj1 (upper_ok _ _ _ _ _ H)). Qed.
Print Assumptions C83_wired.

(** Two pools never use the same number of the same token. *)
Theorem C83_token_numbers : forall simulation n cs tps pools p q x y, upper simulation n cs = Ok (tps, pools) ->
  nth_error pools p = Some x -> nth_error pools q = Some y ->
  pool_token x = pool_token y -> token_call_id x = token_call_id y -> p = q.
Proof.
  intros s n cs tps ps p q x y H Hx Hy ET EI. apply C83_wired in H.
  destruct (w_calls _ _ _ _ H p x Hx) as [t [A1 [A2 [A3 _]]]]. destruct (w_calls _ _ _ _ H q y Hy) as [t' [B1 [B2 [B3 _]]]].
  assert (K : calls x = calls y) by (apply (w_tokens _ _ _ _ H _ _ t t' A1 B1); congruence).
  rewrite K, B1 in A1. injection A1 as <-. rewrite EI, B2 in A2. congruence.
Qed.
Print Assumptions C83_token_numbers.

(** Exactly these configurations start. *)
Theorem C83_starts : forall simulation n cs, (exists r, upper simulation n cs = Ok r) <-> startable simulation n cs.
Proof.
  intros s n cs. split; [|apply upper_total]. intros [[tps ps] H]. exact (proj2 (upper_ok _ _ _ _ _ H)).
Qed.
Print Assumptions C83_starts.

(** The firmware is determined by its name: no name begins with two of the known names. *)
Theorem C83_firmware_unique : forall name f g, known f -> known g -> begins name f -> begins name g -> f = g.
Proof.
  intros name f g Hf Hg [r Ef] [r' Eg]. subst name.
  unfold known in Hf, Hg. decompose [or] Hf; subst f; decompose [or] Hg; subst g; try reflexivity; cbn in Eg; discriminate.
Qed.
Print Assumptions C83_firmware_unique.

(** ** Claims that fail *)

Definition cfg (i : nat) (name : string) (nets : list Z) : tpoint_config :=
  mkCfg (Z.of_nat i) (lit name) 0 nets (0, 0)%Z (0, 0)%Z.

(** "Only known names start" is false: "rtt_old" starts rtt. *)
Theorem C83_name_refuted :
  ~ (forall s n cs r c, upper s n cs = Ok r -> In c cs -> known (firmware_name c)).
Proof.
  intros H. assert (E : exists r, upper false 1 [cfg 0 "rtt_old" [1%Z]] = Ok r) by (eexists; vm_compute; reflexivity).
  destruct E as [r E]. specialize (H _ _ _ _ _ E (or_introl eq_refl)). unfold known in H.
  decompose [or] H; discriminate.
Qed.
Print Assumptions C83_name_refuted.

(** "One termination point per pair works for any number of pairs" is false: each token serves a single pool, but is created
    for all of them, and more than four are refused. *)
Theorem C83_five_refuted :
  ~ (forall s cs, 1 <= List.length cs -> (forall k c, nth_error cs k = Some c -> id c = Z.of_nat k) ->
     (forall c, In c cs -> known (firmware_name c)) -> exists r, upper s (List.length cs) cs = Ok r).
Proof.
  intros H. specialize (H false (map (fun i => cfg i "basic" [1%Z]) (seq 0 5))). destruct H as [r H].
  - cbn. lia.
  - intros k c Hk. apply nth_map_seq in Hk. destruct Hk as [_ ->]. reflexivity.
  - intros c Hc. apply in_map_iff in Hc. destruct Hc as [i [<- _]]. left. reflexivity.
  - vm_compute in H. discriminate.
Qed.
Print Assumptions C83_five_refuted.

(** ** Examples *)

Example C83_one_to_many : upper false 3 [cfg 0 "rtt" [5; 6]%Z] =
  Ok ([mkTp (lit "rtt") (cfg 0 "rtt" [5; 6]%Z) 0 [0; 1; 2]],
      [mkPool 0 0 0 [5; 6]%Z; mkPool 0 0 1 [5; 6]%Z; mkPool 0 0 2 [5; 6]%Z]).
Proof. vm_compute. reflexivity. Qed.
Example C83_one_to_one : upper true 2 [cfg 0 "p2p_ft" [5%Z]; cfg 1 "p2p_pt" [6%Z]] =
  Ok ([mkTp (lit "p2p_ft") (cfg 0 "p2p_ft" [5%Z]) 0 [0]; mkTp (lit "p2p_pt") (cfg 1 "p2p_pt" [6%Z]) 1 [1]],
      [mkPool 0 0 0 [5%Z]; mkPool 1 1 0 [6%Z]]).
Proof. vm_compute. reflexivity. Qed.
Example C83_startable : startable true 2 [cfg 0 "p2p_ft" [5%Z]; cfg 1 "p2p_pt" [6%Z]].
Proof. apply C83_starts. eexists. exact C83_one_to_one. Qed.
Example C83_simulation_aborts : upper true 3 [cfg 0 "rtt" [5; 6]%Z] = Abort.
Proof. vm_compute. reflexivity. Qed.
Example C83_unknown_aborts : upper false 1 [cfg 0 "rt" [5%Z]] = Abort.
Proof. vm_compute. reflexivity. Qed.
