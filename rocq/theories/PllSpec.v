(** What the beacon time PLL measures, in terms of the list of accepted beacon times. *)
From Verif Require Import Base IntHelpersSpec Pll.
From Coq Require Import QArith.
Open Scope Z_scope.

(** Beacon times accepted since the last reset, newest first; the current warp estimate. *)
Record est := mkEst { accepted : list Z; warp : Q }.
(** A beacon is accepted if it is the first or at least one second after the last accepted one. *)
Definition acceptable (sr : Z) (acc : list Z) (t : Z) : Prop := match acc with [] => True | a :: _ => sr <= t - a end.
(** The distance measured when [t] is accepted: to the fourth accepted beacon before it. *)
Definition measured (acc : list Z) (t d : Z) : Prop := exists o, nth_error acc 3 = Some o /\ d = t - o.
(** Longest distance used: five seconds plus eight beacon periods. *)
Definition longest (sr P : Z) : Z := 5 * sr + 8 * P.
(** A distance of [d] samples taken as the closest whole number of beacon periods is this warp factor. *)
Definition ratio (P d : Z) (r : Q) : Prop :=
  exists n, is_nearest d P n /\ n * P <> 0 /\ (r == inject_Z d / inject_Z (n * P))%Q.
Definition smoothed (w r w' : Q) : Prop := (w' == (9 # 10) * w + (1 # 10) * r)%Q.
Definition synchronous (w : Q) : Prop := (1 - (150 # 1000000) < w < 1 + (150 # 1000000))%Q.

Inductive est_step (sr P : Z) : est -> pll_op -> est -> Prop :=
| E_reset s : est_step sr P s Reset (mkEst [] 1%Q)
| E_ignore acc w t : ~ acceptable sr acc t -> est_step sr P (mkEst acc w) (Provide t) (mkEst acc w)
| E_collect acc w t : acceptable sr acc t -> (forall d, measured acc t d -> longest sr P < d) ->
    est_step sr P (mkEst acc w) (Provide t) (mkEst (t :: acc) w)
| E_measure acc w t d r w' : acceptable sr acc t -> measured acc t d -> d <= longest sr P ->
    ratio P d r -> smoothed w r w' -> synchronous w' ->
    est_step sr P (mkEst acc w) (Provide t) (mkEst (t :: acc) w').
Inductive est_steps (sr P : Z) : est -> list pll_op -> est -> Prop :=
| ES_nil s : est_steps sr P s [] s
| ES_cons s o s1 l s2 : est_step sr P s o s1 -> est_steps sr P s1 l s2 -> est_steps sr P s (o :: l) s2.
