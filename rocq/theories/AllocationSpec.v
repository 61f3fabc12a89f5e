(** What a resource allocation means, in samples. *)
From Verif Require Import Base Duration Allocation.

(** A resource is the half-open interval of samples, relative to the start of a beacon period. *)
Definition first (r : resource) : Z := Z.of_N (du_N (rs_offset r)).
Definition last_plus_one (r : resource) : Z := (first r + Z.of_N (du_N (rs_length r)))%Z.
Definition covers (r : resource) (s : Z) : Prop := (first r <= s < last_plus_one r)%Z.
Definition disjoint (r q : resource) : Prop := forall s, ~ (covers r s /\ covers q s).
(** All resources at different list positions are disjoint. *)
Definition pairwise_disjoint (l : list resource) : Prop :=
  forall i j r q, i <> j -> nth_error l i = Some r -> nth_error l j = Some q -> disjoint r q.
(** At least one sample and inside a beacon period of [P] samples. *)
Definition inside (P : Z) (r : resource) : Prop := (0 <= first r < last_plus_one r)%Z /\ (last_plus_one r <= P)%Z.
Definition of_direction (a : allocation_pt) (d : direction) : list resource :=
  match d with ul => pa_ul a | dl => pa_dl a | both => [] end.

(** [t] is the beginning of resource [r] in some beacon period, counted from the last known beacon onwards. *)
Definition starts_at (beacon P : Z) (r : resource) (t : Z) : Prop := exists k, (0 <= k /\ t = beacon + k * P + first r)%Z.
(** The earliest such beginning within [earliest, latest). *)
Definition legal (beacon P : Z) (l : list resource) (earliest latest t : Z) : Prop :=
  (earliest <= t < latest)%Z /\ exists r, In r l /\ starts_at beacon P r t.
(** Offsets ascend in the order of addition. *)
Fixpoint ascending (l : list resource) : Prop :=
  match l with
  | r :: ((q :: _) as t) => (first r < first q)%Z /\ ascending t
  | _ => True
  end.

(** Everything a user can do to an allocation: add single or regular resources, announce a beacon. *)
Inductive pt_op :=
| Add (d : direction) (offset length : duration)
| AddRegular (d : direction) (offset length stride n : N) (ec : duration_ec)
| Beacon (t : Z).
Definition pt_step (a : allocation_pt) (o : pt_op) : res allocation_pt :=
  match o with
  | Add d o l => add_resource a d o l
  | AddRegular d o l s n ec => add_resource_regular a d o l s n ec
  | Beacon t => Ok (set_beacon_time_last_known a t)
  end.
Fixpoint pt_run (a : allocation_pt) (ops : list pt_op) : res allocation_pt :=
  match ops with
  | [] => Ok a
  | o :: ops => do a <- pt_step a o ; pt_run a ops
  end.
(** Sample counts are of type uint32_t. *)
Definition is_u32 (d : duration) : Prop := (du_N d < 2 ^ 32)%N.
Definition op_u32 (o : pt_op) : Prop := match o with Add _ o l => is_u32 o /\ is_u32 l | _ => True end.
Definition reachable (a : allocation_pt) : Prop :=
  exists lut period after_beacon after_now turnaround ops,
    is_u32 period /\ is_u32 after_beacon /\ is_u32 after_now /\ Forall op_u32 ops /\
    pt_run (allocation_pt_new lut period after_beacon after_now turnaround) ops = Ok a.

(** The window in which a transmission may begin. *)
Definition earliest (a : allocation_pt) (now tx_earliest : Z) : Z := Z.max (now + pa_turnaround a) tx_earliest.
Definition limit (a : allocation_pt) (d : direction) (now : Z) : Z :=
  match d with
  | ul => Z.min (pa_beacon a + Z.of_N (du_N (pa_after_beacon a))) (now + Z.of_N (du_N (pa_after_now a)))
  | _ => pa_beacon a + Z.of_N (du_N (pa_period a))
  end.
Definition period (a : allocation_pt) : Z := Z.of_N (du_N (pa_period a)).
