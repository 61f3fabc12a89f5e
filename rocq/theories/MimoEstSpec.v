(** What the estimator promises. *)
From Verif Require Import Base Beamforming BeamformingSpec MimoEst.
From Coq Require Import ZArith.
Open Scope nat_scope.

(** The channel from transmit antenna [tx] to receive antenna [rx] at one of the four cells that are looked at. *)
Definition channel := nat -> nat -> nat -> weight.
(** The four cells of the [14 b] reference cells: equally spaced. *)
Definition cell (b c : nat) : nat := step_offset b + c * step_width b.
(** What receive antenna [rx] would get if the transmitter used the weights [w]: summed over the cells. *)
Definition amplitude (h : channel) (n_tx : nat) (w : list weight) (rx : nat) : weight :=
  sumC (map (fun tx => sumC (map (fun c => cmul (h rx tx c) (nth tx w (0, 0)%Z)) (seq 0 n_cells))) (seq 0 n_tx)).
(** The power of the weakest receive antenna. *)
Definition weakest (h : channel) (n_tx n_rx : nat) (w : list weight) (p : Z) : Prop :=
  (forall rx, rx < n_rx -> (p <= norm2 (amplitude h n_tx w rx))%Z) /\ exists rx, rx < n_rx /\ p = norm2 (amplitude h n_tx w rx).
(** [idx] is the best index: it feeds all antennas, no other such index makes the weakest receive antenna stronger, and it is the lowest of the best. *)
Definition best_index (w : W_t) (h : channel) (n_tx n_rx idx : nat) : Prop :=
  exists m p, get_W w 1 n_tx idx = Ok m /\ (forall x, In x m -> x <> (0, 0)%Z) /\ weakest h n_tx n_rx m p /\
    forall idx' m' p', get_W w 1 n_tx idx' = Ok m' -> (forall x, In x m' -> x <> (0, 0)%Z) -> weakest h n_tx n_rx m' p' ->
      (p' <= p)%Z /\ (idx' < idx -> (p' < p)%Z).
(** Amplitudes below one million, the value the search starts from. *)
Definition bounded (h : channel) (n_tx n_rx : nat) (w : W_t) : Prop :=
  forall idx m rx, get_W w 1 n_tx idx = Ok m -> rx < n_rx -> (norm2 (amplitude h n_tx m rx) <= 1000000000000)%Z.
(** The channel of the estimates of a packet, and the channel in the other direction. *)
Definition channel_of (ch : list (list (list weight))) (b : nat) : channel := fun rx tx c => nth (cell b c) (nth tx (nth rx ch []) []) (0, 0)%Z.
Definition reverse (h : channel) : channel := fun rx tx c => h tx rx c.

(** Estimates and stages of the right sizes: [n_ts] streams at [n_rx] antennas. *)
Definition estimates_ok (ch : list (list (list weight))) (b n_rx n_ts : nat) : Prop :=
  length ch = n_rx /\ forall e, In e ch -> n_ts <= length e /\ forall x, In x e -> 14 * b <= length x.
Definition est_ok (m : est) (n_rx n_ts_max : nat) : Prop :=
  m_rx m = n_rx /\ m_ts_max m = n_ts_max /\ length (m_stages m) = n_rx /\ length (m_transp m) = n_ts_max /\
  (forall s, In s (m_stages m) -> length s = n_ts_max * n_cells) /\ forall s, In s (m_transp m) -> length s = n_rx * n_cells.
