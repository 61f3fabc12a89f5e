(** The comparison of CellsCheck.v evaluated for every bandwidth and number of streams. *)
From Verif Require Import Base PacketSizes Cells CellsSpec CellsCheck.
Open Scope N_scope.

Lemma all_follow : forallb (fun p => forallb (follows (fst p) (snd p)) [1; 2; 4; 8]) bandwidths = true.
Proof. vm_compute. reflexivity. Qed.

