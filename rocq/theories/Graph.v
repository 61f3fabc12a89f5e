(** Model of lib/src/simulation/topology/graph.cpp; uint32_t arithmetic modulo 2^32. *)
From Verif Require Import Base.
Open Scope Z_scope.
Definition u32 (z : Z) : Z := z mod 2 ^ 32.
(** graph.cpp 27-29 *)
Definition complete_graph_nof_edges (v : Z) : Z := u32 (v * u32 (v - 1)) / 2.
(** graph.cpp 31-52 *)
Definition complete_graph_sorted_edge_index (v v0 v1 : Z) : res Z :=
  do (a, b) <- (if v0 <? v1 then Ok (v0, v1) else if v1 <? v0 then Ok (v1, v0) else Abort) ;
  Ok (u32 (u32 (u32 (u32 (u32 (2 * v) * a) - a) - u32 (a * a)) / 2 + b - a - 1)).
