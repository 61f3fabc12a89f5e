(** Connection of worker pools and termination points: upper/upper.cpp. Pools, termination points and tokens are named by
    their index. Radio devices and pools come in pairs with the same index (phy.cpp 34-35). *)
From Coq Require Import Ascii String.
From Verif Require Import Base UpperCfg.
Open Scope nat_scope.

(** limits.hpp 53 *)
Definition max_pairs : nat := 4.

(** firmware_name of the classes, in the order of the comparisons of upper.cpp 86-121 *)
Definition firmwares : list str :=
  map lit [ "basic"; "chscanner"; "loopback_mmie"; "loopback_ratio"; "loopback_snr"; "nrf"; "p2p_ft"; "p2p_pt"; "rtt";
            "txrxagc"; "txrxdelay" ]%string.

(** upper.cpp 81-122 add_tpoint: the firmware that is started *)
Fixpoint pick (name : str) (l : list str) : res str :=
  match l with
  | f :: l' => if starts_with name f then Ok f else pick name l'
  | [] => Abort
  end.
Definition add_tpoint (c : tpoint_config) : res str := pick (firmware_name c) firmwares.

(** token.cpp 35-44: only the check *)
Definition token_create (n_pools : nat) : res unit := guard (n_pools <=? max_pairs) (Ok tt).

(** A termination point: its firmware, its configuration, the token and the pairs of its mac_lower. *)
Record tpoint : Type := mkTp { firmware : str; config : tpoint_config; token : nat; lower_ctrl_vec : list nat }.
(** What a worker pool knows (worker_pool.cpp 93-114): the termination point, the token, its id there, the network ids. *)
Record pool : Type := mkPool { calls : nat; pool_token : nat; token_call_id : nat; networks : list Z }.

(** worker_pool.cpp 93-107 *)
Definition configure_tpoint_calls (tp tok call_id : nat) (nets : list Z) : res pool :=
  guard (call_id <? max_pairs) (Ok (mkPool tp tok call_id nets)).

Fixpoint configure_many (nets : list Z) (ids : list nat) : res (list pool) :=
  match ids with
  | [] => Ok []
  | i :: ids' => do p <- configure_tpoint_calls 0 0 i nets ; do r <- configure_many nets ids' ; Ok (p :: r)
  end.

(** upper.cpp 124-168 init_one_to_many *)
Definition init_one_to_many (simulation : bool) (n : nat) (cs : list tpoint_config) : res (list tpoint * list pool) :=
  guard (negb simulation) (guard (n <=? max_pairs)
    (do _ <- token_create n ;
     match cs with
     | c :: _ =>
         guard (id c =? 0)%Z
           (do f <- add_tpoint c ;
            do ps <- configure_many (network_ids c) (seq 0 n) ;
            Ok ([mkTp f c 0 (seq 0 n)], ps))
     | [] => Oob
     end)).

(** upper.cpp 183-211: second loop of init_one_to_one, from t_id on *)
Fixpoint one_to_one_from (t_id : nat) (cs : list tpoint_config) : res (list tpoint * list pool) :=
  match cs with
  | [] => Ok ([], [])
  | c :: cs' =>
      guard (id c =? Z.of_nat t_id)%Z
        (do f <- add_tpoint c ;
         do p <- configure_tpoint_calls t_id t_id 0 (network_ids c) ;
         do r <- one_to_one_from (t_id + 1) cs' ;
         Ok (mkTp f c t_id [t_id] :: fst r, p :: snd r))
  end.
(** upper.cpp 170-215 init_one_to_one; the tokens of the first loop are all created with the same number. *)
Definition init_one_to_one (n : nat) (cs : list tpoint_config) : res (list tpoint * list pool) :=
  guard (n =? List.length cs) (do _ <- token_create n ; one_to_one_from 0 cs).

(** upper.cpp 45-79 upper_t, for n pairs of radio device and worker pool *)
Definition upper (simulation : bool) (n : nat) (cs : list tpoint_config) : res (list tpoint * list pool) :=
  guard (1 <=? List.length cs)
    (if (1 <? n) && (List.length cs =? 1) then init_one_to_many simulation n cs else init_one_to_one n cs).
