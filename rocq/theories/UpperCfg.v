(** Reading of configuration files: common/json/json_parse.cpp and upper/upper_config.cpp. The text of the file is
    already parsed; the object of the file is a list of keys and values in the order of the file (ordered_json, keys occur
    once). Files whose value is no object are not modelled. *)
From Coq Require Import QArith Qround Ascii String.
From Verif Require Import Base.
Open Scope nat_scope.

Definition str : Type := list ascii.
Definition lit (s : string) : str := list_ascii_of_string s.

(** nlohmann::ordered_json: integers are int64_t or uint64_t. *)
Inductive json : Type :=
| JNull
| JBool (b : bool)
| JInt (z : Z)
| JFloat (q : Q)
| JString (s : str)
| JArr (l : list json)
| JObj (l : list (str * json)).

Definition str_eqb (a b : str) : bool := if list_eq_dec ascii_dec a b then true else false.

Fixpoint lookup (k : str) (l : list (str * json)) : json :=
  match l with
  | [] => JNull
  | (k', v) :: l' => if str_eqb k' k then v else lookup k l'
  end.

(** operator[] of a value that can be changed: a missing key is added with null; other types throw type_error. *)
Definition field (j : json) (k : str) : res json :=
  match j with
  | JObj l => Ok (lookup k l)
  | JNull => Ok JNull
  | _ => Throw
  end.

(** Conversion of 64 bits to int32_t. *)
Definition to_int32 (z : Z) : Z := ((z + 2 ^ 31) mod 2 ^ 32 - 2 ^ 31)%Z.
Definition to_uint32 (z : Z) : Z := (z mod 2 ^ 32)%Z.

(** json_parse.cpp 46-56 read_string *)
Definition read_string (j : json) (k : str) : res str :=
  do v <- field j k ;
  match v with
  | JString s => guard (negb (str_eqb s [])) (Ok s)
  | _ => Abort
  end.

(** json_parse.cpp 58-66 and 68-77 read_int *)
Definition read_int (j : json) (k : str) : res Z :=
  do v <- field j k ;
  match v with
  | JInt z => Ok (to_int32 z)
  | _ => Abort
  end.
Definition read_int_range (j : json) (k : str) (val_min val_max : Z) : res Z :=
  do r <- read_int j k ;
  guard ((val_min <=? r) && (r <=? val_max))%Z (Ok r).

(** Implicit conversion of a value to int32_t (nlohmann from_json for arithmetic types): numbers and booleans are cast,
    where a cast of a float out of range is undefined; others throw type_error. *)
Definition convert (v : json) : res Z :=
  match v with
  | JInt z => Ok (to_int32 z)
  | JBool b => Ok (if b then 1 else 0)%Z
  | JFloat q =>
      let t := (if Qle_bool 0 q then Qfloor q else Qceiling q) in
      if ((- 2 ^ 31 <=? t) && (t <? 2 ^ 31))%Z then Ok t else Oob
  | _ => Throw
  end.

Fixpoint convert_all (l : list json) : res (list Z) :=
  match l with
  | [] => Ok []
  | v :: l' => do z <- convert v ; do r <- convert_all l' ; Ok (z :: r)
  end.

(** json_parse.cpp 79-106 read_int_array *)
Definition read_int_array (j : json) (k : str) (len_min len_max len_mult : nat) : res (list Z) :=
  do v <- field j k ;
  match v with
  | JArr l =>
      let n := List.length l in
      guard ((0 <? n) && (len_min <=? n) && (n <=? len_max) && (n mod len_mult =? 0))
        (guard (match l with JInt _ :: _ => true | _ => false end) (convert_all l))
  | _ => Abort
  end.

(** std::stoi in base ten: white space, a sign, digits; the rest is ignored. *)
Definition code (c : ascii) : nat := nat_of_ascii c.
Definition is_space (c : ascii) : bool := (code c =? 32) || ((9 <=? code c) && (code c <=? 13)).
Definition is_digit (c : ascii) : bool := (48 <=? code c) && (code c <=? 57).
Fixpoint skip_space (s : str) : str :=
  match s with
  | c :: s' => if is_space c then skip_space s' else s
  | [] => []
  end.
Fixpoint digits (s : str) (acc : Z) : Z :=
  match s with
  | c :: s' => if is_digit c then digits s' (10 * acc + (Z.of_nat (code c) - 48))%Z else acc
  | [] => acc
  end.
Definition magnitude (s : str) : res Z :=
  match s with
  | c :: _ => if is_digit c then Ok (digits s 0) else Throw
  | [] => Throw
  end.
Definition stoi (s : str) : res Z :=
  do z <- match skip_space s with
          | c :: s' =>
              if code c =? 45 then do m <- magnitude s' ; Ok (- m)%Z
              else if code c =? 43 then magnitude s'
              else magnitude (c :: s')
          | [] => Throw
          end ;
  if ((- 2 ^ 31 <=? z) && (z <? 2 ^ 31))%Z then Ok z else Throw.

(** json_parse.cpp 108-112 extract_id *)
Definition extract_id (key prefix : str) : res Z :=
  guard (List.length prefix <? List.length key)
    (do z <- stoi (skipn (List.length prefix) key) ; Ok (to_uint32 z)).

(** std::string::starts_with *)
Fixpoint starts_with (s p : str) : bool :=
  match p, s with
  | [], _ => true
  | a :: p', b :: s' => if ascii_dec a b then starts_with s' p' else false
  | _ :: _, [] => false
  end.

(** tpoint_config.hpp 30-55; threads_core_prio_config_t as pair of priority offset and core *)
Record tpoint_config : Type := mkCfg {
  id : Z;
  firmware_name : str;
  firmware_id : Z;
  network_ids : list Z;
  server_threads : Z * Z;
  client_threads : Z * Z
}.

(** tpoint_config.cpp 25 *)
Definition json_log_key : str := lit "TPOINT".

(** upper_config.cpp 31-66: body of the loop, with the number of configurations read so far. *)
Definition read_tpoint (n : nat) (key : str) (j : json) : res tpoint_config :=
  guard (starts_with key json_log_key)
  (do i <- extract_id key json_log_key ;
   do name <- read_string j (lit "firmware_name") ;
   do fid <- read_int_range j (lit "firmware_id") 0 999 ;
   do nets <- read_int_array j (lit "network_ids") 1 10 1 ;
   do server <- read_int_array j (lit "application_server_thread_config") 2 2 2 ;
   do client <- read_int_array j (lit "application_client_thread_config") 2 2 2 ;
   guard (i =? Z.of_nat n)%Z
     (Ok (mkCfg i name (to_uint32 fid) (map to_uint32 nets)
            (nth 0 server 0%Z, nth 1 server 0%Z) (nth 0 client 0%Z, nth 1 client 0%Z)))).

(** upper_config.cpp 28-67 upper_config_t *)
Fixpoint read_from (n : nat) (l : list (str * json)) : res (list tpoint_config) :=
  match l with
  | [] => Ok []
  | (key, j) :: l' =>
      do c <- read_tpoint n key j ;
      do r <- read_from (n + 1) l' ;
      Ok (c :: r)
  end.
Definition upper_config (l : list (str * json)) : res (list tpoint_config) := read_from 0 l.
