(** JsonCpp's Json::Value, as far as the modelled code uses it.
    JsonCpp itself is an external library (not part of /repo); the semantics of the
    accessors below follow its documentation and are part of the trusted base. *)
From Verif Require Import Base.

(** An object is the list of its members in iteration order (JsonCpp keeps them in a
    std::map, i.e. sorted and without duplicates).  A real number carries its exact value
    as a fraction and its printed text. *)
Inductive json :=
| JNull
| JBool (b : bool)
| JInt (z : Z)
| JReal (num : Z) (den : positive) (text : string)
| JStr (s : string)
| JArr (l : list json)
| JObj (l : list (string * json)).

(** operator[](const char* ) : null for a missing member or on null, LogicError on other types. *)
Definition jget (k : string) (j : json) : res json :=
  match j with
  | JNull => Ok JNull
  | JObj l => Ok (match aget k l with Some v => v | None => JNull end)
  | _ => Throw EStd
  end.

(** isMember *)
Definition jmember (k : string) (j : json) : res bool :=
  match j with
  | JNull => Ok false
  | JObj l => Ok (match aget k l with Some _ => true | None => false end)
  | _ => Throw EStd
  end.

Definition jis_object (j : json) : bool := match j with JObj _ => true | _ => false end.
Definition jis_string (j : json) : bool := match j with JStr _ => true | _ => false end.
Definition jis_array (j : json) : bool := match j with JArr _ => true | _ => false end.

Definition min_int : Z := -2147483648.
Definition max_int : Z := 2147483647.
Definition min_int64 : Z := -9223372036854775808.
Definition max_int64 : Z := 9223372036854775807.
Definition max_uint64 : Z := 18446744073709551615.

Definition in_range (lo hi z : Z) : bool := (lo <=? z) && (z <=? hi).

(** isIntegral *)
Definition jis_integral (j : json) : bool :=
  match j with
  | JInt _ => true
  | JReal n d _ => (n mod (Zpos d) =? 0) && in_range min_int64 max_uint64 (n / Zpos d)
  | _ => false
  end.

Definition jas_range (lo hi : Z) (j : json) : res Z :=
  match j with
  | JInt z => if in_range lo hi z then Ok z else Throw EStd
  | JReal n d _ => let q := Z.quot n (Zpos d) in if in_range lo hi q then Ok q else Throw EStd
  | JNull => Ok 0
  | JBool b => Ok (if b then 1 else 0)
  | _ => Throw EStd
  end.
(** asInt, asInt64, asUInt64 *)
Definition jas_int : json -> res Z := jas_range min_int max_int.
Definition jas_int64 : json -> res Z := jas_range min_int64 max_int64.
Definition jas_uint64 : json -> res Z := jas_range 0 max_uint64.

(** asString *)
Definition jas_string (j : json) : res string :=
  match j with
  | JNull => Ok ""
  | JStr s => Ok s
  | JBool b => Ok (if b then "true" else "false")
  | JInt z => Ok (to_dec z)
  | JReal _ _ t => Ok t
  | _ => Throw EStd
  end.

(** asBool *)
Definition jas_bool (j : json) : res bool :=
  match j with
  | JBool b => Ok b
  | JNull => Ok false
  | JInt z => Ok (negb (z =? 0))
  | JReal n _ _ => Ok (negb (n =? 0))
  | _ => Throw EStd
  end.

(** begin()..end() : the (key, value) pairs visited by an iterator; key() of an array element is its index. *)
Fixpoint index_from (i : Z) (l : list json) : list (string * json) :=
  match l with [] => [] | v :: l' => (to_dec i, v) :: index_from (i + 1) l' end.
Definition jiter (j : json) : list (string * json) :=
  match j with JArr l => index_from 0 l | JObj l => l | _ => [] end.

(** size() *)
Definition jsize (j : json) : nat := List.length (jiter j).

(** operator== / != against a string literal *)
Definition jeq_str (j : json) (s : string) : bool :=
  match j with JStr s' => String.eqb s' s | _ => false end.
