(** Common vocabulary of all model files: exceptions, association lists
    (models of std::map / std::set) and C++ string helpers. *)
From Coq Require Export List ZArith String Ascii Bool Lia.
Export ListNotations.
Open Scope string_scope.
Open Scope list_scope.
Open Scope Z_scope.

(** The exceptions the modelled code can raise.
    /repo/src/libaktualizr/uptane/exceptions.h:9-190: every [U...] constructor is a
    subclass of Uptane::Exception; [EStd] stands for any other std::exception
    (JsonCpp logic errors, std::out_of_range, std::runtime_error, ...).
    Simplification: message texts are dropped. *)
Inductive exn :=
| USecurity            (* SecurityException *)
| UFetchFailure        (* MetadataFetchFailure *)
| UIllegalThreshold    (* IllegalThreshold *)
| UUnmetThreshold      (* UnmetThreshold *)
| UNonUniqueSignatures (* NonUniqueSignatures *)
| UBadKeyId            (* BadKeyId *)
| UExpired             (* ExpiredMetadata *)
| UInvalidMetadata     (* InvalidMetadata *)
| URootRotation        (* RootRotationError *)
| UVersionMismatch     (* VersionMismatch *)
| UDelegationMissing   (* DelegationMissing *)
| UDelegationHashMismatch (* DelegationHashMismatch *)
| UTargetMismatch      (* TargetMismatch *)
| UTargetHashMismatch  (* TargetHashMismatch *)
| UOversizedTarget     (* OversizedTarget *)
| UBadEcuId            (* BadEcuId *)
| UBadHardwareId       (* BadHardwareId *)
| UTargetContentMismatch (* TargetContentMismatch *)
| UInvalidTarget       (* InvalidTarget *)
| UBase                (* Uptane::Exception itself *)
| EStd.                (* any other std::exception *)

Definition is_uptane (e : exn) : bool := match e with EStd => false | _ => true end.

(** Result of a C++ expression: a value or a thrown exception. *)
Inductive res (A : Type) := Ok (a : A) | Throw (e : exn).
Arguments Ok {A} a.
Arguments Throw {A} e.

Definition bind {A B} (m : res A) (k : A -> res B) : res B :=
  match m with Ok a => k a | Throw e => Throw e end.
Notation "'do' x <- m ; k" := (bind m (fun x => k)) (at level 200, x name, m at level 100, k at level 200, right associativity).
Notation "'do_' m ; k" := (bind m (fun _ => k)) (at level 200, m at level 100, k at level 200, right associativity).

Definition is_ok {A} (m : res A) : bool := match m with Ok _ => true | Throw _ => false end.

(** std::map<std::string, A> as an association list; the first entry for a key counts.
    [aset] replaces ( m[k] = v ), [aget] is find. *)
Fixpoint aget {A} (k : string) (m : list (string * A)) : option A :=
  match m with
  | [] => None
  | (k', v) :: m' => if String.eqb k k' then Some v else aget k m'
  end.
Definition aset {A} (k : string) (v : A) (m : list (string * A)) : list (string * A) := (k, v) :: m.

Definition mem_str (k : string) (l : list string) : bool := existsb (String.eqb k) l.
Definition mem_pair (p : string * string) (l : list (string * string)) : bool :=
  existsb (fun q => String.eqb (fst p) (fst q) && String.eqb (snd p) (snd q)) l.

(** ::tolower / ::toupper in the C locale (used by boost::to_lower_copy,
    boost::to_upper_copy and std::transform(..., ::tolower)). *)
Definition lower_ascii (c : ascii) : ascii :=
  let n := nat_of_ascii c in if (Nat.leb 65 n && Nat.leb n 90)%bool then ascii_of_nat (n + 32) else c.
Definition upper_ascii (c : ascii) : ascii :=
  let n := nat_of_ascii c in if (Nat.leb 97 n && Nat.leb n 122)%bool then ascii_of_nat (n - 32) else c.
Fixpoint map_string (f : ascii -> ascii) (s : string) : string :=
  match s with EmptyString => EmptyString | String c s' => String (f c) (map_string f s') end.
Definition to_lower : string -> string := map_string lower_ascii.
Definition to_upper : string -> string := map_string upper_ascii.

(** decimal rendering (std::to_string). *)
Definition digit_ascii (d : Z) : ascii := ascii_of_nat (48 + Z.to_nat d).
Fixpoint dec_digits (fuel : nat) (n : Z) (acc : string) : string :=
  match fuel with
  | O => acc
  | S f => let acc' := String (digit_ascii (n mod 10)) acc in
           if n / 10 =? 0 then acc' else dec_digits f (n / 10) acc'
  end.
Definition dec_nonneg (n : Z) : string := dec_digits (S (Z.to_nat (Z.log2 n))) n "".
Definition to_dec (n : Z) : string :=
  if n <? 0 then String "-" (dec_nonneg (- n)) else dec_nonneg n.
