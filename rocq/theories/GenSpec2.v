(** What the commands of the generator are for: specification. *)
From Verif Require Import Base Json TufModel TufSpec MetaStore RepoModel RepoSpec GenModel GenSpec.

Section Spec.
Context (E : Env) (keyid : pubkey -> string) (depth : nat) (fnm : string -> string -> bool).
(** The commands are run one after the other, as they should be, and all succeed. *)
Inductive runs : disk -> list command -> disk -> Prop :=
| ru_done k : runs k [] k
| ru_next I c k k1 l cs k' : invocation_ok E keyid I k -> arguments_ok E keyid I c -> run_command E keyid depth fnm I c k = (k1, l, Ok tt) ->
    Forall (bounded_disk E) l -> runs k1 cs k' -> runs k (c :: cs) k'.
(** The Targets that a repository publishes. *)
Definition published (rp : repo) (k : disk) (t : targets) : Prop :=
  exists raw, publish k rp "targets" (-1) = Ok raw /\ targets_doc E "targets" (parse E raw) t.
(** The target [x] is new, or replaces the one of the same name; the others stay. *)
Definition replaced (old new : list target) (x : target) : Prop :=
  forall y, In y new <-> y = x \/ (In y old /\ t_filename y <> t_filename x).
Definition same_delegations (a b : targets) : Prop :=
  tg_ks a = tg_ks b /\ tg_deleg a = tg_deleg b /\ tg_paths a = tg_paths b /\ tg_term a = tg_term b.
(** A client takes this address for "none". *)
Definition shown_url (url : string) : string := if String.eqb url "https://example.com/" then "" else url.
(** The target describes a binary image. *)
Record describes (x : target) (content name hw url : string) : Prop := {
  de_name : t_filename x = name;
  de_hashes : t_hashes x = [mk_hash_t Sha256 (sha256hex E content); mk_hash_t Sha512 (sha512hex E content)];
  de_length : t_length x = Z.of_nat (String.length content);
  de_hw : t_hwids x = [hw];
  de_ecus : t_ecus x = [];
  de_type : t_type x = "BINARY";
  de_url : t_uri x = shown_url url
}.
(** ... an image that is known by its digest only. *)
Record describes_digest (x : target) (h : hash) (len : Z) (name hw url : string) : Prop := {
  dd_name : t_filename x = name;
  dd_hashes : t_hashes x = if have_alg h then [mk_hash_t (h_type h) (h_val h)] else [];
  dd_length : t_length x = len;
  dd_hw : In hw (t_hwids x)
}.
(** [x] assigns the image [i] to the ECU, to be downloaded from [url]. *)
Record assigns (x i : target) (serial hw url : string) : Prop := {
  as_name : t_filename x = t_filename i;
  as_hashes : t_hashes x = t_hashes i;
  as_length : t_length x = t_length i;
  as_type : t_type x = t_type i;
  as_hw : t_hwids x = [];
  as_ecus : forall s h, In (s, h) (t_ecus x) <-> (s = serial /\ h = hw) \/ (s <> serial /\ In (s, h) (t_ecus i));
  as_unique : NoDup (map fst (t_ecus x));
  as_url : t_uri x = shown_url url
}.
(** The order for one ECU to install a binary image. *)
Record orders (x : target) (content name serial hw : string) : Prop := {
  or_name : t_filename x = name;
  or_hashes : t_hashes x = [mk_hash_t Sha256 (sha256hex E content); mk_hash_t Sha512 (sha512hex E content)];
  or_length : t_length x = Z.of_nat (String.length content);
  or_type : t_type x = "BINARY";
  or_ecus : t_ecus x = [(serial, hw)]
}.
End Spec.
