(** What the enumeration of all targets of the Image repository should yield. *)
From Verif Require Import Base Json TufModel TufSpec MetaStore RepoModel RepoSpec ClientModel ClientSpec IterModel.

(** [child] is the content of a document that Snapshot [sn] names for role [name], signed as the delegator [parent] requires.
    (Unlike [delegated] it does not matter which file names [name] may vouch for, nor whether the document expired.) *)
Definition delegated_any (E : Env) (sn : snapshot) (parent : targets) (name : string) (child : targets) : Prop :=
  exists raw, (forall h, In h (role_hashes sn name) -> digest_matches E raw h) /\
     acceptable E (tg_ks parent) {| r_kind := RDelegation; r_name := name |} (parse E raw) /\
     targets_doc E name (parse E raw) child /\ (tg_version child = role_version sn name \/ role_version sn name = -1).
Inductive reached (E : Env) (sn : snapshot) (top : targets) : nat -> targets -> Prop :=
| re_top : reached E sn top 0 top
| re_next n p name c : reached E sn top n p -> delegated_any E sn p name c -> reached E sn top (S n) c.

(** What a user of the iterator can do: look at the current target, go on; [visits E srv s it l s' it'] collects in [l] the
    targets looked at. *)
Inductive visits (E : Env) (srv : server) (s : ust) (it : iter) : list target -> ust -> iter -> Prop :=
| vi_start : visits E srv s it [] s it
| vi_look l s1 it1 s2 it2 x : visits E srv s it l s1 it1 -> deref E srv it1 s1 = (s2, Ok (Some (it2, x))) ->
    visits E srv s it (l ++ [x]) s2 it2
| vi_go l s1 it1 s2 it2 : visits E srv s it l s1 it1 -> next E srv it1 s1 = (s2, Ok (Some it2)) -> visits E srv s it l s2 it2.

(** A tree of delegations: the Targets of a role, and the roles it delegates to. *)
Inductive dtree := Node (t : targets) (kids : list (string * dtree)).
Definition d_targets (d : dtree) : targets := match d with Node t _ => t end.
Definition d_kids (d : dtree) : list (string * dtree) := match d with Node _ ks => ks end.
(** All targets, each role before the roles it delegates to, in the order of the delegations. *)
Fixpoint preorder (d : dtree) : list target :=
  match d with Node t kids => tg_targets t ++ flat_map (fun k => preorder (snd k)) kids end.
Inductive depth_at_most : nat -> dtree -> Prop :=
| da_node n t kids : (forall name d, In (name, d) kids -> exists m, n = S m /\ depth_at_most m d) -> depth_at_most n (Node t kids).
(** [docs name] is the document of role [name]. Every role of the tree is delegated to by an authentic, current document. *)
Inductive authentic_tree (E : Env) (sn : snapshot) (docs : string -> string) : dtree -> Prop :=
| at_node t kids : tg_deleg t = map fst kids ->
    (forall name d, In (name, d) kids ->
       is_reserved (to_lower name) = false /\ (exists b, aget name (tg_term t) = Some b) /\ nul_free (docs name) /\
       (forall h, In h (role_hashes sn name) -> digest_matches E (docs name) h) /\
       acceptable E (tg_ks t) {| r_kind := RDelegation; r_name := name |} (parse E (docs name)) /\
       targets_doc E name (parse E (docs name)) (d_targets d) /\
       extract_version_untrusted E (docs name) = Ok (role_version sn name) /\ tg_version (d_targets d) = role_version sn name /\
       authentic_tree E sn docs d) ->
    authentic_tree E sn docs (Node t kids).
(** Every role lists a target itself. *)
Inductive no_empty_role : dtree -> Prop :=
| ne_node t kids : tg_targets t <> [] -> (forall name d, In (name, d) kids -> no_empty_role d) -> no_empty_role (Node t kids).
Inductive no_terminating : dtree -> Prop :=
| nt_node t kids : (forall name d, In (name, d) kids -> aget name (tg_term t) <> Some true /\ no_terminating d) ->
    no_terminating (Node t kids).
(** The names of the roles delegated to. *)
Fixpoint d_names (d : dtree) : list string :=
  match d with Node _ kids => flat_map (fun k => fst k :: d_names (snd k)) kids end.
(** The server offers the documents of all roles, and what is stored of them are these documents. *)
Definition serves_docs (srv : server) (docs : string -> string) (d : dtree) : Prop :=
  forall name, In name (d_names d) -> srv Image (append "delegations/" name) (-1) = Ok (docs name).
Definition stored_docs (docs : string -> string) (d : dtree) (m : db) : Prop :=
  forall name, In name (d_names d) -> aget name (d_deleg m) = None \/ aget name (d_deleg m) = Some (docs name).
