(** Enumeration of all targets of the Image repository: LazyTargetsList and its iterator.
    Models /repo/src/libaktualizr/uptane/iterator.cc:58-193 and iterator.h:12-75 (reached through
    SotaUptaneClient::allTargets, sotauptaneclient.cc:1394-1396). *)
From Verif Require Import Base Json TufModel MetaStore RepoModel ClientModel.

(** iterator.h:14-19 DelegatedTargetTreeNode: role, parent_idx and the roles of the children.
    Simplification: the tree is kept as the path from the current node to the top; nodes off that path are never visited
    again, because children_idx_ only grows while a node is on the path. *)
Record node := { n_role : string; n_idx : nat; n_kids : list string }.
(** iterator.h:37-48: the members of DelegationIterator; [i_up] are the ancestors of the current node, nearest first. *)
Record iter := { i_cur : option targets; i_node : node; i_up : list node; i_tidx : nat; i_cidx : nat; i_term : bool;
                 i_level : nat; i_end : bool }.

Section Iter.
Context (E : Env) (srv : server).

(** iterator.cc:58-67: the constructor, used by LazyTargetsList::begin and end (iterator.h:60-61). *)
Definition top_node : node := {| n_role := "targets"; n_idx := 0; n_kids := [] |}.
Definition it_new (is_end : bool) : M iter :=
  let* c := gets u_itargets in
  ret {| i_cur := c; i_node := top_node; i_up := []; i_tidx := 0; i_cidx := 0; i_term := false; i_level := 0; i_end := is_end |}.

(** iterator.cc:76-92: the targets of the node at the head of [path], read from the top through the index of each node in
    its parent.  [None] is undefined behaviour: dereferencing a null pointer, or an index outside a vector. *)
Fixpoint fetch_path (path : list node) : M (option targets) :=
  match path with
  | [] => ret None
  | [_] => gets u_itargets
  | nd :: rest =>
      let* p := fetch_path rest in
      match p with
      | None => ret None
      | Some pt =>
          match nth_error (tg_deleg pt) (n_idx nd) with
          | None => ret None
          | Some name => let* r := lift (role_delegation name) in
                         let* t := get_trusted_delegation E srv false (r_name r) pt in ret (Some t)
          end
      end
  end.
(** iterator.cc:69-95 renewTargetsData: the new cur_targets_ (which may be null only for the top node).
    The outer [None] is undefined behaviour. *)
Definition renew (nd : node) (up : list node) : M (option (option targets)) :=
  match up with
  | [] => let* t := gets u_itargets in ret (Some t)
  | _ =>
      let* p := fetch_path up in
      match p with
      | None => ret None
      | Some pt => let* t := get_trusted_delegation E srv false (n_role nd) pt in ret (Some (Some t))
      end
  end.

Definition set_cur (it : iter) (t : targets) : iter :=
  {| i_cur := Some t; i_node := i_node it; i_up := i_up it; i_tidx := i_tidx it; i_cidx := i_cidx it; i_term := i_term it;
     i_level := i_level it; i_end := i_end it |}.
Definition current (it : iter) : M (option (option targets)) :=
  match i_cur it with Some t => ret (Some (Some t)) | None => renew (i_node it) (i_up it) end.
(** iterator.cc:105-119 operator*.  [None] is undefined behaviour. *)
Definition deref (it : iter) : M (option (iter * target)) :=
  if i_end it then throw EStd else
  let* c := current it in
  match c with
  | None => ret None
  | Some None => throw EStd
  | Some (Some t) => match nth_error (tg_targets t) (i_tidx it) with
                     | None => throw EStd
                     | Some x => ret (Some (set_cur it t, x))
                     end
  end.

(** iterator.cc:145-158: Role(name, true) for every name. *)
Fixpoint roles_of (names : list string) : res (list string) :=
  match names with
  | [] => Ok []
  | n :: rest => do r <- role_delegation n; do l <- roles_of rest; Ok (r_name r :: l)
  end.
Definition it_end (it : iter) : iter :=
  {| i_cur := i_cur it; i_node := i_node it; i_up := i_up it; i_tidx := i_tidx it; i_cidx := i_cidx it; i_term := i_term it;
     i_level := i_level it; i_end := true |}.
(** iterator.cc:130-193 operator++ after cur_targets_ was made available; the recursion is the reiteration in the parent.
    [None] is undefined behaviour. An exception leaves the iterator in an unspecified state. *)
Fixpoint advance (up : list node) (nd : node) (cur : targets) (tidx cidx : nat) (term : bool) (level : nat) : M (option iter) :=
  let here := {| i_cur := Some cur; i_node := nd; i_up := up; i_tidx := tidx; i_cidx := cidx; i_term := term; i_level := level;
                 i_end := false |} in
  if Nat.ltb (tidx + 1) (List.length (tg_targets cur))
  then ret (Some {| i_cur := Some cur; i_node := nd; i_up := up; i_tidx := tidx + 1; i_cidx := cidx; i_term := term;
                    i_level := level; i_end := false |})
  else if term || Nat.leb kDelegationsMaxDepth level then ret (Some (it_end here))
  else
    let* kids := (if Nat.eqb (List.length (tg_deleg cur)) (List.length (n_kids nd)) then ret (n_kids nd)
                  else lift (roles_of (tg_deleg cur))) in
    match nth_error kids cidx with
    | Some k =>
        match aget k (tg_term cur) with
        | None => throw EStd
        | Some tm =>
            ret (Some {| i_cur := None; i_node := {| n_role := k; n_idx := cidx; n_kids := [] |};
                         i_up := {| n_role := n_role nd; n_idx := n_idx nd; n_kids := kids |} :: up;
                         i_tidx := 0; i_cidx := 0; i_term := tm; i_level := level + 1; i_end := false |})
        end
    | None =>
        match up with
        | [] => ret (Some (it_end here))
        | p :: up' =>
            let* c := renew p up' in
            match c with
            | Some (Some t) => advance up' p t (List.length (tg_targets t)) (n_idx nd + 1) false (level - 1)
            | _ => ret None
            end
        end
    end.
(** iterator.cc:121-128. *)
Definition next (it : iter) : M (option iter) :=
  if i_end it then ret (Some it) else
  let* c := current it in
  match c with
  | Some (Some t) => advance (i_up it) (i_node it) t (i_tidx it) (i_cidx it) (i_term it) (i_level it)
  | _ => ret None
  end.

(** for (const auto &t : client.allTargets()) { ... }, for at most [fuel] targets; operator!= with end() is [i_end]
    (iterator.cc:97-103). *)
Inductive walked := Finished (l : list target) | Undefined | Unfinished.
Fixpoint walk (fuel : nat) (it : iter) : M walked :=
  if i_end it then ret (Finished []) else
  match fuel with
  | O => ret Unfinished
  | S f =>
      let* d := deref it in
      match d with
      | None => ret Undefined
      | Some (it1, x) =>
          let* n := next it1 in
          match n with
          | None => ret Undefined
          | Some it2 => let* w := walk f it2 in
                        ret (match w with Finished l => Finished (x :: l) | o => o end)
          end
      end
  end.
Definition all_targets (fuel : nat) : M walked := let* it := it_new false in walk fuel it.
End Iter.
