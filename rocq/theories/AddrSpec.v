(** Words for the property about addresses (C196). *)
From Coq Require Import Ascii.
From Verif Require Import Base TufModel.

Fixpoint occurs (c : ascii) (s : string) : Prop :=
  match s with EmptyString => False | String a s' => a = c \/ occurs c s' end.
(** A text that is one segment of a path. *)
Definition plain (s : string) : Prop := ~ occurs "/" s /\ ~ occurs "?" s /\ ~ occurs "#" s.

(** The place of a repository: scheme, host and directories. *)
Record site := { t_scheme : string; t_host : string; t_dirs : list string }.
Definition proper (t : site) : Prop :=
  plain (t_scheme t) /\ plain (t_host t) /\ Forall (fun d => plain d /\ d <> "." /\ d <> "..") (t_dirs t).
Fixpoint dirs_text (l : list string) : string :=
  match l with [] => "" | d :: l' => append "/" (append d (dirs_text l')) end.
(** How a place is written in the configuration. *)
Definition site_text (t : site) : string := append (t_scheme t) (append "://" (append (t_host t) (dirs_text (t_dirs t)))).
Definition below (t : site) (d : string) : site := {| t_scheme := t_scheme t; t_host := t_host t; t_dirs := t_dirs t ++ [d] |}.

(** Version numbers are the numbers of an int; -1 stands for the latest. *)
Definition version_ok (v : Z) : Prop := -2147483648 <= v <= 2147483647.

(** The four roles of a repository. *)
Definition top (r : role) : Prop := r = role_root \/ r = role_snapshot \/ r = role_targets \/ r = role_timestamp.
(** What the client can ask for: one of the four roles, in some version or the latest, or the latest document of a delegation;
    [named] restricts the names of delegations. *)
Inductive askable (named : string -> Prop) : role -> Z -> Prop :=
| ask_top r v : top r -> version_ok v -> askable named r v
| ask_delegation n r : role_delegation n = Ok r -> named n -> askable named r (-1).
Definition any_name (n : string) : Prop := True.
