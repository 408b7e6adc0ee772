(** Reading OSTree objects from a server: /repo/src/sota_tools/ostree_repo.cc (whole file: GetObject, CheckForObject) and
    ostree_http_repo.cc:36-72 (FetchObject, curl_handle_write), as garage-deploy (garage_deploy.cc:112) and garage-check with a tree
    (check.cc:67, where the directory may be one of an earlier run) use them.
    Simplifications: a hash is its 64 digits (OSTreeHash::string; the reading is in DeployModel); the directory of a path can be created;
    one thread. *)
From Verif Require Import Base.

(** ostree_repo.cc:16-19: the map of extensions, in the order of the enumeration; OSTREE_OBJECT_TYPE_UNKNOWN is not in it. *)
Inductive otype := TFile | TTree | TMeta | TCommit.
Definition ext (t : otype) : string :=
  match t with TFile => ".filez" | TTree => ".dirtree" | TMeta => ".dirmeta" | TCommit => ".commit" end.
Definition all_types : list otype := [TFile; TTree; TMeta; TCommit].

(** One call of curl for a path: the file cannot be opened (nothing is asked); bytes came, but the transfer failed (also: an answer with
    a status from 400 on, or a short write, curl_handle_write); or everything came. *)
Inductive answer := NoOpen | Broke (written : string) | Done (body : string).

(** The local directory, the table of objects already there (ObjectTable: hash to path) and, for the specification, the transfers so
    far, latest first. *)
Record ost := { o_fs : string -> option string; o_tab : list (string * string); o_log : list (string * answer) }.
Definition put_fs (p : string) (v : option string) (f : string -> option string) : string -> option string :=
  fun q => if String.eqb q p then v else f q.
(** Writing over a file that was opened without O_TRUNC (ostree_http_repo.cc:41): what is longer stays. *)
Fixpoint overlay (new old : string) : string :=
  match new, old with
  | EmptyString, _ => old
  | String c n', EmptyString => String c n'
  | String c n', String _ o' => String c (overlay n' o')
  end.
Definition over (new : string) (old : option string) : string := match old with Some o => overlay new o | None => new end.

Section Fetch.
Context (srv : nat -> string -> answer).   (* the server's answer to the n-th transfer *)

(** ostree_http_repo.cc:36-68 FetchObject *)
Definition fetch (p : string) (s : ost) : ost * bool :=
  let a := srv (List.length (o_log s)) p in
  let log := (p, a) :: o_log s in
  match a with
  | NoOpen => ({| o_fs := o_fs s; o_tab := o_tab s; o_log := log |}, false)
  | Broke _ => ({| o_fs := put_fs p None (o_fs s); o_tab := o_tab s; o_log := log |}, false)
  | Done b => ({| o_fs := put_fs p (Some (over b (o_fs s p))) (o_fs s); o_tab := o_tab s; o_log := log |}, true)
  end.

(** ostree_repo.cc:20: a slash after two digits *)
Definition obj_path (h : string) : string :=
  match h with String a (String b r) => String a (String b (String "/" r)) | _ => h end.
Definition local (p : string) : string := append "objects/" p.
(** ostree_repo.cc:43-51 CheckForObject *)
Definition check_for (h p : string) (s : ost) : ost * bool :=
  let '(s1, ok) := fetch (local p) s in
  if ok then ({| o_fs := o_fs s1; o_tab := (h, p) :: o_tab s1; o_log := o_log s1 |}, true) else (s1, false).
(** ostree_repo.cc:27-37: one attempt, over one extension or all *)
Fixpoint try_types (h : string) (l : list otype) (s : ost) : ost * option string :=
  match l with
  | [] => (s, None)
  | t :: l' => let p := append (obj_path h) (ext t) in
               let '(s1, ok) := check_for h p s in
               if ok then (s1, Some p) else try_types h l' s1
  end.
Definition types_of (t : option otype) : list otype := match t with Some x => [x] | None => all_types end.
(** ostree_repo.cc:23-38: [n] attempts *)
Fixpoint attempts (n : nat) (h : string) (l : list otype) (s : ost) : ost * option string :=
  match n with
  | O => (s, None)
  | S n' => match try_types h l s with
            | (s1, Some p) => (s1, Some p)
            | (s1, None) => attempts n' h l s1
            end
  end.
(** ostree_repo.cc:10-41 GetObject; None: OSTreeObjectMissing *)
Definition get_object (h : string) (t : option otype) (s : ost) : ost * option string :=
  match aget h (o_tab s) with
  | Some p => (s, Some p)
  | None => attempts 3 h (types_of t) s
  end.
(** A history of calls *)
Fixpoint gets (l : list (string * option otype)) (s : ost) : ost * list (option string) :=
  match l with
  | [] => (s, [])
  | (h, t) :: l' => let '(s1, r) := get_object h t s in let '(s2, rs) := gets l' s1 in (s2, r :: rs)
  end.
End Fetch.
Definition fresh (fs : string -> option string) : ost := {| o_fs := fs; o_tab := []; o_log := [] |}.
