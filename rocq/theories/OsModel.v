(** The OSTree package manager's repository of commits, and the list of installed packages:
    /repo/src/libaktualizr/package_manager/ostreemanager.cc:70-128 (pull), 261-269 (fetchTarget), 271-308 (verifyTarget), 310-330 (getInstalledPackages),
    415-443 (LoadSysroot, LoadRepo), utilities/utils.cc:274-289 (readFile).
    Simplifications: libostree is an oracle: listing the commits that start with a text, and pulling one commit; a pull that fails leaves the
    repository as it was, and one that works adds the commit asked for and nothing else; progress callbacks are left out; the target is an OSTree target, so it is
    its SHA-256 in lower case, empty if the target has none (tuf.cc:155-170). *)
From Verif Require Import Base Json CodecModel.

(** What a call meets: sysroot loads, repository loads, listing works, the remote can be added, pulling the given commit works. *)
Record osenv := { o_sysroot : bool; o_repo : bool; o_list : bool; o_remote : bool; o_pull : string -> bool }.
(** The commits in the repository. *)
Definition commits := list string.

Inductive pulled := PullDone | PullAlready | PullFailed | PullThrows.
(** ostree_repo_list_commit_objects_starting_with (91): None: it fails. *)
Definition list_starting (e : osenv) (h : string) (r : commits) : option (list string) :=
  if o_list e then Some (filter (String.prefix h) r) else None.
Definition some_match (o : option (list string)) : bool := match o with Some (_ :: _) => true | _ => false end.

(** ostreemanager.cc:70-128 pull *)
Definition os_pull (e : osenv) (h : string) (r : commits) : commits * pulled :=
  if negb (o_sysroot e) then (r, PullThrows)
  else if negb (o_repo e) then (r, PullFailed)
  else if some_match (list_starting e h r) then (r, PullAlready)
  else if negb (o_remote e) then (r, PullFailed)
  else if o_pull e h then (r ++ [h], PullDone)
  else (r, PullFailed).
(** ostreemanager.cc:261-269 fetchTarget; None: an exception. *)
Definition os_fetch (e : osenv) (h : string) (r : commits) : commits * option bool :=
  match os_pull e h r with
  | (r', PullDone) => (r', Some true)
  | (r', PullAlready) => (r', Some true)
  | (r', PullFailed) => (r', Some false)
  | (r', PullThrows) => (r', None)
  end.
(** ostreemanager.cc:280-308 verifyTargetInternal: Some true is kGood, Some false kNotFound, None an exception. *)
Definition os_verify (e : osenv) (h : string) (r : commits) : option bool :=
  if negb (o_sysroot e) then None
  else if negb (o_repo e) then Some false
  else Some (some_match (list_starting e h r)).

(** ** Packages *)
(** std::string::find(" ") and the two substr (320-326). *)
Fixpoint cut_space (s : string) : option (string * string) :=
  match s with
  | EmptyString => None
  | String c s' => if Ascii.eqb c " " then Some (EmptyString, s')
                   else match cut_space s' with Some (n, v) => Some (String c n, v) | None => None end
  end.
(** ostreemanager.cc:316-328 the loop *)
Fixpoint package_lines (l : list string) : res (list (string * string)) :=
  match l with
  | [] => Ok []
  | EmptyString :: l' => package_lines l'
  | x :: l' => match cut_space x with
               | None => Throw EStd
               | Some p => do ps <- package_lines l'; Ok (p :: ps)
               end
  end.
(** ostreemanager.cc:310-330 getInstalledPackages; the text of the packages file. *)
Definition installed_packages (text : string) : res (list (string * string)) := package_lines (split_all (ascii_of_nat 10) text).
