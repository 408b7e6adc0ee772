(** Directories the client creates for its own use, and who may use them:
    /repo/src/libaktualizr/utilities/utils.cc:769-795 (createDirectories, createSecureDirectory),
    storage/sqlstorage_base.cc:41-60 (the storage directory), bootloader/bootloader.cc:14-25 (directory of the reboot
    sentinel), /repo/src/virtual_secondary/managedsecondary.cc:51-73 (directories of a virtual Secondary).
    Simplifications: there are no symbolic links; a path is absolute and has no "..", its components are listed with the
    last one first; the root directory is [[]] and always exists; permissions of the parents are part of [may].
    Other processes may change the file system before each system call: [others]. *)
From Verif Require Import Base.

Definition path := list string.
(** st_mode is the type ([n_type]) and the permissions ([n_perm]). *)
Record node := { n_type : Z; n_perm : Z; n_owner : Z }.
Definition S_IFIFO := 4096. Definition S_IFCHR := 8192. Definition S_IFDIR := 16384. Definition S_IFBLK := 24576. Definition S_IFREG := 32768. Definition S_IFSOCK := 49152.
Definition S_IRWXU := 448. Definition S_IRWXG := 56. Definition S_IRWXO := 7.
Definition S_IWGRP := 16. Definition S_IWOTH := 2. Definition S_IRGRP := 32. Definition S_IROTH := 4.
Definition dfs := path -> option node.
Definition upd (p : path) (n : option node) (f : dfs) : dfs := fun q => if list_eq_dec String.string_dec p q then n else f q.
(** What the kernel makes of a path: a slash at the end, which boost shows as a last component ".", means nothing. *)
Definition kpath (p : path) : path := match p with c :: r => if String.eqb c "." then r else p | [] => [] end.

Record proc := { uid : Z; umask : Z; may : path -> bool (* the kernel lets the process create or change this *) }.
(** The file system and what others do to it before each further system call of this process. *)
Definition world := (dfs * list (dfs -> dfs))%type.
Definition call (w : world) : dfs * list (dfs -> dfs) := match snd w with g :: r => (g (fst w), r) | [] => (fst w, []) end.
Definition is_dir (o : option node) : bool := match o with Some n => n_type n =? S_IFDIR | None => false end.
Definition there (o : option node) : bool := match o with Some _ => true | None => false end.
(** The system calls. mkdir(2) fails if there is something, and if the parent is not a directory. *)
Definition sys_mkdir (u : proc) (p : path) (mode : Z) (w : world) : bool * world :=
  let (f, r) := call w in let k := kpath p in
  if there (f k) || negb (is_dir (f (tl k))) || negb (may u k) then (false, (f, r))
  else (true, (upd k (Some {| n_type := S_IFDIR; n_perm := Z.land mode (Z.lnot (umask u)); n_owner := uid u |}) f, r)).
Definition sys_stat (p : path) (w : world) : option node * world := let (f, r) := call w in (f (kpath p), (f, r)).
Definition sys_chmod (u : proc) (p : path) (mode : Z) (w : world) : bool * world :=
  let (f, r) := call w in let k := kpath p in
  match f k with
  | Some n => if may u k then (true, (upd k (Some {| n_type := n_type n; n_perm := mode; n_owner := n_owner n |}) f, r)) else (false, (f, r))
  | None => (false, (f, r))
  end.

(** utils.cc:769-778. Parents are looked at from the innermost; the parent of the root is empty. *)
Fixpoint create_directories (u : proc) (p : path) (mode : Z) (w : world) : res unit * world :=
  match p with
  | [] => (Throw EStd, w)
  | _ :: parent =>
      let (missing, w1) := match parent with [] => (false, w) | _ => let (o, w1) := sys_stat parent w in (negb (there o), w1) end in
      let (r, w2) := if missing then create_directories u parent mode w1 else (Ok tt, w1) in
      match r with
      | Throw e => (Throw e, w2)
      | Ok _ => let (ok, w3) := sys_mkdir u p mode w2 in (if ok then Ok tt else Throw EStd, w3)
      end
  end.
(** utils.cc:780-795 *)
Definition create_secure (u : proc) (p : path) (w : world) : bool * world :=
  let (ok, w1) := sys_mkdir u p S_IRWXU w in
  if ok then (true, w1)
  else let (o, w2) := sys_stat p w1 in
       (match o with
        | Some n => (Z.land (n_type n) S_IFDIR =? S_IFDIR) && (Z.land (n_perm n) (S_IRWXU + S_IRWXG + S_IRWXO) =? S_IRWXU) && (n_owner n =? uid u)
        | None => false
        end, w2).
(** sqlstorage_base.cc:41-60: the directory of the database. *)
Definition open_storage_dir (u : proc) (p : path) (w : world) : res unit * world :=
  let (o, w1) := sys_stat p w in
  if negb (is_dir o) then create_directories u p S_IRWXU w1
  else let (s, w2) := sys_stat p w1 in
       match s with
       | None => (Throw EStd, w2)
       | Some n =>
           if negb (Z.land (n_perm n) (S_IWGRP + S_IWOTH) =? 0) then (Throw EStd, w2)
           else if negb (Z.land (n_perm n) (S_IRGRP + S_IROTH) =? 0)
                then let (ok, w3) := sys_chmod u p S_IRWXU w2 in (if ok then Ok tt else Throw EStd, w3)
                else (Ok tt, w2)
       end.
(** managedsecondary.cc:54-62 and 64-72, the same code for both directories. *)
Definition open_secondary_dir (u : proc) (p : path) (w : world) : res unit * world :=
  let (o, w1) := sys_stat p w in
  let (r, w2) := if negb (is_dir o) then create_directories u p S_IRWXU w1 else (Ok tt, w1) in
  match r with
  | Throw e => (Throw e, w2)
  | Ok _ => let (s, w3) := sys_stat p w2 in
      (match s with None => Throw EStd | Some n => if negb (Z.land (n_perm n) (S_IWGRP + S_IWOTH) =? 0) then Throw EStd else Ok tt end, w3)
  end.
