(** The keys of the virtual Secondaries over starts that may be killed, and the file that lists the Secondaries.
    /repo/src/virtual_secondary/managedsecondary.cc:31-75, 205-221 (constructor, Initialize, storeKeys, loadKeys), managedsecondary.h:28-37,
    52-57 (configuration, getSerial); /repo/src/virtual_secondary/virtualsecondary.cc:14-71 (configuration from JSON, dump);
    /repo/src/aktualizr_primary/secondary_config.cc:14-79, 93-119 (parse); secondary.cc:47-70 (initSecondaries);
    /repo/src/libaktualizr/utilities/utils.cc:326-340 (writeFile).
    Simplifications: a path is the directory, a slash and the name, and a name is not empty (an empty one names the directory; Initialize then
    throws when it renames onto it); files are as the last completed operation left them (a kill of the process, not a loss of power);
    creating the directories and their permissions are one answer per Secondary and start; the firmware, its name and the metadata are in VirtModel;
    the text of the JSON file is its value (JsonCpp's writer and reader are trusted), or broken when writing it was interrupted. *)
From Verif Require Import Base Json IpsModel.

(** managedsecondary.h:28-37, the parts used here. *)
Record vconf := { vc_partial : bool; vc_serial : string; vc_hw : string; vc_dir : string; vc_priv : string; vc_pub : string;
                  vc_fw : string; vc_name : string; vc_meta : string }.

(** ** Keys *)

(** boost::filesystem operator/ *)
Definition path (d n : string) : string := append d (String "/" n).
Definition priv_path (c : vconf) : string := path (vc_dir c) (vc_priv c).
Definition pub_path (c : vconf) : string := path (vc_dir c) (vc_pub c).
(** utils.cc:329-330 the temporary file *)
Definition tmp (p : string) : string := append p ".new".

Definition files := list (string * option string).
Definition fget (p : string) (f : files) : option string := match aget p f with Some v => v | None => None end.

(** What a start meets: what key generation gives for the n-th Secondary (None: it fails), whether its directories can be used (73), after how
    many file operations the process is killed (None: never), what of a text being written is in the file at that time. *)
Record run := { rn_gen : nat -> option (string * string); rn_dirs : nat -> bool; rn_kill : option nat; rn_cut : string -> string }.

Inductive how := Goes (left : option nat) | Killed | Thrown.

(** utils.cc:326-340 writeFile: one operation fills the temporary file, the other renames it. *)
Definition write_file (cut : string -> string) (left : option nat) (p v : string) (f : files) : how * files :=
  match left with
  | None => (Goes None, aset p (Some v) (aset (tmp p) None f))
  | Some O => (Killed, f)
  | Some (S O) => (Killed, aset (tmp p) (Some (cut v)) f)
  | Some (S (S n)) => (Goes (Some n), aset p (Some v) (aset (tmp p) None f))
  end.

(** A Secondary that has been made: its place in the list, private and public key, serial. *)
Record made := { md_n : nat; md_priv : string; md_pub : string; md_serial : string }.

Section Keys.
(** [rsa]: crypto.cc:64-70, the key is an RSA key of the configured length (RSA2048, managedsecondary.h:37); [keyid]: PublicKey::KeyId. *)
Context (rsa : string -> bool) (keyid : string -> string).

(** managedsecondary.cc:210-221 loadKeys *)
Definition load_keys (c : vconf) (f : files) : option (string * string) :=
  match fget (pub_path c) f, fget (priv_path c) f with
  | Some p, Some k => Some (k, p)
  | _, _ => None
  end.
(** managedsecondary.cc:205-208 storeKeys *)
Definition store_keys (r : run) (left : option nat) (c : vconf) (k p : string) (f : files) : how * files :=
  match write_file (rn_cut r) left (priv_path c) k f with
  | (Goes left', f') => write_file (rn_cut r) left' (pub_path c) p f'
  | x => x
  end.
(** managedsecondary.cc:31-75: the constructor of the n-th Secondary; managedsecondary.h:52-57 *)
Definition construct (r : run) (n : nat) (c : vconf) (left : option nat) (f : files) : how * files * option made :=
  match (match load_keys c f with Some x => Some x | None => rn_gen r n end) with
  | None => (Thrown, f, None)
  | Some (k, p) =>
      if negb (rsa p) then (Thrown, f, None) else
      if negb (rn_dirs r n) then (Thrown, f, None) else
      match store_keys r left c k p f with
      | (Goes left', f') => (Goes left', f', Some {| md_n := n; md_priv := k; md_pub := p;
                                                     md_serial := if String.eqb (vc_serial c) "" then keyid p else vc_serial c |})
      | (h, f') => (h, f', None)
      end
  end.
(** secondary.cc:54-69 the Secondaries in turn; an exception ends the start. *)
Fixpoint start_from (r : run) (n : nat) (cs : list vconf) (left : option nat) (f : files) : list made * files :=
  match cs with
  | [] => ([], f)
  | c :: cs' =>
      match construct r n c left f with
      | (Goes left', f', Some m) => let (ms, f'') := start_from r (S n) cs' left' f' in (m :: ms, f'')
      | (_, f', _) => ([], f')
      end
  end.
Definition start (r : run) (cs : list vconf) (f : files) : list made * files := start_from r 0 cs (rn_kill r) f.
(** Starts one after the other: the Secondaries made in any of them. *)
Fixpoint starts (rs : list run) (cs : list vconf) (f : files) : list made :=
  match rs with
  | [] => []
  | r :: rs' => let (ms, f') := start r cs f in ms ++ starts rs' cs f'
  end.
End Keys.

(** ** The file that lists the Secondaries *)

Inductive sconf := SIp (addrs : list (string * Z)) | SVirtual (c : vconf).

(** virtualsecondary.cc:14-24 *)
Definition vconf_of_json (j : json) : res vconf :=
  do a <- jget "partial_verifying" j; do a <- jas_bool a;
  do s <- jget "ecu_serial" j; do s <- jas_string s;
  do h <- jget "ecu_hardware_id" j; do h <- jas_string h;
  do d <- jget "full_client_dir" j; do d <- jas_string d;
  do k <- jget "ecu_private_key" j; do k <- jas_string k;
  do p <- jget "ecu_public_key" j; do p <- jas_string p;
  do f <- jget "firmware_path" j; do f <- jas_string f;
  do t <- jget "target_name_path" j; do t <- jas_string t;
  do m <- jget "metadata_path" j; do m <- jas_string m;
  Ok {| vc_partial := a; vc_serial := s; vc_hw := h; vc_dir := d; vc_priv := k; vc_pub := p; vc_fw := f; vc_name := t; vc_meta := m |}.
Fixpoint vconfs_of (l : list (string * json)) : res (list vconf) :=
  match l with
  | [] => Ok []
  | (_, j) :: l' => do c <- vconf_of_json j; do r <- vconfs_of l'; Ok (c :: r)
  end.

(** secondary_config.cc:64-79 parse, 93-119 the two kinds *)
Fixpoint parse_members (l : list (string * json)) : res (list sconf) :=
  match l with
  | [] => Ok []
  | (k, j) :: l' =>
      do here <- (if String.eqb k "IP" then do x <- parse_ip_config j; Ok [SIp x]
                  else if String.eqb k "virtual" then do x <- vconfs_of (jiter j); Ok (map SVirtual x)
                  else Ok []);
      do r <- parse_members l'; Ok (here ++ r)
  end.
Definition parse (j : json) : res (list sconf) := parse_members (jiter j).

(** The file: absent, with this value, or cut off. *)
Inductive cfile := CAbsent | CValue (j : json) | CBroken.
(** secondary_config.cc:14-30, 54-62 parse_config_file; [ext]: its extension. *)
Definition parse_config_file (ext : string) (f : cfile) : res (list sconf) :=
  match f with
  | CAbsent => Throw EStd
  | CValue j => if String.eqb ext ".json" then parse j else Throw EStd
  | CBroken => Throw EStd
  end.
(** virtualsecondary.cc:26-41 create_from_file: errors of reading are not looked at. *)
Definition create_from_file (f : cfile) : res (list vconf) :=
  do v <- jget "virtual" (match f with CValue j => j | _ => JNull end);
  vconfs_of (jiter v).

(** Json::Value: assigning to a member of an object, whose members are kept in order. *)
Fixpoint oset (k : string) (v : json) (l : list (string * json)) : list (string * json) :=
  match l with
  | [] => [(k, v)]
  | (k', v') :: l' => if String.eqb k k' then (k, v) :: l' else if String.ltb k k' then (k, v) :: l else (k', v') :: oset k v l'
  end.
(** Json::Value::append *)
Definition jappend (x j : json) : res json :=
  match j with JNull => Ok (JArr [x]) | JArr l => Ok (JArr (l ++ [x])) | _ => Throw EStd end.
(** virtualsecondary.cc:46-54 *)
Definition json_of_vconf (c : vconf) : json :=
  JObj [("ecu_hardware_id", JStr (vc_hw c)); ("ecu_private_key", JStr (vc_priv c)); ("ecu_public_key", JStr (vc_pub c));
        ("ecu_serial", JStr (vc_serial c)); ("firmware_path", JStr (vc_fw c)); ("full_client_dir", JStr (vc_dir c));
        ("metadata_path", JStr (vc_meta c)); ("partial_verifying", JBool (vc_partial c)); ("target_name_path", JStr (vc_name c))].
(** virtualsecondary.cc:43-71 dump; a broken file is read as null (utils.cc:244-255); [killed]: while the file is being written, which the stream
    empties first. *)
Definition dump (killed : bool) (c : vconf) (f : cfile) : res cfile :=
  let root := match f with CValue j => j | _ => JNull end in
  do v <- jget "virtual" root;
  do a <- jappend (json_of_vconf c) v;
  if killed then Ok CBroken
  else Ok (CValue (JObj (oset "virtual" a (match root with JObj l => l | _ => [] end)))).
Fixpoint dump_all (cs : list vconf) (f : cfile) : res cfile :=
  match cs with [] => Ok f | c :: cs' => do f' <- dump false c f; dump_all cs' f' end.
