(** What a configuration file should mean. *)
From Verif Require Import Base TufModel DeployModel DeploySpec ConfModel.

(** The options: the section they are in, their name and type, and the member of the configuration they set. *)
Definition options : list (string * row) := map (fun r => ("logger", r)) log_rows ++ flat_map (fun s => map (fun r => (fst s, r)) (snd s)) read_table.
Definition without (c : ascii) (s : string) : Prop := every (fun a => a <> c) s.
(** Values of the right type, on one line. *)
Definition typed (k : kind) (v : cval) : Prop :=
  match k, v with
  | KStr, VS s | KPath, VS s | KBased, VS s => without nlc s
  | KInt lo hi, VZ z => lo <= z <= hi
  | KUInt, VZ z => 0 <= z < 2 ^ 64
  | KBool, VB _ => True
  | KEnum names other, VS s => In s names \/ s = other
  | _, _ => False
  end.
(** Values without the characters that are not kept. *)
Definition kept (k : kind) (v : cval) : Prop :=
  match k, v with
  | KStr, VS s => without dq s
  | KBased, VS s => without dq s /\ without amp s
  | _, _ => True
  end.
(** Names of additional options of the package manager. *)
Definition plain_name (s : string) : Prop :=
  s <> "" /\ trim_left s = s /\ trim_right s = s /\ without nlc s /\ without "=" s /\
  match s with String c _ => c <> ";"%char /\ c <> "#"%char /\ c <> "["%char | _ => True end.
(** A configuration as the program can have it. *)
Definition proper (c : cfg) : Prop :=
  (forall s r, In (s, r) options -> exists v, member (r_mem r) c = Some v /\ typed (r_kd r) v) /\
  (forall k v, aget k (c_extra c) = Some v -> plain_name k /\ without nlc v /\ forall r, In r pacman_rows -> r_key r <> k).
Definition all_kept (c : cfg) : Prop :=
  (forall s r v, In (s, r) options -> member (r_mem r) c = Some v -> kept (r_kd r) v) /\
  (forall k v, aget k (c_extra c) = Some v -> without dq v).
Definition same_but (skip : list string) (c d : cfg) : Prop :=
  (forall s r, In (s, r) options -> ~ In (r_mem r) skip -> member (r_mem r) c = member (r_mem r) d) /\
  (forall k, aget k (c_extra c) = aget k (c_extra d)).

(** ** Files *)
(** What is found, in the order it is found: files that are named, and the .toml files of directories. *)
Definition found (l : list cpath) : list (string * option string) :=
  flat_map (fun p => match cp_what p with None => [] | Some (PFile t) => [(cp_name p, t)] | Some (PDir es) => toml_files es end) l.
Definition last_of (l : list (string * option string)) (n : string) (t : option string) : Prop :=
  exists l1 l2, l = l1 ++ (n, t) :: l2 /\ forall u, ~ In (n, u) l2.
Fixpoint ascending {A} (l : list (string * A)) : Prop :=
  match l with [] => True | x :: l' => (forall y, In y l' -> str_ltb (fst x) (fst y) = true) /\ ascending l' end.
(** A file says that the member has this value. *)
Definition says (text : string) (m : string) (v : cval) : Prop :=
  exists t s r w, read_ini text = Some t /\ In (s, r) options /\ r_mem r = m /\ aget (r_key r) (subtree s t) = Some w /\ read_value (r_kd r) w = Some v.
(** The last file that says something about the member says this. *)
Definition last_says (l : list (string * option string)) (m : string) (v : cval) : Prop :=
  exists l1 n text l2, l = l1 ++ (n, Some text) :: l2 /\ says text m v /\ forall n' text' v', In (n', Some text') l2 -> ~ says text' m v'.
Definition none_says (l : list (string * option string)) (m : string) : Prop := forall n text v, In (n, Some text) l -> ~ says text m v.

(** ** Values in TOML *)
Inductive tval := TStr (s : string) | TInt (z : Z) | TBool (b : bool).
Definition toml_text (v : tval) : string := match v with TStr s => String dq (append s (String dq "")) | TInt z => to_dec z | TBool b => if b then "true" else "false" end.
(** Strings of plain characters. *)
Definition toml_plain (v : tval) : Prop := match v with TStr s => without dq s /\ without "\" s /\ without nlc s | _ => True end.
(** What the value means for an option of the type. *)
Definition fits (k : kind) (v : tval) (w : cval) : Prop :=
  match k, v with
  | KStr, TStr s | KPath, TStr s | KBased, TStr s => w = VS s
  | KInt lo hi, TInt z => lo <= z <= hi /\ w = VZ z
  | KUInt, TInt z => 0 <= z < 2 ^ 64 /\ w = VZ z
  | KBool, TBool b => w = VB b
  | KEnum names other, TStr s => (In s names \/ s = other) /\ w = VS s
  | _, _ => False
  end.
(** A file with one option. *)
Definition one_option (sec key text : string) : string :=
  append "[" (append sec (append "]" (String nlc (append key (append " = " (append text (String nlc ""))))))).

(** ** The command line *)
Definition cmd_options (o : cmdline) : list (string * option cval) :=
  let str x := match x with Some s => Some (VS s) | None => None end in
  [("logger.loglevel", match o_loglevel o with Some z => Some (VZ z) | None => None end); ("tls.server", str (o_tls o)); ("uptane.repo_server", str (o_repo o));
   ("uptane.director_server", str (o_director o)); ("provision.primary_ecu_serial", str (o_serial o)); ("provision.primary_ecu_hardware_id", str (o_hwid o));
   ("uptane.secondary_config_file", str (o_secfile o))].
Definition on_command_line (o : cmdline) (m : string) (v : cval) : Prop := In (m, Some v) (cmd_options o).
(** Where the files are looked for. *)
Definition searched (dirs : list cpath) (o : cmdline) : list cpath := match o_config o with Some l => l | None => dirs end.
(** The files that count, in the order they are applied. *)
Definition effective (l : list cpath) (files : list (string * option string)) : Prop := ascending files /\ forall n t, In (n, t) files <-> last_of (found l) n t.
Definition readable (x : string * option string) : Prop := exists text, snd x = Some text /\ read_ini text <> None.
Definition starts_well (dirs : list cpath) (o : cmdline) (files : list (string * option string)) : Prop :=
  (o_config o <> None -> forall p, In p (searched dirs o) -> cp_what p <> None) /\ forall x, In x files -> readable x.
(** The settings, before values are derived from them. *)
Definition settings (o : cmdline) (files : list (string * option string)) (b : cfg) : Prop :=
  forall s r, In (s, r) options ->
    (forall v, on_command_line o (r_mem r) v -> member (r_mem r) b = Some v) /\
    ((forall v, ~ on_command_line o (r_mem r) v) ->
       (forall v, last_says files (r_mem r) v -> member (r_mem r) b = Some v) /\ (none_says files (r_mem r) -> member (r_mem r) b = member (r_mem r) cfg0)).

(** The member is set: on the command line, or else by the last file that mentions it. *)
Definition set_to (o : cmdline) (files : list (string * option string)) (m : string) (v : cval) : Prop :=
  on_command_line o m v \/ ((forall v', ~ on_command_line o m v') /\ last_says files m v).
(** The member is not set, or set to the empty text. *)
Definition left_out (o : cmdline) (files : list (string * option string)) (m : string) : Prop := set_to o files m (VS "") \/ ((forall v, ~ on_command_line o m v) /\ none_says files m).

(** ** Derived values *)
Definition derived_from : list (string * (string * string)) :=
  [("provision.server", ("tls.server", "")); ("uptane.repo_server", ("tls.server", "/repo")); ("uptane.director_server", ("tls.server", "/director"));
   ("pacman.ostree_server", ("tls.server", "/treehub")); ("provision.ecu_registration_endpoint", ("uptane.director_server", "/ecus"))].
(** [c] is [b] with what was left out derived. *)
Definition derived (E : penv) (b c : cfg) : Prop :=
  c_extra c = c_extra b /\
  (forall m, m <> "provision.mode" -> m <> "tls.server" -> ~ In m (map fst derived_from) -> member m c = member m b) /\
  (text_of "provision.mode" b <> "Default" -> member "provision.mode" c = member "provision.mode" b) /\
  (text_of "provision.mode" b = "Default" -> text_of "provision.provision_path" b = "" -> member "provision.mode" c = Some (VS "DeviceCred")) /\
  (text_of "provision.mode" b = "Default" -> text_of "provision.provision_path" b <> "" -> member "provision.mode" c = Some (VS "SharedCred")) /\
  (text_of "tls.server" b <> "" -> member "tls.server" c = member "tls.server" b) /\
  (text_of "tls.server" b = "" -> text_of "tls.server_url_path" b <> "" -> member "tls.server" c = Some (VS (url_file E (text_of "tls.server_url_path" b)))) /\
  (forall u, text_of "tls.server" b = "" -> text_of "tls.server_url_path" b = "" -> text_of "provision.provision_path" b <> "" ->
     archive E (text_of "provision.provision_path" b) = Some u -> member "tls.server" c = Some (VS u)) /\
  (text_of "tls.server" b = "" -> text_of "tls.server_url_path" b = "" ->
     text_of "provision.provision_path" b = "" \/ archive E (text_of "provision.provision_path" b) = None -> member "tls.server" c = member "tls.server" b) /\
  (forall m from suffix, In (m, (from, suffix)) derived_from ->
     (text_of m b <> "" \/ text_of from c = "" -> member m c = member m b) /\
     (text_of m b = "" -> text_of from c <> "" -> member m c = Some (VS (append (text_of from c) suffix)))).

(** ** Inputs on one line, without quotes. *)
Definition one_line (s : string) : Prop := without nlc s /\ without dq s.
Definition plain_inputs (E : penv) (o : cmdline) : Prop :=
  (forall p, one_line (url_file E p)) /\ (forall p u, archive E p = Some u -> one_line u) /\
  (forall m s, on_command_line o m (VS s) -> one_line s) /\ (forall m z, on_command_line o m (VZ z) -> - 2 ^ 31 <= z <= 2 ^ 31 - 1).
(** A path within the storage. *)
Definition based_plain (c : cfg) : Prop := forall s r p, In (s, r) options -> r_kd r = KBased -> member (r_mem r) c = Some (VS p) -> without amp p.
(** ** Documents: sections with options, each on its own line. *)
Definition document (l : list (string * list (string * string))) : string :=
  fold_right (fun s t => append (append (append "[" (append (fst s) (append "]" (String nlc ""))))
    (append (fold_right (fun x t => append (append (fst x) (append " = " (append (snd x) (String nlc "")))) t) "" (snd s)) (String nlc ""))) t) "" l.
Definition unpadded (s : string) : Prop := s <> "" /\ trim_left s = s /\ trim_right s = s /\ without nlc s.
Definition well_formed (l : list (string * list (string * string))) : Prop :=
  NoDup (map fst l) /\
  forall n kv, In (n, kv) l -> unpadded n /\ without "]" n /\ kv <> [] /\ NoDup (map fst kv) /\ forall k v, In (k, v) kv -> plain_name k /\ unpadded v.
