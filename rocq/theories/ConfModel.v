(** The configuration of the Primary: reading .toml files (with Boost's INI parser), writing it out, the choice of files, the command line and derived values. *)
From Verif Require Import Base TufModel DeployModel.

(** ** Texts *)
Definition nlc : ascii := "010".
Definition dq : ascii := """".
Definition amp : ascii := "&".
(** std::getline until the end of the stream. *)
Fixpoint split_nl (s : string) : list string :=
  match s with
  | EmptyString => [""]
  | String c s' => if Ascii.eqb c nlc then "" :: split_nl s' else match split_nl s' with p :: r => String c p :: r | [] => [String c ""] end
  end.
(** boost::property_tree::detail::trim *)
Fixpoint trim_left (s : string) : string := match s with EmptyString => EmptyString | String c s' => if is_space c then trim_left s' else s end.
Definition trim (s : string) : string := trim_left (trim_right s).
(** std::string::find of a character: what is before and what is after it. *)
Fixpoint cut (c : ascii) (s : string) : option (string * string) :=
  match s with
  | EmptyString => None
  | String a s' => if Ascii.eqb a c then Some ("", s') else match cut c s' with Some (x, y) => Some (String a x, y) | None => None end
  end.

(** ** boost/property_tree/ini_parser.hpp read_ini, as the library documents it; None: ini_parser_error *)
Inductive node := Leaf (s : string) | Sect (l : list (string * string)).
Definition tree := list (string * node).
(** What is finished, and the section that is being read. *)
Record ini := { i_done : tree; i_cur : option (string * list (string * string)) }.
Definition ini_close (i : ini) : tree :=
  match i_cur i with None | Some (_, []) => i_done i | Some (n, l) => i_done i ++ [(n, Sect l)] end.
Definition has {A} (k : string) (l : list (string * A)) : bool := existsb (fun x => String.eqb k (fst x)) l.
Definition ini_line (i : ini) (raw : string) : option ini :=
  match trim raw with
  | EmptyString => Some i
  | String c rest =>
      if Ascii.eqb c ";" || Ascii.eqb c "#" then Some i else
      if Ascii.eqb c "[" then
        let t := ini_close i in
        match cut "]" rest with
        | None => None
        | Some (n, _) => if has (trim n) t then None else Some {| i_done := t; i_cur := Some (trim n, []) |}
        end
      else
        match cut "=" (String c rest) with
        | None => None
        | Some ("", _) => None
        | Some (k, v) =>
            match i_cur i with
            | Some (n, l) => if has (trim k) l then None else Some {| i_done := i_done i; i_cur := Some (n, l ++ [(trim k, trim v)]) |}
            | None => if has (trim k) (i_done i) then None else Some {| i_done := i_done i ++ [(trim k, Leaf (trim v))]; i_cur := None |}
            end
        end
  end.
Fixpoint ini_lines (i : ini) (l : list string) : option ini :=
  match l with [] => Some i | x :: l' => match ini_line i x with Some i' => ini_lines i' l' | None => None end end.
Definition read_ini (s : string) : option tree :=
  match ini_lines {| i_done := []; i_cur := None |} (split_nl s) with Some i => Some (ini_close i) | None => None end.

(** ** Values *)
Inductive kind := KStr | KPath | KBased | KInt (lo hi : Z) | KUInt | KBool | KEnum (names : list string) (other : string).
Inductive cval := VS (s : string) | VZ (z : Z) | VB (b : bool).
(** utils.cc:208-212 *)
Fixpoint strip_quotes (s : string) : string :=
  match s with EmptyString => EmptyString | String c s' => if Ascii.eqb c dq then strip_quotes s' else String c (strip_quotes s') end.
(** boost::io::quoted with '&' as the escape character, which boost::filesystem::path uses for its stream operators: after the first quote. *)
Fixpoint unquote (s : string) : option (string * string) :=
  match s with
  | EmptyString => None
  | String c s' =>
      if Ascii.eqb c amp then
        match s' with EmptyString => None | String d s'' => match unquote s'' with Some (x, r) => Some (String d x, r) | None => None end end
      else if Ascii.eqb c dq then Some ("", s')
      else match unquote s' with Some (x, r) => Some (String c x, r) | None => None end
  end.
Fixpoint word (s : string) : string * string :=
  match s with EmptyString => ("", "") | String c s' => if is_space c then ("", s) else let (x, r) := word s' in (String c x, r) end.
Definition blank_str (s : string) : bool := String.eqb (trim_left s) "".
Definition read_path (s : string) : option string :=
  match trim_left s with
  | EmptyString => None
  | String c s' =>
      let r := if Ascii.eqb c dq then unquote s' else Some (word (String c s')) in
      match r with Some (x, rest) => if blank_str rest then Some x else None | None => None end
  end.
Definition digitv (c : ascii) : option Z := let n := acode c in if (48 <=? n) && (n <=? 57) then Some (n - 48) else None.
Fixpoint digits (s : string) (acc : Z) : option Z :=
  match s with
  | EmptyString => Some acc
  | String c s' => match digitv c with Some d => digits s' (10 * acc + d) | None => None end
  end.
Definition number (s : string) : option Z := match s with EmptyString => None | _ => digits s 0 end.
(** std::istream >> of integers, then the end of the text. *)
Definition read_int (lo hi : Z) (s : string) : option Z :=
  let v := match s with
           | String "-" s' => match number s' with Some z => Some (- z) | None => None end
           | String "+" s' => number s'
           | _ => number s
           end in
  match v with Some z => if (lo <=? z) && (z <=? hi) then Some z else None | None => None end.
Definition two64 : Z := 2 ^ 64.
(** For unsigned types a minus sign is taken as well, and the value wraps. *)
Definition read_uint (s : string) : option Z :=
  match s with
  | String "-" s' => match number s' with Some z => if z <? two64 then Some ((- z) mod two64) else None | None => None end
  | String "+" s' => match number s' with Some z => if z <? two64 then Some z else None | None => None end
  | _ => match number s with Some z => if z <? two64 then Some z else None | None => None end
  end.
(** boost/property_tree/stream_translator.hpp: as a number, then as a word. *)
Definition read_bool (s : string) : option bool :=
  match read_int (- 2 ^ 63) (2 ^ 63 - 1) s with
  | Some z => if z =? 0 then Some false else if z =? 1 then Some true else None
  | None =>
      let w := match s with String "-" s' | String "+" s' => s' | _ => s end in
      if String.eqb w "true" then Some true else if String.eqb w "false" then Some false else None
  end.
(** config_utils.h:57-117, config.cc:33-47, bootloader_config.cc:21-34: CopyFromConfig; None: the destination stays as it is. *)
Definition read_value (k : kind) (text : string) : option cval :=
  match k with
  | KStr => Some (VS (strip_quotes text))
  | KPath => match read_path text with Some p => Some (VS p) | None => None end
  | KBased => Some (VS (strip_quotes text))
  | KInt lo hi => match read_int lo hi text with Some z => Some (VZ z) | None => None end
  | KUInt => match read_uint text with Some z => Some (VZ z) | None => None end
  | KBool => match read_bool text with Some b => Some (VB b) | None => None end
  | KEnum names other => let t := strip_quotes text in Some (VS (if mem_str t names then t else other))
  end.
(** config_utils.h:36-55 writeOption; types.h, config.cc:12-30: enumerations write quotes themselves; paths as boost::io::quoted. *)
Fixpoint escape (s : string) : string :=
  match s with
  | EmptyString => EmptyString
  | String c s' => if Ascii.eqb c amp || Ascii.eqb c dq then String amp (String c (escape s')) else String c (escape s')
  end.
Definition quoted (s : string) : string := String dq (append s (String dq "")).
Definition show_value (k : kind) (v : cval) : string :=
  match k, v with
  | KPath, VS s | KBased, VS s => quoted (escape s)
  | _, VS s => quoted s
  | _, VZ z => to_dec z
  | _, VB b => if b then "true" else "false"
  end.

(** ** The options *)
Definition int32 : kind := KInt (- 2 ^ 31) (2 ^ 31 - 1).
Definition int64 : kind := KInt (- 2 ^ 63) (2 ^ 63 - 1).
Definition k_source : kind := KEnum ["pkcs11"] "file".
Definition k_keytype : kind := KEnum ["RSA2048"; "RSA3072"; "RSA4096"; "ED25519"] "unknown".
Definition k_storage : kind := KEnum ["sqlite"] "filesystem".
Definition k_mode : kind := KEnum ["SharedCred"; "DeviceCred"; "SharedCredReuse"] "Default".
Definition k_rollback : kind := KEnum ["uboot_generic"; "uboot_masked"] "none".
(** A row: the member of the configuration, the name of the option, its type. *)
Record row := Row { r_mem : string; r_key : string; r_kd : kind }.
Definition log_rows : list row := [Row "logger.loglevel" "loglevel" int32].                                   (* logging_config.cc:6-8 *)
Definition p11_read : list row :=                                                                             (* base_config.cc:35-42 *)
  [Row "p11.module" "module" KPath; Row "p11.pass" "pass" KStr; Row "p11.uptane_key_id" "uptane_key_id" KStr; Row "p11.tls_cacert_id" "tls_cacert_id" KStr;
   Row "p11.tls_pkey_id" "tls_pkey_id" KStr; Row "p11.tls_clientcert_id" "tls_clientcert_id" KStr].
Definition p11_write : list row :=                                                                            (* base_config.cc:44-51 *)
  [Row "p11.module" "module" KPath; Row "p11.pass" "pass" KStr; Row "p11.uptane_key_id" "uptane_key_id" KStr; Row "p11.tls_cacert_id" "tls_ca_id" KStr;
   Row "p11.tls_pkey_id" "tls_pkey_id" KStr; Row "p11.tls_clientcert_id" "tls_clientcert_id" KStr].
Definition tls_read : list row :=                                                                             (* config.cc:49-55 *)
  [Row "tls.server" "server" KStr; Row "tls.server_url_path" "server_url_path" KPath; Row "tls.ca_source" "ca_source" k_source;
   Row "tls.cert_source" "cert_source" k_source; Row "tls.pkey_source" "pkey_source" k_source].
Definition tls_write : list row :=                                                                            (* config.cc:57-63 *)
  [Row "tls.server" "server" KStr; Row "tls.server_url_path" "server_url_path" KPath; Row "tls.ca_source" "ca_source" k_source;
   Row "tls.pkey_source" "pkey_source" k_source; Row "tls.cert_source" "cert_source" k_source].
Definition provision_rows : list row :=                                                                       (* config.cc:65-87 *)
  [Row "provision.server" "server" KStr; Row "provision.p12_password" "p12_password" KStr; Row "provision.expiry_days" "expiry_days" KStr;
   Row "provision.provision_path" "provision_path" KPath; Row "provision.device_id" "device_id" KStr; Row "provision.primary_ecu_serial" "primary_ecu_serial" KStr;
   Row "provision.primary_ecu_hardware_id" "primary_ecu_hardware_id" KStr; Row "provision.ecu_registration_endpoint" "ecu_registration_endpoint" KStr;
   Row "provision.mode" "mode" k_mode].
Definition uptane_rows : list row :=                                                                          (* config.cc:89-109 *)
  [Row "uptane.polling_sec" "polling_sec" KUInt; Row "uptane.director_server" "director_server" KStr; Row "uptane.repo_server" "repo_server" KStr;
   Row "uptane.key_source" "key_source" k_source; Row "uptane.key_type" "key_type" k_keytype; Row "uptane.force_install_completion" "force_install_completion" KBool;
   Row "uptane.secondary_config_file" "secondary_config_file" KPath; Row "uptane.secondary_preinstall_wait_sec" "secondary_preinstall_wait_sec" KUInt].
Definition pacman_rows : list row :=                                                                          (* packagemanagerconfig.cc:9-38 *)
  [Row "pacman.type" "type" KStr; Row "pacman.os" "os" KStr; Row "pacman.sysroot" "sysroot" KPath; Row "pacman.ostree_server" "ostree_server" KStr;
   Row "pacman.images_path" "images_path" KPath; Row "pacman.packages_file" "packages_file" KPath; Row "pacman.fake_need_reboot" "fake_need_reboot" KBool].
Definition storage_rows : list row :=                                                                         (* storage_config.cc:4-26 *)
  [Row "storage.type" "type" k_storage; Row "storage.path" "path" KPath; Row "storage.sqldb_path" "sqldb_path" KBased;
   Row "storage.uptane_metadata_path" "uptane_metadata_path" KBased; Row "storage.uptane_private_key_path" "uptane_private_key_path" KBased;
   Row "storage.uptane_public_key_path" "uptane_public_key_path" KBased; Row "storage.tls_cacert_path" "tls_cacert_path" KBased;
   Row "storage.tls_pkey_path" "tls_pkey_path" KBased; Row "storage.tls_clientcert_path" "tls_clientcert_path" KBased].
Definition import_rows : list row :=                                                                          (* storage_config.cc:28-45 *)
  [Row "import.base_path" "base_path" KPath; Row "import.uptane_private_key_path" "uptane_private_key_path" KBased;
   Row "import.uptane_public_key_path" "uptane_public_key_path" KBased; Row "import.tls_cacert_path" "tls_cacert_path" KBased;
   Row "import.tls_pkey_path" "tls_pkey_path" KBased; Row "import.tls_clientcert_path" "tls_clientcert_path" KBased].
Definition telemetry_rows : list row :=                                                                       (* telemetryconfig.cc:5-13 *)
  [Row "telemetry.report_network" "report_network" KBool; Row "telemetry.report_config" "report_config" KBool].
Definition bootloader_rows : list row :=                                                                      (* bootloader_config.cc:36-48 *)
  [Row "bootloader.rollback_mode" "rollback_mode" k_rollback; Row "bootloader.reboot_sentinel_dir" "reboot_sentinel_dir" KPath;
   Row "bootloader.reboot_sentinel_name" "reboot_sentinel_name" KPath; Row "bootloader.reboot_command" "reboot_command" KStr].
Definition network_rows : list row :=                                                                         (* config.cc:111-121 *)
  [Row "network.curl_proxy" "curl_proxy" KStr; Row "network.curl_bandwidth" "curl_bandwidth" int64; Row "network.use_oscp" "use_oscp" KBool].
(** config.cc:231-249 and 276-290; without the logger, which is not read when its level is on the command line. *)
Definition read_table : list (string * list row) :=
  [("p11", p11_read); ("tls", tls_read); ("provision", provision_rows); ("uptane", uptane_rows); ("pacman", pacman_rows); ("storage", storage_rows);
   ("import", import_rows); ("telemetry", telemetry_rows); ("bootloader", bootloader_rows); ("network", network_rows)].
Definition write_table : list (string * list row) :=
  [("logger", log_rows); ("p11", p11_write); ("tls", tls_write); ("provision", provision_rows); ("uptane", uptane_rows); ("pacman", pacman_rows);
   ("storage", storage_rows); ("import", import_rows); ("telemetry", telemetry_rows); ("bootloader", bootloader_rows); ("network", network_rows)].

(** ** The configuration: the value of each member; [extra] of the package manager. *)
Record cfg := { c_vals : list (string * cval); c_extra : list (string * string) }.
Definition member (m : string) (c : cfg) : option cval := aget m (c_vals c).
Definition with_member (m : string) (v : cval) (c : cfg) : cfg := {| c_vals := aset m v (c_vals c); c_extra := c_extra c |}.
(** config.h: the initial values (without BUILD_OSTREE and USE_OSCP). *)
Definition cfg0 : cfg := {| c_extra := []; c_vals :=
  [("logger.loglevel", VZ 2); ("p11.module", VS ""); ("p11.pass", VS ""); ("p11.uptane_key_id", VS ""); ("p11.tls_cacert_id", VS ""); ("p11.tls_pkey_id", VS "");
   ("p11.tls_clientcert_id", VS ""); ("tls.server", VS ""); ("tls.server_url_path", VS ""); ("tls.ca_source", VS "file"); ("tls.pkey_source", VS "file");
   ("tls.cert_source", VS "file"); ("provision.server", VS ""); ("provision.p12_password", VS ""); ("provision.expiry_days", VS "36000");
   ("provision.provision_path", VS ""); ("provision.mode", VS "Default"); ("provision.device_id", VS ""); ("provision.primary_ecu_serial", VS "");
   ("provision.primary_ecu_hardware_id", VS ""); ("provision.ecu_registration_endpoint", VS ""); ("uptane.polling_sec", VZ 10); ("uptane.director_server", VS "");
   ("uptane.repo_server", VS ""); ("uptane.key_source", VS "file"); ("uptane.key_type", VS "RSA2048"); ("uptane.force_install_completion", VB false);
   ("uptane.secondary_config_file", VS ""); ("uptane.secondary_preinstall_wait_sec", VZ 600); ("pacman.type", VS "none"); ("pacman.os", VS ""); ("pacman.sysroot", VS "");
   ("pacman.ostree_server", VS ""); ("pacman.images_path", VS "/var/sota/images"); ("pacman.packages_file", VS "/usr/package.manifest"); ("pacman.fake_need_reboot", VB false);
   ("storage.type", VS "sqlite"); ("storage.path", VS "/var/sota"); ("storage.uptane_metadata_path", VS "metadata"); ("storage.uptane_private_key_path", VS "ecukey.der");
   ("storage.uptane_public_key_path", VS "ecukey.pub"); ("storage.tls_cacert_path", VS "root.crt"); ("storage.tls_pkey_path", VS "pkey.pem");
   ("storage.tls_clientcert_path", VS "client.pem"); ("storage.sqldb_path", VS "sql.db"); ("import.base_path", VS "/var/sota/import");
   ("import.uptane_private_key_path", VS ""); ("import.uptane_public_key_path", VS ""); ("import.tls_cacert_path", VS ""); ("import.tls_pkey_path", VS "");
   ("import.tls_clientcert_path", VS ""); ("telemetry.report_network", VB true); ("telemetry.report_config", VB true); ("bootloader.rollback_mode", VS "none");
   ("bootloader.reboot_sentinel_dir", VS "/var/run/aktualizr-session"); ("bootloader.reboot_sentinel_name", VS "need_reboot"); ("bootloader.reboot_command", VS "/sbin/reboot");
   ("network.curl_proxy", VS ""); ("network.curl_bandwidth", VZ 0); ("network.use_oscp", VB false)] |}.

(** ** Reading: updateFromPropertyTree *)
Definition subtree (n : string) (t : tree) : list (string * string) := match aget n t with Some (Sect l) => l | _ => [] end.
Definition copy_from (l : list (string * string)) (r : row) (c : cfg) : cfg :=
  match aget (r_key r) l with
  | Some text => match read_value (r_kd r) text with Some v => with_member (r_mem r) v c | None => c end
  | None => c
  end.
Definition copy_rows (l : list (string * string)) (rows : list row) (c : cfg) : cfg := fold_left (fun c r => copy_from l r c) rows c.
(** packagemanagerconfig.cc:25-27; the other options of the section are read as everywhere else. *)
Definition copy_extra (l : list (string * string)) (c : cfg) : cfg :=
  fold_left (fun c (x : string * string) => let (k, t) := x in
    if existsb (fun r => String.eqb k (r_key r)) pacman_rows then c else {| c_vals := c_vals c; c_extra := aset k (strip_quotes t) (c_extra c) |}) l c.
Definition update_tree (cmd_log : bool) (t : tree) (c : cfg) : cfg :=
  let c := if cmd_log then c else copy_rows (subtree "logger" t) log_rows c in
  copy_extra (subtree "pacman" t) (fold_left (fun c (s : string * list row) => copy_rows (subtree (fst s) t) (snd s) c) read_table c).

(** ** Writing: config.cc:276-290, config_utils.h:52-55, 131-137 *)
Definition show_line (k v : string) : string := append k (append " = " (append v (String nlc ""))).
Definition show_row (c : cfg) (r : row) : string * string := (r_key r, match member (r_mem r) c with Some v => show_value (r_kd r) v | None => "" end).
(** The members of a section in the order they are written; [extra] is a std::map. *)
Fixpoint mput {A} (k : string) (v : A) (m : list (string * A)) : list (string * A) :=
  match m with
  | [] => [(k, v)]
  | (k', v') :: m' => if String.eqb k k' then (k, v) :: m' else if str_ltb k k' then (k, v) :: (k', v') :: m' else (k', v') :: mput k v m'
  end.
Definition sorted_map {A} (l : list (string * A)) : list (string * A) := fold_right (fun x m => mput (fst x) (snd x) m) [] l.
Definition show_section (c : cfg) (s : string * list row) : string * list (string * string) :=
  (fst s, map (show_row c) (snd s) ++
          (if String.eqb (fst s) "pacman" then map (fun x => (fst x, quoted (snd x))) (sorted_map (c_extra c)) else [])).
Definition render_section (s : string * list (string * string)) : string :=
  append (append "[" (append (fst s) (append "]" (String nlc "")))) (append (fold_right (fun x t => append (show_line (fst x) (snd x)) t) "" (snd s)) (String nlc "")).
Definition render (l : list (string * list (string * string))) : string := fold_right (fun s t => append (render_section s) t) "" l.
Definition write_cfg (c : cfg) : string := render (map (show_section c) write_table).

(** ** Which files: base_config.cc:7-33 and config.h:231-237 *)
Inductive entry := EFile (text : option string) | EDir.    (* None: cannot be opened *)
Inductive place := PFile (text : option string) | PDir (l : list (string * entry)).
(** A path given on the command line (or one of the two standard ones): its last component and what is there. *)
Record cpath := { cp_name : string; cp_what : option place }.
Fixpoint is_suffix (x s : string) : bool := String.eqb x s || match s with EmptyString => false | String _ s' => is_suffix x s' end.
Definition toml_files (l : list (string * entry)) : list (string * option string) :=
  flat_map (fun e => match snd e with EFile t => if is_suffix ".toml" (fst e) then [(fst e, t)] else [] | EDir => [] end) l.
Definition add_path (m : list (string * option string)) (p : cpath) : list (string * option string) :=
  match cp_what p with
  | None => m
  | Some (PFile t) => mput (cp_name p) t m
  | Some (PDir l) => fold_left (fun m x => mput (fst x) (snd x) m) (toml_files l) m
  end.
Definition chosen (l : list cpath) : list (string * option string) := fold_left add_path l [].
Fixpoint update_files (cmd_log : bool) (l : list (string * option string)) (c : cfg) : res cfg :=
  match l with
  | [] => Ok c
  | (_, text) :: l' =>
      match text with
      | None => Throw EStd
      | Some s => match read_ini s with Some t => update_files cmd_log l' (update_tree cmd_log t c) | None => Throw EStd end
      end
  end.

(** ** The command line: config.cc:147-166, 251-274 *)
Record cmdline := { o_loglevel : option Z; o_config : option (list cpath); o_tls : option string; o_repo : option string; o_director : option string;
  o_serial : option string; o_hwid : option string; o_secfile : option string }.
Definition set_opt (m : string) (o : option string) (c : cfg) : cfg := match o with Some s => with_member m (VS s) c | None => c end.
(** 271: the value is looked for under another name, which ends in boost::bad_any_cast. *)
Definition update_cmd (o : cmdline) (c : cfg) : res cfg :=
  let c := match o_loglevel o with Some z => with_member "logger.loglevel" (VZ z) c | None => c end in
  let c := set_opt "tls.server" (o_tls o) c in
  let c := set_opt "uptane.repo_server" (o_repo o) c in
  let c := set_opt "uptane.director_server" (o_director o) c in
  let c := set_opt "provision.primary_ecu_serial" (o_serial o) c in
  let c := set_opt "provision.primary_ecu_hardware_id" (o_hwid o) c in
  match o_secfile o with Some _ => Throw EStd | None => Ok c end.

(** ** config.cc:172-218 postUpdateValues *)
(** What else is read: the file of the gateway's address (trimmed; empty if it cannot be read), and the address in a provisioning archive (None: there is no such file). *)
Record penv := { url_file : string -> string; archive : string -> option string }.
Definition text_of (m : string) (c : cfg) : string := match member m c with Some (VS s) => s | _ => "" end.
Definition if_empty (m v : string) (c : cfg) : cfg := if String.eqb (text_of m c) "" then with_member m (VS v) c else c.
Definition post_update (E : penv) (c : cfg) : cfg :=
  let c := if String.eqb (text_of "provision.mode" c) "Default"
           then with_member "provision.mode" (VS (if String.eqb (text_of "provision.provision_path" c) "" then "DeviceCred" else "SharedCred")) c else c in
  let c := if String.eqb (text_of "tls.server" c) "" then
             if negb (String.eqb (text_of "tls.server_url_path" c) "") then with_member "tls.server" (VS (url_file E (text_of "tls.server_url_path" c))) c
             else if negb (String.eqb (text_of "provision.provision_path" c) "") then
               match archive E (text_of "provision.provision_path" c) with Some u => with_member "tls.server" (VS u) c | None => c end
             else c
           else c in
  let s := text_of "tls.server" c in
  let c := if negb (String.eqb s "") then
             if_empty "pacman.ostree_server" (append s "/treehub") (if_empty "uptane.director_server" (append s "/director")
               (if_empty "uptane.repo_server" (append s "/repo") (if_empty "provision.server" s c)))
           else c in
  let d := text_of "uptane.director_server" c in
  if negb (String.eqb d "") then if_empty "provision.ecu_registration_endpoint" (append d "/ecus") c else c.
(** config.cc:147-166 Config(cmd); [dirs]: /usr/lib/sota/conf.d and /etc/sota/conf.d *)
Definition load (E : penv) (dirs : list cpath) (o : cmdline) : res cfg :=
  let lg := match o_loglevel o with Some _ => true | None => false end in
  let c0 := match o_loglevel o with Some z => with_member "logger.loglevel" (VZ z) cfg0 | None => cfg0 end in
  do files <- match o_config o with
              | Some l => if existsb (fun p => match cp_what p with None => true | Some _ => false end) l then Throw EStd else Ok (chosen l)
              | None => Ok (chosen dirs)
              end;
  do c1 <- update_files lg files c0;
  do c2 <- update_cmd o c1;
  Ok (post_update E c2).
(** config.cc:136-139 Config(filename) *)
Definition load_file (E : penv) (text : string) : res cfg :=
  match read_ini text with Some t => Ok (post_update E (update_tree false t cfg0)) | None => Throw EStd end.
