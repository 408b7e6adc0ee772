(** Credential archives: /repo/src/libaktualizr/utilities/utils.cc:473-679, bootstrap/bootstrap.cc, primary/initializer.cc:127-203,
    primary/secondary_provider.cc:66-92, /repo/src/aktualizr_secondary/update_agent_ostree.cc:42-107 (credentials),
    /repo/src/sota_tools/server_credentials.cc, oauth2.cc, authenticate.cc.
    libarchive, the parser of P12 files, boost's JSON parser and the file system are external. *)
From Verif Require Import Base Json CodecModel.

(** ** Archives as libarchive gives them *)

(** An entry: its name, the bytes that can be read, and whether they end properly. *)
Record entry := { e_name : string; e_data : string; e_ok : bool }.
(** The entries whose headers can be read, and whether the headers end properly. *)
Record archive := { a_entries : list entry; a_ok : bool }.
(** A file: absent, no archive, or an archive. *)
Inductive file := Absent | Plain (text : string) | Arc (a : archive).

(** boost::trim_if *)
Fixpoint trim_left (p : ascii -> bool) (s : string) : string :=
  match s with EmptyString => EmptyString | String c s' => if p c then trim_left p s' else s end.
Fixpoint trim_right (p : ascii -> bool) (s : string) : string :=
  match s with
  | EmptyString => EmptyString
  | String c s' => match trim_right p s' with
                   | EmptyString => if p c then EmptyString else String c EmptyString
                   | r => String c r
                   end
  end.
Definition trim_by (p : ascii -> bool) (s : string) : string := trim_left p (trim_right p s).
(** is_any_of(" \t\r\n") *)
Definition blank (c : ascii) : bool := let n := nat_of_ascii c in (Nat.eqb n 32 || Nat.eqb n 9 || Nat.eqb n 13 || Nat.eqb n 10)%bool.

(** utils.cc:488-513: all entries of that name, one after the other. *)
Fixpoint scan (f : string) (l : list entry) (out : string) (found : bool) : string * bool :=
  match l with
  | [] => (out, found)
  | e :: l' => if String.eqb (e_name e) f then scan f l' (append out (e_data e)) (found || e_ok e)%bool else scan f l' out found
  end.
(** utils.cc:473-529 readFileFromArchive; what cannot be opened as an archive is an error. *)
Definition read_file (x : file) (f : string) (trim : bool) : res string :=
  match x with
  | Arc a => let '(out, found) := scan f (a_entries a) "" false in
             if found then Ok (if trim then trim_by blank out else out) else Throw EStd
  | _ => Throw EStd
  end.

(** utils.cc:543-578 writeArchive to a string; the entries of a std::map, in order. *)
Definition write_archive (l : list (string * string)) : file :=
  Arc {| a_entries := map (fun x => {| e_name := fst x; e_data := snd x; e_ok := true |}) l; a_ok := true |}.

(** *** removeFileFromArchive, utils.cc:584-679 *)

(** The archive at its path and the temporary files beside it. *)
Record disk := { d_arc : file; d_tmp : list archive }.
(** What goes wrong.  [n] is the number of entries that have reached the file by then: libarchive and the stream as_out keep
    the rest in memory, as_out until its destructor runs after the rename.
    Simplification: of an entry that is cut nothing can be read. *)
Inductive ending :=
| Fine
| NoTemp                (* 591-595: the temporary file cannot be created *)
| KillCopy (n : nat)    (* killed before the rename *)
| FailCopy (n : nat)    (* 637-640, 655-658: writing fails: exception *)
| KillFlush (n : nat)   (* killed between the rename (674) and the end of the destructor of as_out *)
| FailEnd (n : nat).    (* 668-671 or the destructor of as_out: writing the rest fails; only logged, or not even that *)
Inductive result := ROk | RThrow | RKilled.

(** 623-661: an entry that cannot be read to its end is copied as far as possible (647-653). *)
Definition copied (f : string) (a : archive) : archive :=
  {| a_entries := map (fun e => {| e_name := e_name e; e_data := e_data e; e_ok := true |})
                    (filter (fun e => negb (String.eqb (e_name e) f)) (a_entries a));
     a_ok := true |}.
Definition cut (n : nat) (a : archive) : archive := {| a_entries := firstn n (a_entries a); a_ok := false |}.

Definition remove (f : string) (d : disk) (e : ending) : result * disk :=
  match d_arc d with
  | Absent => (RThrow, d)                                                       (* 585-589 *)
  | Plain _ => match e with
               | NoTemp => (RThrow, d)
               | _ => (RThrow, {| d_arc := d_arc d; d_tmp := cut 0 (copied f {| a_entries := []; a_ok := true |}) :: d_tmp d |})   (* 605-609 *)
               end
  | Arc a =>
      let new := copied f a in
      let found := existsb (fun e => String.eqb (e_name e) f) (a_entries a) in
      match e with
      | NoTemp => (RThrow, d)
      | KillCopy n => (RKilled, {| d_arc := d_arc d; d_tmp := cut n new :: d_tmp d |})
      | FailCopy n => (RThrow, {| d_arc := d_arc d; d_tmp := cut n new :: d_tmp d |})
      | KillFlush n => if found then (RKilled, {| d_arc := Arc (cut n new); d_tmp := d_tmp d |}) else (RKilled, d)
      | FailEnd n => if found then (ROk, {| d_arc := Arc (cut n new); d_tmp := d_tmp d |}) else (RThrow, d)
      | Fine => if found then (ROk, {| d_arc := Arc new; d_tmp := d_tmp d |}) else (RThrow, d)
      end
  end.

(** ** Provisioning with shared credentials *)

Inductive pmode := MShared | MDevice | MReuse.
Definition p12_name : string := "autoprov_credentials.p12".
Definition treehub_name : string := "treehub.json".

Record tls := { t_ca : string; t_cert : string; t_pkey : string }.
(** keymanager.h:29 isOk, all credentials from files. *)
Definition tls_ok (t : option tls) : bool :=
  match t with
  | Some t => (negb (String.eqb (t_pkey t) "") && negb (String.eqb (t_cert t) "") && negb (String.eqb (t_ca t) ""))%bool
  | None => false
  end.
Record dev := { dv_tls : option tls; dv_disk : disk }.
(** What happens in a start: the P12 parser accepts the shared credentials; the device credentials of the server's answer
    (None: not registered, or no proper P12); killed before, or right after, they are stored; the two removals. *)
Record start_env := { se_boot : string -> bool; se_post : option tls; se_kill_before : bool; se_kill_stored : bool;
                      se_rm1 : ending; se_rm2 : ending }.
Inductive sres := SDone | SFailed | SKilled.

(** initializer.cc:133-203 initTlsCreds with bootstrap.cc:11-31.  The later steps of the initialization do not touch these data. *)
Definition init_tls (m : pmode) (v : start_env) (d : dev) : sres * dev :=
  if tls_ok (dv_tls d) then (SDone, d) else
  match m with
  | MDevice => (SFailed, d)
  | _ =>
      match read_file (d_arc (dv_disk d)) p12_name false with
      | Throw _ => (SFailed, d)
      | Ok p12 =>
          if (String.eqb p12 "" || negb (se_boot v p12))%bool then (SFailed, d) else
          if se_kill_before v then (SKilled, d) else
          match se_post v with
          | None => (SFailed, d)
          | Some t =>
              let d1 := {| dv_tls := Some t; dv_disk := dv_disk d |} in
              if se_kill_stored v then (SKilled, d1) else
              if negb (tls_ok (Some t)) then (SFailed, d1) else
              match m with
              | MReuse => (SDone, d1)
              | _ =>
                  match remove p12_name (dv_disk d) (se_rm1 v) with
                  | (ROk, k1) =>
                      match remove treehub_name k1 (se_rm2 v) with
                      | (RKilled, k2) => (SKilled, {| dv_tls := Some t; dv_disk := k2 |})
                      | (_, k2) => (SDone, {| dv_tls := Some t; dv_disk := k2 |})
                      end
                  | (RThrow, k1) => (SFailed, {| dv_tls := Some t; dv_disk := k1 |})
                  | (RKilled, k1) => (SKilled, {| dv_tls := Some t; dv_disk := k1 |})
                  end
              end
          end
      end
  end.
(** A device that is started again and again; the outcome of the last start. *)
Fixpoint starts (m : pmode) (l : list start_env) (d : dev) (last : sres) : sres * dev :=
  match l with [] => (last, d) | v :: l' => let '(r, d') := init_tls m v d in starts m l' d' r end.

(** ** Credentials for OSTree Secondaries *)

(** secondary_provider.cc:66-92 getTreehubCredentials; [files]: all three sources are files.  Plain "": the empty string. *)
Definition treehub_credentials (files : bool) (t : option tls) (url : string) : file :=
  if negb files then Plain "" else
  match t with
  | None => Plain ""
  | Some t => write_archive [("ca.pem", t_ca t); ("client.pem", t_cert t); ("pkey.pem", t_pkey t); ("server.url", url)]
  end.
(** update_agent_ostree.cc:87-107 extractCredentialsArchive and 47-53; boost::trim.  None: kDownloadFailed. *)
Definition extract_credentials (x : file) : res (tls * string) :=
  do ca <- read_file x "ca.pem" false; do cert <- read_file x "client.pem" false; do pkey <- read_file x "pkey.pem" false;
  do url <- read_file x "server.url" true;
  Ok ({| t_ca := ca; t_cert := cert; t_pkey := pkey |}, trim_by is_space url).

(** ** Credentials of the garage tools *)

Inductive amethod := ANone | ABasic | AOauth2 | ATls.
Record creds := { cr_method : amethod; cr_p12 : string; cr_repo : string; cr_user : string; cr_pass : string;
                  cr_server : string; cr_id : string; cr_secret : string; cr_scope : string; cr_ostree : string }.

(** boost's property tree of a JSON value: the child of a name, the text of a value. *)
Definition pt_child (k : string) (j : json) : option json := match j with JObj l => aget k l | _ => None end.
Definition pt_text (j : json) : string :=
  match j with
  | JStr s => s | JBool b => if b then "true" else "false" | JNull => "null" | JInt z => to_dec z | JReal _ _ t => t
  | JArr _ | JObj _ => ""
  end.
Definition pt_get (k : string) (j : json) : string := match pt_child k j with Some v => pt_text v | None => "" end.

(** server_credentials.cc:60-78, the entries: treehub.json, client_auth.p12 and tufrepo.url, each last one counts. *)
Fixpoint load_entries (l : list entry) (j p12 repo : option string) : res (option string * option string * option string) :=
  match l with
  | [] => Ok (j, p12, repo)
  | e :: l' =>
      if String.eqb (e_name e) "treehub.json" then if e_ok e then load_entries l' (Some (e_data e)) p12 repo else Throw EStd
      else if String.eqb (e_name e) "client_auth.p12" then if e_ok e then load_entries l' j (Some (e_data e)) repo else Throw EStd
      else if String.eqb (e_name e) "tufrepo.url" then if e_ok e then load_entries l' j p12 (Some (trim_by blank (e_data e))) else Throw EStd
      else load_entries l' j p12 repo
  end.
Definition or_empty (o : option string) : string := match o with Some s => s | None => "" end.
(** server_credentials.cc:91-119, with the text of the JSON. *)
Definition from_json (parse : string -> option json) (text : string) (p12 repo : option string) : res creds :=
  match parse text with
  | None => Throw EStd
  | Some j =>
      let ostree := match pt_child "ostree" j with Some o => pt_get "server" o | None => "" end in
      let mk m u p s i c sc := {| cr_method := m; cr_p12 := or_empty p12; cr_repo := or_empty repo; cr_user := u; cr_pass := p;
                                  cr_server := s; cr_id := i; cr_secret := c; cr_scope := sc; cr_ostree := ostree |} in
      Ok (match p12 with
          | Some _ => mk ATls "" "" "" "" "" ""
          | None =>
              match pt_child "oauth2" j with
              | Some o => mk AOauth2 "" "" (pt_get "server" o) (pt_get "client_id" o) (pt_get "client_secret" o) (pt_get "scope" o)
              | None =>
                  match pt_child "basic_auth" j with
                  | Some b => mk ABasic (pt_get "user" b) (pt_get "password" b) "" "" "" ""
                  | None => mk ANone "" "" "" "" "" ""
                  end
              end
          end)
  end.
(** server_credentials.cc:43-119; closing the archive succeeds. *)
Definition load_creds (parse : string -> option json) (x : file) : res creds :=
  match x with
  | Arc a => do r <- load_entries (a_entries a) None None None;
             let '(j, p12, repo) := r in
             match j with None => Throw EStd | Some text => from_json parse text p12 repo end
  | Plain text => from_json parse text None None
  | Absent => Throw EStd
  end.
(** server_credentials.cc:117-150 CanSignOffline *)
Definition can_sign_offline (x : file) : bool :=
  match x with
  | Arc a => forallb (fun f => existsb (fun e => String.eqb (e_name e) f) (a_entries a)) ["root.json"; "targets.pub"; "targets.sec"; "tufrepo.url"]
  | _ => false
  end.

(** *** oauth2.cc:25-87 *)
Definition ends_with (suf s : string) : bool :=
  (Nat.leb (String.length suf) (String.length s) &&
   String.eqb (substring (String.length s - String.length suf) (String.length suf) s) suf)%bool.
(** The request for a token: URL and body; user and password are the client's id and secret. *)
Definition token_request (c : creds) : string * string :=
  if ends_with "/token" (cr_server c)
  then (cr_server c, append "grant_type=client_credentials&scope=" (cr_scope c))
  else (append (cr_server c) "/token", "grant_type=client_credentials").
(** The answer: status and body.  None: failure. *)
Definition token_of (parse : string -> option json) (status : Z) (body : string) : option string :=
  if status =? 200 then match parse body with Some j => Some (pt_get "access_token" j) | None => None end else None.

(** authenticate.cc: what requests to treehub are sent with.  None: EXIT_FAILURE. *)
Inductive tauth := TNone | TBasic (user pass : string) | TBearer (token : string) | TTls (p12 : string).
Definition authenticate (parse : string -> option json) (c : creds) (status : Z) (body : string) : option tauth :=
  match cr_method c with
  | ABasic => Some (TBasic (cr_user c) (cr_pass c))
  | AOauth2 => if String.eqb (cr_id c) "" then Some TNone
               else match token_of parse status body with Some t => Some (TBearer t) | None => None end
  | ATls => Some (TTls (cr_p12 c))
  | ANone => Some TNone
  end.
