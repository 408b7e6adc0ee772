(** The command line tools around treehub: garage-push, garage-deploy and garage-check, with the reading of hashes and refs,
    the joining of URLs, the signing commands and the check of the result.
    The exchange of objects itself is PushModel.v; here are the programs around it. *)
From Verif Require Import Base Json TufModel PushModel.

(** ** ostree_hash.cc: 32 bytes, read from and shown as 64 hexadecimal digits. *)
Definition ohash := list Z.
Definition acode (c : ascii) : Z := Z.of_nat (nat_of_ascii c).
(** isspace in the C locale; the characters of find_last_not_of in ostree_hash.cc:9. *)
Definition is_space (c : ascii) : bool :=
  let n := acode c in (n =? 32) || ((9 <=? n) && (n <=? 13)).
Definition hexv (c : ascii) : option Z :=
  let n := acode c in
  if (48 <=? n) && (n <=? 57) then Some (n - 48)
  else if (97 <=? n) && (n <=? 102) then Some (n - 87)
  else if (65 <=? n) && (n <=? 70) then Some (n - 55) else None.
(** ostree_hash.cc:19-29: strtoul(…, 16) on two characters has to consume both.  It skips leading white space and takes a sign. *)
Definition pair_val (a b : ascii) : option Z :=
  match hexv b with
  | None => None
  | Some v =>
      match hexv a with
      | Some u => Some (16 * u + v)
      | None => if is_space a || (acode a =? 43) then Some v
                else if acode a =? 45 then Some ((- v) mod 256) else None
      end
  end.
Fixpoint pairs_val (s : string) : option ohash :=
  match s with
  | String a (String b s') =>
      match pair_val a b, pairs_val s' with Some v, Some l => Some (v :: l) | _, _ => None end
  | EmptyString => Some []
  | String _ EmptyString => None
  end.
(** ostree_hash.cc:9 *)
Fixpoint trim_right (s : string) : string :=
  match s with
  | EmptyString => EmptyString
  | String c s' => let r := trim_right s' in if (String.eqb r "") && is_space c then EmptyString else String c r
  end.
(** ostree_hash.cc:7-32 Parse.  None: OSTreeCommitParseError. *)
Definition parse_hash (s : string) : option ohash :=
  let t := trim_right s in if Nat.eqb (String.length t) 64 then pairs_val t else None.
(** ostree_hash.cc:39-49 string *)
Definition hexc (n : Z) : ascii := ascii_of_nat (Z.to_nat (if n <? 10 then 48 + n else 87 + n)).
Fixpoint show_hash (h : ohash) : string :=
  match h with [] => EmptyString | v :: h' => String (hexc (v / 16)) (String (hexc (v mod 16)) (show_hash h')) end.

(** ** ostree_ref.cc:15-32: the file is read with an istream_iterator<char>, which skips white space, and stripped of line feeds at the end. *)
Fixpoint skip_space (s : string) : string :=
  match s with EmptyString => EmptyString | String c s' => if is_space c then skip_space s' else String c (skip_space s') end.
Fixpoint strip_lf (s : string) : string :=
  match s with
  | EmptyString => EmptyString
  | String c s' => let r := strip_lf s' in if (String.eqb r "") && (acode c =? 10) then EmptyString else String c r
  end.
Definition ref_content (file : string) : string := strip_lf (skip_space file).

(** ** treehub_server.cc:52-64 InjectIntoCurl and 92-104 root_url, repo_url: the URL of a request. *)
Fixpoint last_is (c : ascii) (s : string) : bool :=
  match s with EmptyString => false | String a EmptyString => Ascii.eqb a c | String _ s' => last_is c s' end.
Definition first_is (c : ascii) (s : string) : bool := match s with EmptyString => false | String a _ => Ascii.eqb a c end.
Fixpoint drop_last (s : string) : string :=
  match s with EmptyString => EmptyString | String _ EmptyString => EmptyString | String a s' => String a (drop_last s') end.
Definition slash : ascii := "/".
(** 92-104 *)
Definition set_url (u : string) : string := if String.eqb u "" then "" else if last_is slash u then u else append u "/".
(** boost::trim_if(url, is_any_of(" \t\r\n")) *)
Definition is_trim (c : ascii) : bool := let n := acode c in (n =? 32) || (n =? 9) || (n =? 13) || (n =? 10).
Fixpoint trim_left4 (s : string) : string :=
  match s with EmptyString => EmptyString | String c s' => if is_trim c then trim_left4 s' else s end.
Fixpoint trim_right4 (s : string) : string :=
  match s with
  | EmptyString => EmptyString
  | String c s' => let r := trim_right4 s' in if (String.eqb r "") && is_trim c then EmptyString else String c r
  end.
Inductive url_res := Url (s : string) | UrlUB.
(** 52-64; the last character of an empty string, and the first one of an empty suffix, is undefined behaviour. *)
Definition inject (base suffix : string) : url_res :=
  if String.eqb base "" || String.eqb suffix "" then UrlUB else
  let u := if negb (last_is slash base) && negb (first_is slash suffix) then append base "/"
           else if last_is slash base && first_is slash suffix then drop_last base else base in
  Url (append (trim_left4 (trim_right4 u)) suffix).

(** ** What the outside world sees of a run: the requests about objects, refs, manifests, and the commands that are run. *)
Inductive ev :=
| EObj (t : tev)
| ERef (name content : string)
| ERefAns (a : option Z)          (* None: curl failed *)
| EManifest (commit body : string)
| EManAns (a : option Z)
| ESys (cmd : string).
Inductive outcome := Running | Exit (ok : bool) | Crash.   (* Crash: an exception left main *)

(** ** deploy.cc:26-64 UploadToTreehub *)
Definition upload_events (R : repo) (m : mode) (cap : Z) (root : obj) (l : list round) : list ev :=
  if have R root then map EObj (trace (fst (push_run R m cap root l))) else [].
(** deploy.cc:110-127 PushRootRef *)
Definition ref_ok (a : option Z) : bool := match a with None => false | Some c => negb ((c <? 200) || (400 <=? c)) end.

(** ** garage_push.cc *)
Record push_args := { pa_ref : string; pa_dry : bool; pa_walk : bool; pa_jobs : Z; pa_cacert_ok : bool; pa_manifest : bool }.
Inductive cred := CredOk | CredBad | CredThrow.
Record push_env := {
  pe_valid : bool;                      (* OSTreeDirRepo::LooksValid *)
  pe_refs : string -> option string;    (* the regular files below refs/heads *)
  pe_repo : repo; pe_oid : ohash -> obj;
  pe_cred : cred;                       (* ServerCredentials: read, BadCredentials*, another exception *)
  pe_auth : option bool;                (* authenticate; None: an exception *)
  pe_rounds : list round;               (* the answers about objects *)
  pe_ref_ans : option Z;
  pe_xml : option string;               (* the manifest as JSON; None: an exception *)
  pe_man_ans : option Z }.
(** 93-103 *)
Definition push_mode (A : push_args) : mode :=
  let m := if pa_dry A then MDryRun else MDefault in
  if pa_walk A then match m with MDryRun => MWalkTree | _ => MPushTree end else m.
Definition is_dry (m : mode) : bool := match m with MDryRun => true | _ => false end.
(** 154-181; failures are only logged. *)
Definition send_manifest (A : push_args) (E : push_env) (h : ohash) : list ev :=
  if pa_manifest A then
    match pe_xml E with
    | None => []
    | Some body => if is_dry (push_mode A) then [] else [EManifest (show_hash h) body; EManAns (pe_man_ans E)]
    end
  else [].
(** 132-192 *)
Definition push_commit (A : push_args) (E : push_env) (h : ohash) (content : option string) : list ev * outcome :=
  match pe_cred E with
  | CredBad => ([], Exit false)
  | CredThrow => ([], Crash)
  | CredOk =>
      match pe_auth E with
      | None => ([], Crash)
      | Some false => ([], Exit false)
      | Some true =>
          let m := push_mode A in
          let up := upload_events (pe_repo E) m (pa_jobs A) (pe_oid E h) (pe_rounds E) in
          match push (pe_repo E) m (pa_jobs A) (pe_oid E h) (pe_rounds E) with
          | None => (up, Running)
          | Some false => (up, Exit false)
          | Some true =>
              match (if is_dry m then None else content) with
              | Some c => let up := up ++ [ERef (pa_ref A) c; ERefAns (pe_ref_ans E)] in
                          if ref_ok (pe_ref_ans E) then (up ++ send_manifest A E h, Exit true) else (up, Exit false)
              | None => (up ++ send_manifest A E h, Exit true)
              end
          end
      end
  end.
(** 86-131: before that.  A ref whose content is no hash is an exception that nobody catches. *)
Definition garage_push (A : push_args) (E : push_env) : list ev * outcome :=
  if negb (pa_cacert_ok A) then ([], Exit false) else
  if pa_jobs A <? 1 then ([], Exit false) else
  if negb (pe_valid E) then ([], Exit false) else
  match pe_refs E (pa_ref A) with
  | Some file => match parse_hash (ref_content file) with
                 | None => ([], Crash)
                 | Some h => push_commit A E h (Some (ref_content file))
                 end
  | None => match parse_hash (pa_ref A) with
            | None => ([], Exit false)
            | Some h => push_commit A E h None
            end
  end.

(** ** check.cc:26-136 CheckRefValid *)
Record chk_env := {
  ce_head : string -> option Z;     (* the answer to a HEAD request, by its path; None: curl failed *)
  ce_repo : repo; ce_oid : ohash -> obj;   (* what the server hands out when the tree is walked *)
  ce_rounds : list round;
  ce_targets : option (Z * json);   (* targets.json: code and parsed content *)
  ce_now : string }.
Inductive checked := CRunning | CDone (ok : bool) | CThrow.
(** 123-131 *)
Fixpoint lists_ref (l : list (string * json)) (ref : string) : res bool :=
  match l with
  | [] => Ok false
  | (_, t) :: l' =>
      do h <- jget "hashes" t; do s <- jget "sha256" h; do v <- jas_string s;
      if String.eqb v ref then Ok true else lists_ref l' ref
  end.
(** 92-131 *)
Definition targets_check (E : chk_env) (ref : string) : checked :=
  match ce_targets E with
  | None => CDone false
  | Some (code, j) =>
      if negb (code =? 200) then CDone false else
      match (do s <- jget "signed" j; do e <- jget "expires" s; do es <- jas_string e; do t <- timestamp_of_string es;
             if ts_expired_at t (ce_now E) then Ok false else do tl <- jget "targets" s; lists_ref (jiter tl) ref) with
      | Ok b => CDone b
      | Throw _ => CThrow
      end
  end.
(** 39 *)
Definition object_path (ref : string) : string :=
  append "objects/" (append (substring 0 2 ref) (append "/" (append (substring 2 (String.length ref) ref) ".commit"))).
Definition check_ref (E : chk_env) (ref : string) (walk : bool) (cap : Z) : checked :=
  if Nat.ltb (String.length ref) 2 then CThrow else           (* ref.substr(2) *)
  match ce_head E (object_path ref) with
  | None => CDone false
  | Some code =>
      if (code =? 404) && negb walk then CDone false else
      if negb (code =? 404) && negb (code =? 200) then CDone false else
      let commit := negb (code =? 404) in
      let rest := if commit then targets_check E ref else CDone true in
      if walk then
        match parse_hash ref with
        | None => CThrow
        | Some h =>
            let o := ce_oid E h in
            if negb (have (ce_repo E) o) then CThrow else     (* OSTreeObjectMissing *)
            match push_run (ce_repo E) MWalkTree cap o (ce_rounds E) with
            | (_, false) => CRunning
            | (_, true) => rest                               (* 84-88: only logged *)
            end
        end
      else rest
  end.
(** garage_check.cc:83-109; every exception is caught. *)
Definition garage_check (E : chk_env) (auth : option bool) (ref : string) (walk : bool) (jobs : Z) : outcome :=
  if jobs <? 1 then Exit false else
  match auth with
  | None | Some false => Exit false
  | Some true => match check_ref E ref walk jobs with CRunning => Running | CDone b => Exit b | CThrow => Exit false end
  end.

(** ** deploy.cc:66-108 OfflineSignRepo: the commands, and how far it gets.  Removing the local directory is not modelled. *)
Definition cat (l : list string) : string := fold_right append "" l.
Definition sign_cmds (cred_path name : string) (h : ohash) (hwids : string) : list string :=
  [ append "garage-sign init --repo aktualizr --credentials " cred_path;
    "garage-sign targets  pull --repo aktualizr";
    cat ["garage-sign targets add --repo aktualizr --format OSTREE --length 0"; " --name "; name; " --version "; show_hash h;
         " --sha256 "; show_hash h; " --hardwareids "; hwids];
    "garage-sign targets  sign --key-name targets --repo aktualizr";
    "garage-sign targets  push --repo aktualizr" ].
Fixpoint run_cmds (sys : string -> Z) (l : list string) : list ev * bool :=
  match l with
  | [] => ([], true)
  | c :: l' => if sys c =? 0 then let (e, b) := run_cmds sys l' in (ESys c :: e, b) else ([ESys c], false)
  end.

(** ** garage_deploy.cc *)
Record deploy_args := { da_commit : string; da_name : string; da_hwids : string; da_cred_path : string; da_dry : bool; da_jobs : Z }.
Record deploy_env := {
  de_fetch_auth : option bool; de_push_auth : option bool;    (* None: an exception of the credentials *)
  de_repo : repo; de_oid : ohash -> obj; de_rounds : list round;
  de_can_sign : bool; de_sys : string -> Z; de_chk : chk_env }.
(** 89-149 *)
Definition garage_deploy (A : deploy_args) (E : deploy_env) : list ev * outcome :=
  if da_jobs A <? 1 then ([], Exit false) else
  match de_fetch_auth E with
  | None => ([], Crash)
  | Some false => ([], Exit false)
  | Some true =>
  match de_push_auth E with
  | None => ([], Crash)
  | Some false => ([], Exit false)
  | Some true =>
  match parse_hash (da_commit A) with
  | None => ([], Exit false)
  | Some h =>
      let m := if da_dry A then MDryRun else MDefault in
      let up := upload_events (de_repo E) m (da_jobs A) (de_oid E h) (de_rounds E) in
      match push (de_repo E) m (da_jobs A) (de_oid E h) (de_rounds E) with
      | None => (up, Running)
      | Some false => (up, Exit false)
      | Some true =>
          if is_dry m then (up, Exit true) else
          if negb (de_can_sign E) then (up, Exit false) else
          let (cs, ok) := run_cmds (de_sys E) (sign_cmds (da_cred_path A) (da_name A) h (da_hwids A)) in
          if negb ok then (up ++ cs, Exit false) else
          match check_ref (de_chk E) (da_commit A) false (da_jobs A) with
          | CRunning => (up ++ cs, Running)
          | CDone b => (up ++ cs, Exit b)
          | CThrow => (up ++ cs, Crash)
          end
      end
  end
  end
  end.
