(** aktualizr-cert-provider: /repo/src/cert_provider/main.cc, with /repo/src/libaktualizr/bootstrap/bootstrap.cc and
    the paths of /repo/src/libaktualizr/utilities/types.cc:139-142, utils.cc:745-750.
    The parser of P12 files, the generation of certificates, the server, ssh and scp are external.  Paths are compared as
    strings; the parsing of the command line is external. *)
From Verif Require Import Base CodecModel ArcModel TufModel RepoModel InstModel ConvModel.

(** ** Paths *)
Definition is_absolute (p : string) : bool := match p with String "/" _ => true | _ => false end.
Fixpoint ends_slash (p : string) : bool :=
  match p with EmptyString => false | String c EmptyString => Ascii.eqb c "/" | String _ p' => ends_slash p' end.
(** boost::filesystem::path::operator/ *)
Definition join (a b : string) : string :=
  if (String.eqb a "" || ends_slash a || is_absolute b)%bool then append a b else append a (String "/" b).
(** utils.cc:745-750 absolutePath *)
Definition based (base p : string) : string := if (is_absolute p || String.eqb base "")%bool then p else join base p.
(** boost::filesystem::path::parent_path, of paths without double separators. *)
Fixpoint up (p : string) : string :=
  match p with EmptyString => "" | String c p' => if has_char "/" p' then String c (up p') else "" end.
Definition parent (p : string) : string := match p with String "/" p' => String "/" (up p') | _ => up p end.

Definition fs := string -> option string.
Definition put (p c : string) (f : fs) : fs := fun q => if String.eqb p q then Some c else f q.
Definition del (p : string) (f : fs) : fs := fun q => if String.eqb p q then None else f q.

(** ** Options, main.cc:32-56; a path or name that is not given is empty, as in the code *)
Record conf := { k_base : string; k_path : string;                        (* import.base_path, storage.path *)
                 k_ipkey : string; k_icert : string; k_ica : string;       (* import.tls_*_path *)
                 k_spkey : string; k_scert : string; k_sca : string;       (* storage.tls_*_path *)
                 k_url : string }.                                         (* tls.server_url_path *)
Record opts := { o_target : string; o_port : Z; o_dir : option string; o_ca : bool; o_url : bool; o_local : string;
                 o_config : option conf; o_skip : bool; o_fleet_ca : string; o_fleet_key : string; o_creds : string;
                 o_cn : option string; o_c : option string; o_st : option string; o_o : option string;
                 o_bits : Z; o_days : Z }.

(** How copying a file locally ends: 140-148. *)
Inductive copying := CDone | CNothing (* fails at once *) | CLost (* the old file is removed, copying fails *).
(** Everything external. *)
Record env := {
  v_file : string -> file;                                  (* the file at a path *)
  v_p12 : string -> option tls;                             (* Crypto::parseP12 *)
  v_name : string;                                          (* genPrettyName *)
  v_post : string -> string -> tls -> option string;        (* POST to a URL for a device with certificates: the body if all is well *)
  v_gen : string -> string -> string -> string -> Z -> Z -> res (string * string);   (* subject, bits, days: key and signed certificate *)
  v_tmp : nat -> string;                                    (* names of the temporary files *)
  v_copy : nat -> copying;                                  (* the n-th local copy *)
  v_cmd : nat -> bool }.                                    (* does the n-th command exit with 0? *)

Record cworld := { w_local : fs; w_remote : fs; w_cmds : list string; w_posts : list (string * string) }.

(** bootstrap.cc:46-60, 62-78; 11-31 *)
Definition server_url (E : env) (path : string) : string := match read_file (v_file E path) "autoprov.url" true with Ok u => u | Throw _ => "" end.
Definition server_ca (E : env) (path : string) : string := match read_file (v_file E path) "server_ca.pem" false with Ok u => u | Throw _ => "" end.
Definition bootstrap (E : env) (path : string) : res tls :=
  if String.eqb path "" then Throw EStd else
  do p12 <- read_file (v_file E path) "autoprov_credentials.p12" false;
  if String.eqb p12 "" then Throw EStd else match v_p12 E p12 with Some t => Ok t | None => Throw EStd end.

(** 239-275: directory, key, certificate, CA, URL *)
Definition or_else (a b : string) : string := if String.eqb a "" then b else a.
Definition places (o : opts) : string * string * string * string * string :=
  let '(dir, pkey, cert, ca, url) :=
    match o_config o with
    | None => ("/var/sota/import", "pkey.pem", "client.pem", "root.crt", "gateway.url")
    | Some k => (or_else (or_else (k_base k) (k_path k)) "/var/sota/import", or_else (k_ipkey k) (k_spkey k), or_else (k_icert k) (k_scert k),
                 (if o_ca o then or_else (k_ica k) (k_sca k) else "root.crt"), (if o_url o then or_else (k_url k) "gateway.url" else "gateway.url"))
    end in
  (match o_dir o with Some d => d | None => dir end, pkey, cert, ca, url).

(** *** ssh, 88-138 *)
Definition flags (p : string) (o : opts) : string :=
  append (if o_port o =? 22 then "" else append p (append (to_dec (o_port o)) " ")) (if o_skip o then "-o StrictHostKeyChecking=no " else "").
Definition mkdir_cmd (o : opts) (path : string) : string :=
  append "ssh " (append (flags "-p " o) (append (o_target o) (append " " (append "mkdir -p " (parent path))))).
Definition scp_cmd (o : opts) (tmp path : string) : string :=
  append "scp " (append (flags "-P " o) (append tmp (append " " (append (o_target o) (append ":" path))))).
Definition run (c : string) (w : cworld) : cworld := {| w_local := w_local w; w_remote := w_remote w; w_cmds := w_cmds w ++ [c]; w_posts := w_posts w |}.
(** transferFile: when scp succeeds the file is there. *)
Definition transfer (E : env) (o : opts) (tmp path content : string) (w : cworld) : bool * cworld :=
  let n := List.length (w_cmds w) in
  let w1 := run (mkdir_cmd o path) w in
  if v_cmd E n then
    let w2 := run (scp_cmd o tmp path) w1 in
    if v_cmd E (S n) then (true, {| w_local := w_local w2; w_remote := put path content (w_remote w2); w_cmds := w_cmds w2; w_posts := w_posts w2 |})
    else (false, w2)
  else (false, w1).
Fixpoint transfers (E : env) (o : opts) (l : list (string * string * string)) (w : cworld) : bool * cworld :=
  match l with
  | [] => (true, w)
  | (tmp, path, content) :: l' => let '(b, w') := transfer E o tmp path content w in if b then transfers E o l' w' else (false, w')
  end.
(** copyLocal, 140-148 *)
Definition set_local (f : fs) (w : cworld) : cworld := {| w_local := f; w_remote := w_remote w; w_cmds := w_cmds w; w_posts := w_posts w |}.
Fixpoint copies (E : env) (n : nat) (l : list (string * string)) (w : cworld) : bool * cworld :=
  match l with
  | [] => (true, w)
  | (path, content) :: l' =>
      match v_copy E n with
      | CDone => copies E (S n) l' (set_local (put path content (w_local w)) w)
      | CNothing => (false, w)
      | CLost => (false, set_local (del path (w_local w)) w)
      end
  end.

(** 285-356: key, certificate and CA *)
Definition empty_opt (s : option string) : bool := match s with Some "" => true | _ => false end.
Definition credentials (E : env) (o : opts) (id : string) (w : cworld) : res tls * cworld :=
  let url := server_url E (o_creds o) in
  if String.eqb (o_fleet_ca o) "" then
    match bootstrap E (o_creds o) with
    | Throw e => (Throw e, w)
    | Ok b =>
        let w' := {| w_local := w_local w; w_remote := w_remote w; w_cmds := w_cmds w; w_posts := w_posts w ++ [(append url "/devices", id)] |} in
        match v_post E (append url "/devices") id b with
        | None => (Throw EStd, w')
        | Some body => (match v_p12 E body with Some t => Ok t | None => Throw EStd end, w')
        end
    end
  else
    (do_ (match o_c o with Some c => if Nat.eqb (String.length c) 2 then Ok tt else Throw EStd | None => Ok tt end);
     do_ (if empty_opt (o_st o) then Throw EStd else Ok tt); do_ (if empty_opt (o_o o) then Throw EStd else Ok tt);
     do kc <- v_gen E (match o_c o with Some c => c | None => "" end) (match o_st o with Some c => c | None => "" end)
                      (match o_o o with Some c => c | None => "" end) id (o_bits o) (o_days o);
     do ca <- (if o_ca o then let s := server_ca E (o_creds o) in
                              if String.eqb s "" then do b <- bootstrap E (o_creds o); Ok (t_ca b) else Ok s
               else Ok "");
     Ok {| t_ca := ca; t_cert := snd kc; t_pkey := fst kc |}, w).

(** The files to provide: name of the temporary file, place, content; 358-366. *)
Definition outputs (E : env) (o : opts) (t : tls) : list (string * string * string) :=
  let '(dir, pkey, cert, ca, url) := places o in
  [(v_tmp E 0, based dir pkey, t_pkey t); (v_tmp E 1, based dir cert, t_cert t)] ++
  (if o_ca o then [(v_tmp E 2, based dir ca, t_ca t)] else []) ++
  (if o_url o then [(v_tmp E 3, based dir url, server_url E (o_creds o))] else []).

(** main, 150-438: the exit code and what is left *)
Definition provide (E : env) (o : opts) (w : cworld) : bool * cworld :=
  if negb (Bool.eqb (String.eqb (o_fleet_ca o) "") (String.eqb (o_fleet_key o) "")) then (false, w) else
  if match o_dir o, o_config o with Some _, Some _ => true | _, _ => false end then (false, w) else
  if (String.eqb (o_local o) "" && String.eqb (o_target o) "")%bool then (false, w) else
  if ((String.eqb (o_fleet_ca o) "" || o_ca o || o_url o) && String.eqb (o_creds o) "")%bool then (false, w) else
  if empty_opt (o_cn o) then (false, w) else
  let id := match o_cn o with Some n => n | None => v_name E end in
  match credentials E o id w with
  | (Throw _, w1) => (false, w1)
  | (Ok t, w1) =>
      let out := outputs E o t in
      let '(b, w2) := if String.eqb (o_local o) "" then (true, w1)
                      else copies E 0 (map (fun x => let '(_, p, c) := x in (join (o_local o) p, c)) out) w1 in
      if negb b then (false, w2) else
      if String.eqb (o_target o) "" then (true, w2) else (true, snd (transfers E o out w2))     (* 419-421: errors are printed only *)
  end.

(** *** A device with the configuration [k] that has the files: its import, invstorage.cc:135-144, and server, config.cc:180-186 *)
Definition source (f : fs) (base p : string) : src := if String.eqb p "" then NoPath else match f (based base p) with Some s => Text s | None => NoFile end.
Definition device_imports (k : conf) (f : fs) (pub priv vers : src) : imports :=
  {| m_pub := pub; m_priv := priv; m_cert := source f (k_base k) (k_icert k); m_ca := source f (k_base k) (k_ica k);
     m_pkey := source f (k_base k) (k_ipkey k); m_vers := vers |}.
