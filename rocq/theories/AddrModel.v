(** Addresses at which metadata are asked for.
    Models /repo/src/libaktualizr/uptane/{role.cc,fetcher.cc,fetcher.h} and the part of libcurl that turns the given text into
    a request (httpclient.cc:128-136 passes the text as it is; CURLOPT_PATH_AS_IS is never set). *)
From Coq Require Import Ascii.
From Verif Require Import Base TufModel CodecModel.

(** tuf.h:131 Version::ANY_VERSION. *)
Definition ANY_VERSION : Z := -1.

(** role.cc:44-51 Version::RoleFileName. *)
Definition role_file_name (v : Z) (r : role) : string :=
  append (if v =? ANY_VERSION then "" else append (to_dec v) ".") (append (r_name r) ".json").

(** fetcher.cc:9-13: the address built by Fetcher::fetchRole.  [director] says which repository is asked (config.cc:195-207
    gives the two servers). *)
Definition fetch_url (director_server repo_server : string) (director : bool) (r : role) (v : Z) : string :=
  let url := if director then director_server else repo_server in
  let url := if is_delegation r then append url "/delegations" else url in
  append url (append "/" (role_file_name v r)).

(** ** What libcurl makes of the text *)

(** Everything before the first [c], and what comes after it, if there is one. *)
Fixpoint break (c : ascii) (s : string) : string * option string :=
  match s with
  | EmptyString => (EmptyString, None)
  | String a s' => if Ascii.eqb a c then (EmptyString, Some s')
                   else (String a (fst (break c s')), snd (break c s'))
  end.

(** RFC 3986, 5.2.4 (dedotdotify in libcurl), on the segments after the first slash of the path; [acc] holds, last first,
    the segments that are kept. *)
Fixpoint dedot (acc : list string) (l : list string) : list string :=
  match l with
  | [] => rev acc
  | s :: l' =>
      if String.eqb s "." then match l' with [] => rev ("" :: acc) | _ => dedot acc l' end
      else if String.eqb s ".." then match l' with [] => rev ("" :: tl acc) | _ => dedot (tl acc) l' end
      else dedot (s :: acc) l'
  end.

(** What is asked for: scheme (with its colon), host, the segments of the path, the query. *)
Record request := { q_scheme : string; q_host : string; q_path : list string; q_query : option string }.

(** The part after '#' is not sent, the part after '?' is the query.  Simplified: addresses are those with "scheme://host/...";
    user names, ports and percent signs are left inside their segments; a text with characters libcurl refuses (blanks, control
    characters) is an error in some releases and is treated here as sent. *)
Definition wire (url : string) : option request :=
  let u := fst (break "#" url) in
  let (p, q) := break "?" u in
  match split_all "/" p with
  | sch :: "" :: host :: segs => Some {| q_scheme := sch; q_host := host; q_path := dedot [] segs; q_query := q |}
  | _ => None
  end.

(** fetcher.cc:7-19: the request sent by fetchRole. *)
Definition fetch_request (ds rs : string) (director : bool) (r : role) (v : Z) : option request := wire (fetch_url ds rs director r v).
(** fetcher.h:43-46 fetchLatestRole. *)
Definition fetch_latest (ds rs : string) (director : bool) (r : role) : option request := fetch_request ds rs director r ANY_VERSION.

(** config.cc:201-207: the servers when only the gateway is configured. *)
Definition default_repo_server (tls_server : string) : string := append tls_server "/repo".
Definition default_director_server (tls_server : string) : string := append tls_server "/director".
