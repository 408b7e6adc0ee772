(** The HTTP client: /repo/src/libaktualizr/http/httpclient.cc, httpclient.h, httpinterface.h.
    libcurl and the server are outside: an attempt of the server to answer is data. *)
From Verif Require Import Base CodecModel.

(** ** One transfer *)

(** What the server and the network do when a request is made: the length announced before the body, the body in the pieces
    curl hands to the callback, the HTTP status (0 when no status line arrived) and the error that ends the transfer after
    the pieces, if any (a curl code, which is then positive). *)
Record attempt := { at_announced : option Z; at_pieces : list string; at_status : Z; at_error : option positive }.

(** CURLcode values: CURLE_OK, CURLE_WRITE_ERROR, CURLE_ABORTED_BY_CALLBACK, CURLE_FILESIZE_EXCEEDED. *)
Definition curle_ok : Z := 0.
Definition curle_write_error : Z := 23.
Definition curle_aborted : Z := 42.
Definition curle_filesize_exceeded : Z := 63.

(** httpinterface.h:16-34 HttpResponse without the message. *)
Record response := { rs_body : string; rs_status : Z; rs_curl : Z }.
Definition is_ok_response (r : response) : bool := (rs_curl r =? curle_ok) && (200 <=? rs_status r) && (rs_status r <? 400).
Definition was_interrupted (r : response) : bool := rs_curl r =? curle_aborted.

Definition slen (s : string) : Z := Z.of_nat (String.length s).

(** httpclient.cc:22-36 writeString: None when it returns 0 instead of the number of bytes. *)
Definition write_string (limit : Z) (out piece : string) : option string :=
  if 0 <? limit then
    if limit <? slen out + slen piece then None else Some (append out piece)
  else Some (append out piece).

(** curl: the pieces are handed to the callback until it refuses one. *)
Fixpoint receive (limit : Z) (out : string) (ps : list string) : string * bool :=
  match ps with
  | [] => (out, true)
  | p :: ps' => match write_string limit out p with
                | Some out' => receive limit out' ps'
                | None => (out, false)
                end
  end.

(** curl_easy_perform with CURLOPT_MAXFILESIZE_LARGE (httpclient.cc:184-188: set when limit >= 0; 0 is no limit for curl). *)
Definition transfer (limit : Z) (a : attempt) : response :=
  let big := match at_announced a with Some n => (0 <? limit) && (limit <? n) | None => false end in
  if big then {| rs_body := ""; rs_status := at_status a; rs_curl := curle_filesize_exceeded |}
  else
    let '(body, all) := receive limit "" (at_pieces a) in
    {| rs_body := body; rs_status := at_status a;
       rs_curl := if all then match at_error a with Some e => Zpos e | None => curle_ok end else curle_write_error |}.

(** httpclient.h:82 *)
Definition retry_times : nat := 2.

(** httpclient.cc:183-218 perform: the response and the number of requests made.  [srv] gives the server's behaviour for the
    first, second, ... request.  Sleeping is left out. *)
Fixpoint perform (limit : Z) (srv : nat -> attempt) (n : nat) (retries : nat) : response * nat :=
  let r := transfer limit (srv n) in
  if negb (rs_curl r =? curle_ok) || (500 <=? rs_status r) then
    match retries with
    | O => (r, S n)
    | S k => perform limit srv (S n) k
    end
  else (r, S n).

(** ** The client and its settings *)

(** The arguments of setCerts. *)
Record certs := { ct_ca : string; ct_ca_p11 : bool; ct_cert : string; ct_cert_p11 : bool; ct_key : string; ct_key_p11 : bool }.

(** httpclient.h:75-105.  [cl_tls] stands for the TLS options of the member handle [curl]; its other options never change. *)
Record client := {
  cl_tls : option certs; cl_certs_in_use : option certs; cl_headers : list string;
  cl_proxy : string; cl_user : string; cl_pwd : string; cl_ocsp : bool; cl_bandwidth : Z }.

(** httpclient.cc:38-64 *)
Definition new_client (extra : list string) : client :=
  {| cl_tls := None; cl_certs_in_use := None; cl_headers := "Accept: */*" :: extra; cl_proxy := ""; cl_user := "";
     cl_pwd := ""; cl_ocsp := false; cl_bandwidth := 0 |}.

(** httpclient.cc:79-122 setCerts.  A CA on a PKCS#11 device throws after certs_in_use was replaced. *)
Definition set_certs (c : certs) (h : client) : client * res unit :=
  let h1 := {| cl_tls := cl_tls h; cl_certs_in_use := Some c; cl_headers := cl_headers h; cl_proxy := cl_proxy h;
               cl_user := cl_user h; cl_pwd := cl_pwd h; cl_ocsp := cl_ocsp h; cl_bandwidth := cl_bandwidth h |} in
  if ct_ca_p11 c then (h1, Throw EStd)
  else ({| cl_tls := Some c; cl_certs_in_use := Some c; cl_headers := cl_headers h; cl_proxy := cl_proxy h;
           cl_user := cl_user h; cl_pwd := cl_pwd h; cl_ocsp := cl_ocsp h; cl_bandwidth := cl_bandwidth h |}, Ok tt).

(** httpclient.cc:309 setProxy *)
Definition set_proxy (p : string) (h : client) : client :=
  {| cl_tls := cl_tls h; cl_certs_in_use := cl_certs_in_use h; cl_headers := cl_headers h; cl_proxy := p;
     cl_user := cl_user h; cl_pwd := cl_pwd h; cl_ocsp := cl_ocsp h; cl_bandwidth := cl_bandwidth h |}.
(** httpclient.cc:311-314 setProxyCredentials *)
Definition set_credentials (u p : string) (h : client) : client :=
  {| cl_tls := cl_tls h; cl_certs_in_use := cl_certs_in_use h; cl_headers := cl_headers h; cl_proxy := cl_proxy h;
     cl_user := u; cl_pwd := p; cl_ocsp := cl_ocsp h; cl_bandwidth := cl_bandwidth h |}.
(** httpclient.cc:294-297 setUseOscpStapling *)
Definition set_ocsp (b : bool) (h : client) : client :=
  {| cl_tls := cl_tls h; cl_certs_in_use := cl_certs_in_use h; cl_headers := cl_headers h; cl_proxy := cl_proxy h;
     cl_user := cl_user h; cl_pwd := cl_pwd h; cl_ocsp := b; cl_bandwidth := cl_bandwidth h |}.
(** httpclient.cc:316 setBandwidth *)
Definition set_bandwidth (n : Z) (h : client) : client :=
  {| cl_tls := cl_tls h; cl_certs_in_use := cl_certs_in_use h; cl_headers := cl_headers h; cl_proxy := cl_proxy h;
     cl_user := cl_user h; cl_pwd := cl_pwd h; cl_ocsp := cl_ocsp h; cl_bandwidth := n |}.
(** httpclient.cc:278-292 updateHeader *)
Fixpoint update_first (look value : string) (l : list string) : list string * bool :=
  match l with
  | [] => ([], false)
  | x :: l' => if String.prefix look x then (append look value :: l', true)
               else let '(l'', b) := update_first look value l' in (x :: l'', b)
  end.
Definition update_header (name value : string) (h : client) : client * bool :=
  let '(l, b) := update_first (append name ": ") value (cl_headers h) in
  ({| cl_tls := cl_tls h; cl_certs_in_use := cl_certs_in_use h; cl_headers := l; cl_proxy := cl_proxy h;
      cl_user := cl_user h; cl_pwd := cl_pwd h; cl_ocsp := cl_ocsp h; cl_bandwidth := cl_bandwidth h |}, b).
(** httpclient.cc:333-362 reset without a download in progress: a new handle, then the certificates again. *)
Definition reset (h : client) : client :=
  let h1 := {| cl_tls := None; cl_certs_in_use := cl_certs_in_use h; cl_headers := cl_headers h; cl_proxy := cl_proxy h;
               cl_user := cl_user h; cl_pwd := cl_pwd h; cl_ocsp := cl_ocsp h; cl_bandwidth := cl_bandwidth h |} in
  match cl_certs_in_use h with Some c => fst (set_certs c h1) | None => h1 end.

(** The calls that change the client. *)
Inductive call :=
| SetCerts (c : certs) | SetProxy (p : string) | SetCredentials (u p : string) | SetOcsp (b : bool) | SetBandwidth (n : Z)
| UpdateHeader (name value : string) | Reset.
Definition do_call (h : client) (c : call) : client :=
  match c with
  | SetCerts c => fst (set_certs c h)
  | SetProxy p => set_proxy p h
  | SetCredentials u p => set_credentials u p h
  | SetOcsp b => set_ocsp b h
  | SetBandwidth n => set_bandwidth n h
  | UpdateHeader n v => fst (update_header n v h)
  | Reset => reset h
  end.
Definition client_after (extra : list string) (cs : list call) : client := fold_left do_call cs (new_client extra).

(** ** Requests *)
Inductive method := MGet | MPost | MPut | MDownload.
(** What curl is told for a request. *)
Record request := {
  rq_method : method; rq_url : string; rq_headers : list string; rq_body : string; rq_tls : option certs;
  rq_proxy : option string; rq_proxy_login : option string; rq_ocsp : bool; rq_speed : option Z; rq_limit : Z;
  rq_follow : bool }.

(** A C string ends at its first NUL. *)
Fixpoint c_str (s : string) : string :=
  match s with
  | EmptyString => EmptyString
  | String c s' => if Ascii.eqb c "000" then EmptyString else String c (c_str s')
  end.

(** httpclient.cc:318-331 setOptProxy *)
Definition opt_proxy (h : client) : option string * option string :=
  if String.eqb (cl_proxy h) "" then (None, None)
  else (Some (cl_proxy h),
        if String.eqb (cl_user h) "" then None
        else if String.eqb (cl_pwd h) "" then None
        else Some (append (url_encode (cl_user h)) (String ":" (url_encode (cl_pwd h))))).
Definition opt_speed (h : client) : option Z := if 0 <? cl_bandwidth h then Some (cl_bandwidth h) else None.

(** httpinterface.h:78-79 *)
Definition resp_limit : Z := 65536.

(** httpclient.cc:124-142 get and 183-201 *)
Definition get_request (h : client) (url : string) (maxsize : Z) : request :=
  {| rq_method := MGet; rq_url := url; rq_headers := cl_headers h; rq_body := ""; rq_tls := cl_tls h;
     rq_proxy := fst (opt_proxy h); rq_proxy_login := snd (opt_proxy h); rq_ocsp := cl_ocsp h; rq_speed := opt_speed h;
     rq_limit := maxsize; rq_follow := false |}.
(** httpclient.cc:144-157 post, 165-177 put *)
Definition send_request (m : method) (h : client) (url content_type data : string) : request :=
  {| rq_method := m; rq_url := url; rq_headers := cl_headers h ++ [append "Content-Type: " content_type];
     rq_body := c_str data; rq_tls := cl_tls h;
     rq_proxy := fst (opt_proxy h); rq_proxy_login := snd (opt_proxy h); rq_ocsp := cl_ocsp h; rq_speed := opt_speed h;
     rq_limit := resp_limit; rq_follow := false |}.
(** httpclient.cc:227-256 downloadAsync: neither the headers nor the OCSP setting are passed. *)
Definition download_request (h : client) (url : string) : request :=
  {| rq_method := MDownload; rq_url := url; rq_headers := []; rq_body := ""; rq_tls := cl_tls h;
     rq_proxy := fst (opt_proxy h); rq_proxy_login := snd (opt_proxy h); rq_ocsp := false; rq_speed := opt_speed h;
     rq_limit := 0; rq_follow := true |}.

(** ** reset() during a download: httpclient.cc:222-276 and 333-337 *)

(** Where the download thread (httpclient.cc:259-274) is. *)
Inductive dpos :=
| DStart                (* before curl_easy_perform(curlp.get()) *)
| DTransfer (n : nat)   (* inside curl_easy_perform, [n] more pieces to come *)
| DInfo (code : Z)      (* before curl_easy_getinfo(curlp.get(), ...) *)
| DCheck (code : Z)     (* before reset_.load() *)
| DEnd (code : Z).      (* the promise has its value *)
(** Where the thread that calls reset() is. *)
Inductive rpos := RStart | RFlag | RRelease | REnd.
(** [rc_curlp]: the member curlp is not null.  [rc_freed]: the handle was cleaned up (the member was its only owner, as in
    download(), which passes no easyp).  [rc_undef]: undefined behaviour has happened. *)
Record race := { rc_curlp : bool; rc_freed : bool; rc_flag : bool; rc_d : dpos; rc_r : rpos; rc_undef : bool }.
Inductive who := Downloader | Resetter.

Definition curle_bad_argument : Z := 43.

(** One step of a thread; curl's perform, when it is given a live handle, takes [pieces] steps and ends with [code]. *)
Definition race_step (pieces : nat) (code : Z) (w : who) (s : race) : race :=
  match w with
  | Downloader =>
      match rc_d s with
      | DStart =>
          {| rc_curlp := rc_curlp s; rc_freed := rc_freed s; rc_flag := rc_flag s;
             rc_d := if rc_curlp s then DTransfer pieces else DInfo curle_bad_argument; rc_r := rc_r s; rc_undef := rc_undef s |}
      | DTransfer n =>
          (* the handle is used: undefined when it was freed *)
          {| rc_curlp := rc_curlp s; rc_freed := rc_freed s; rc_flag := rc_flag s;
             rc_d := match n with O => DInfo code | S k => DTransfer k end; rc_r := rc_r s;
             rc_undef := rc_undef s || rc_freed s |}
      | DInfo c =>
          (* given null, curl_easy_getinfo leaves http_code unset, and it is read afterwards *)
          {| rc_curlp := rc_curlp s; rc_freed := rc_freed s; rc_flag := rc_flag s; rc_d := DCheck c; rc_r := rc_r s;
             rc_undef := rc_undef s || negb (rc_curlp s) |}
      | DCheck c =>
          {| rc_curlp := rc_curlp s; rc_freed := rc_freed s; rc_flag := rc_flag s;
             rc_d := DEnd (if rc_flag s then curle_aborted else c); rc_r := rc_r s; rc_undef := rc_undef s |}
      | DEnd _ => s
      end
  | Resetter =>
      match rc_r s with
      | RStart => {| rc_curlp := rc_curlp s; rc_freed := rc_freed s; rc_flag := rc_flag s; rc_d := rc_d s;
                     rc_r := if rc_curlp s then RFlag else REnd; rc_undef := rc_undef s |}
      | RFlag => {| rc_curlp := rc_curlp s; rc_freed := rc_freed s; rc_flag := true; rc_d := rc_d s; rc_r := RRelease;
                    rc_undef := rc_undef s |}
      | RRelease => {| rc_curlp := false; rc_freed := true; rc_flag := rc_flag s; rc_d := rc_d s; rc_r := REnd;
                       rc_undef := rc_undef s |}
      | REnd => s
      end
  end.
(** The download thread was just started (httpclient.cc:230-231, 259). *)
Definition race_start : race :=
  {| rc_curlp := true; rc_freed := false; rc_flag := false; rc_d := DStart; rc_r := RStart; rc_undef := false |}.
Definition race_run (pieces : nat) (code : Z) (ws : list who) : race :=
  fold_left (fun s w => race_step pieces code w s) ws race_start.
