(** What a user expects of the HTTP client. *)
From Verif Require Import Base CodecModel CodecSpec HttpModel.

(** The body the server sent with an attempt. *)
Definition document (a : attempt) : string := String.concat "" (at_pieces a).

(** The transfer of an attempt works: no error, and when there is a limit, neither the body nor its announced length exceeds it. *)
Definition arrives (limit : Z) (a : attempt) : Prop :=
  at_error a = None /\
  (0 < limit -> Z.of_nat (String.length (document a)) <= limit /\ (forall n, at_announced a = Some n -> n <= limit)).
(** It is an answer: it arrives and does not report a failure of the server. *)
Definition answers (limit : Z) (a : attempt) : Prop := arrives limit a /\ at_status a < 500.

(** The server did what was asked. *)
Definition acted (a : attempt) : bool := (200 <=? at_status a) && (at_status a <? 300).
Fixpoint times_acted (srv : nat -> attempt) (k : nat) : nat :=
  match k with O => O | S j => ((if acted (srv j) then 1 else 0) + times_acted srv j)%nat end.

(** The last value given for a setting. *)
Definition latest {A} (f : call -> option A) (cs : list call) : option A :=
  fold_left (fun acc c => match f c with Some a => Some a | None => acc end) cs None.
Definition certs_of (c : call) := match c with SetCerts x => Some x | _ => None end.
Definition proxy_of (c : call) := match c with SetProxy p => Some p | _ => None end.
Definition login_of (c : call) := match c with SetCredentials u p => Some (u, p) | _ => None end.
Definition ocsp_of (c : call) := match c with SetOcsp b => Some b | _ => None end.
Definition bandwidth_of (c : call) := match c with SetBandwidth n => Some n | _ => None end.

Definition the_proxy (cs : list call) : option string :=
  match latest proxy_of cs with Some p => if String.eqb p "" then None else Some p | None => None end.
Definition the_login (cs : list call) : option (string * string) :=
  match the_proxy cs, latest login_of cs with
  | Some _, Some (u, p) => if String.eqb u "" then None else Some (u, p)
  | _, _ => None
  end.
Definition the_speed (cs : list call) : option Z :=
  match latest bandwidth_of cs with Some n => if 0 <? n then Some n else None | None => None end.

(** How curl reads the proxy login it is given: up to the first colon the user, then the password, both percent-decoded. *)
Definition logs_in (t u p : string) : Prop :=
  exists a b, split_first ":" t = Some (a, b) /\ percent_decode a = Some u /\ percent_decode b = Some p.

(** The settings but OCSP are used for a request. *)
Definition uses_settings (cs : list call) (r : request) : Prop :=
  rq_tls r = latest certs_of cs /\
  rq_proxy r = the_proxy cs /\
  match the_login cs with
  | Some (u, p) => exists t, rq_proxy_login r = Some t /\ logs_in t u p
  | None => rq_proxy_login r = None
  end /\
  rq_speed r = the_speed cs.
Definition uses_ocsp (cs : list call) (r : request) : Prop :=
  rq_ocsp r = match latest ocsp_of cs with Some b => b | None => false end.

(** The requests a client can make. *)
Definition made_by (h : client) (r : request) : Prop :=
  (exists url n, r = get_request h url n) \/
  (exists m url t d, (m = MPost \/ m = MPut) /\ r = send_request m h url t d) \/
  (exists url, r = download_request h url).

(** No CA on a PKCS#11 device was given (setCerts refuses it with an exception). *)
Definition ca_in_files (cs : list call) : Prop := forall c, In (SetCerts c) cs -> ct_ca_p11 c = false.

(** Has the download thread asked curl for the status? *)
Definition past_info (d : dpos) : bool := match d with DCheck _ | DEnd _ => true | _ => false end.
