(** A Secondary with a file update agent as the Primary sees it over TCP/IP: /repo/src/libaktualizr-posix/ipuptanesecondary.cc
    (the Primary's side), asn1/asn1_message.cc:55-101 Asn1Rpc, /repo/src/libaktualizr/primary/secondary_provider.cc:6-62 and
    /repo/src/aktualizr_secondary/{aktualizr_secondary,aktualizr_secondary_file,msg_handler,secondary_tcp_server}.cc (the
    Secondary's side). Metadata and images are handled by the functions of SndModel and SecFileModel.
    Simplifications: texts of results are left out; encoding and decoding of messages are modelled elsewhere (CodecModel,
    BufModel); each request has a connection of its own. *)
From Verif Require Import Base Json TufModel MetaStore RepoModel CodecModel InstModel DevModel SndModel SecFileModel.

(** ** Messages (asn1/messages/ipuptane_message.asn1, AKIpUptaneMes) *)
(** The metadata of a v1 request: Root and Targets; Root, Timestamp, Snapshot and Targets. *)
Inductive req :=
| QInfo | QVersion (v : Z) | QManifest
| QPutMeta (dr dt ir it isn itg : string) | QPutMeta2 (q : put_req)
| QSendFirmware (d : string) | QUpload (d : string) | QOstree (creds : string) | QInstall (name : string).
(** [PNothing]: nothing could be decoded. [PManifest None]: not the JSON alternative. *)
Inductive resp :=
| PNothing | PInfo | PVersion (v : Z) | PManifest (m : option json)
| PPutMeta (ok : bool) | PPutMeta2 (c : Z) | PSendFirmware (ok : bool) | PUpload (c : Z) | POstree (c : Z) | PInstall (c : Z) | PInstall2 (c : Z).

(** ** The Secondary *)
(** [fs_snd]: metadata storage, repositories, pending target and whether the process runs; [fs_ag]: the update agent and its
    files; [fs_idb]: the installed-versions table; [fs_before]: that table before the last request, if the request changed it. *)
Record fsec := { fs_snd : snd_st; fs_ag : SecFileModel.agent; fs_idb : idb; fs_before : idb }.
(** What happens around one request: the clock during the updates, whether the file of the new image can be opened, what
    becomes of the bytes written to it, whether it can be renamed. *)
Record henv := { h_ckd : clock; h_cki : clock; h_opened : bool; h_wr : wr; h_renamed : bool }.

Section Ip.
Context (savec : json -> string) (loadc : string -> option json).
Context (E : Env) (stale : htype -> string -> hash) (ecu hw : string).
(** keymanager.cc signTuf: the signatures over a body. *)
Context (sigs : json -> json).

Definition set_snd (m : snd_st) (s : fsec) : fsec := {| fs_snd := m; fs_ag := fs_ag s; fs_idb := fs_idb s; fs_before := fs_idb s |}.
Definition set_ag (a : SecFileModel.agent) (s : fsec) : fsec := {| fs_snd := fs_snd s; fs_ag := a; fs_idb := fs_idb s; fs_before := fs_idb s |}.
(** All that the last request did has been committed. *)
Definition settle (s : fsec) : fsec :=
  {| fs_snd := {| sn_ust := clear_log (sn_ust (fs_snd s)); sn_prev := u_db (sn_ust (fs_snd s)); sn_pending := sn_pending (fs_snd s); sn_alive := sn_alive (fs_snd s) |};
     fs_ag := fs_ag s; fs_idb := fs_idb s; fs_before := fs_idb s |}.
(** The process is gone. *)
Definition dead (m : snd_st) : snd_st := {| sn_ust := sn_ust m; sn_prev := sn_prev m; sn_pending := None; sn_alive := false |}.
Definition alive (s : fsec) : bool := sn_alive (fs_snd s).

(** update_agent_file.cc:11-27 getInstalledImageInfo; tuf.cc Target::Unknown. *)
Definition image_info (a : SecFileModel.agent) : string * Z * string :=
  match a_target a with
  | Some c => (a_name a, Z.of_nat (String.length c), to_lower (sha256hex E c))
  | None => ("unknown", 0, to_lower (sha256hex E ""))
  end.
(** manifest.cc:59-75 assembleManifest (members in the order of a Json::Value). *)
Definition manifest_body (name : string) (len : Z) (h : string) : json :=
  JObj [("attacks_detected", JStr ""); ("ecu_serial", JStr ecu);
        ("installed_image", JObj [("fileinfo", JObj [("hashes", JObj [("sha256", JStr h)]); ("length", JInt len)]); ("filepath", JStr name)]);
        ("previous_timeserver_time", JStr "1970-01-01T00:00:00Z"); ("timeserver_time", JStr "1970-01-01T00:00:00Z")].
(** manifest.cc:94-96, aktualizr_secondary.cc:23-32. *)
Definition sec_manifest (s : fsec) : json :=
  let '(name, len, h) := image_info (fs_ag s) in
  let b := manifest_body name len h in JObj [("signatures", sigs b); ("signed", b)].

(** aktualizr_secondary.cc:271-329: the result sent back; an exception ends the process. *)
Definition handle_put (h : henv) (q : put_req) (s : fsec) : fsec * option resp :=
  let (m, ev) := do_put E AgFile ecu hw q (h_ckd h) (h_cki h) (fs_snd s) in
  match ev with
  | EAccepted => (set_snd m s, Some (PPutMeta2 kOk))
  | ERejected => (set_snd m s, Some (PPutMeta2 kVerificationFailed))
  | _ => (set_snd m s, None)
  end.
(** aktualizr_secondary_file.cc:35-43, 64-84. A negative size cannot be decoded. *)
Definition handle_upload (h : henv) (d : string) (s : fsec) : fsec * option resp :=
  match sn_pending (fs_snd s) with
  | None => (set_snd (fs_snd s) s, Some (PUpload kGeneralError))
  | Some t =>
      let (a, r) := receive t d (h_opened h) (h_wr h) (fs_ag s) in
      match r with
      | AOk => (set_ag a s, Some (PUpload kOk))
      | AFail => (set_ag a s, Some (PUpload kDownloadFailed))
      | _ => (set_snd (dead (fs_snd s)) (set_ag a s), None)
      end
  end.
(** aktualizr_secondary.cc:38-66, 331-345; every failure of the file update agent is kDownloadFailed (update_agent_file.cc:30-56). *)
Definition handle_install (h : henv) (s : fsec) : fsec * option resp :=
  match sn_pending (fs_snd s) with
  | None => (set_snd (fs_snd s) s, Some (PInstall2 kInternalError))
  | Some t =>
      let (a, r) := install E stale t (h_renamed h) (fs_ag s) in
      match r with
      | AOk => ({| fs_snd := fst (do_install 0 (fs_snd s)); fs_ag := a; fs_idb := save_installed savec ecu t ModeCurrent (fs_idb s); fs_before := fs_idb s |},
                Some (PInstall2 kOk))
      | AFail => (set_ag a s, Some (PInstall2 kDownloadFailed))
      | _ => (set_snd (dead (fs_snd s)) (set_ag a s), None)
      end
  end.
(** msg_handler.cc, aktualizr_secondary.cc:193-211 registerHandlers, aktualizr_secondary_file.cc:15: [None] = the connection is
    closed without an answer (unknown message, no process). *)
Definition handle (h : henv) (q : req) (s0 : fsec) : fsec * option resp :=
  let s := settle s0 in
  if negb (alive s) then (s, None) else
  match q with
  | QInfo => (s, Some PInfo)
  | QVersion _ => (s, Some (PVersion 2))
  | QManifest => (s, Some (PManifest (Some (sec_manifest s))))
  | QPutMeta2 q => handle_put h q s
  | QUpload d => handle_upload h d s
  | QInstall _ => handle_install h s
  | QPutMeta _ _ _ _ _ _ | QSendFirmware _ | QOstree _ => (s, None)
  end.

(** aktualizr_secondary_file.cc:15-33: the constructor takes the name of the image from the table (the empty serial stands for
    the only ECU); if the table cannot be read the process ends. Then the pending target is read from the stored metadata. *)
Definition named (n : string) (a : SecFileModel.agent) : SecFileModel.agent :=
  {| a_target := a_target a; a_new := a_new a; a_hasher := a_hasher a; a_name := n |}.
Definition start_sec (clk : clock) (s : fsec) : fsec :=
  match load_installed loadc "" (fs_idb s) with
  | Ok (c, _) =>
      {| fs_snd := do_start E AgFile ecu hw 0 clk false (fs_snd s);
         fs_ag := named (match c with Some t => t_filename t | None => "unknown" end) (SecFileModel.restart (fs_ag s));
         fs_idb := fs_idb s; fs_before := fs_idb s |}
  | Throw _ => set_snd (dead (fs_snd s)) s
  end.
(** The process is killed while it handles a request, after which it would be [s]: [k] transactions of its last metadata
    request, and if [undo] that on the installed-versions table, have not been made. *)
Definition kill_sec (k : nat) (undo : bool) (s : fsec) : fsec :=
  let d := start_db k (fs_snd s) in
  {| fs_snd := {| sn_ust := boot d; sn_prev := d; sn_pending := None; sn_alive := false |};
     fs_ag := fs_ag s; fs_idb := if undo then fs_before s else fs_idb s; fs_before := fs_idb s |}.

(** ** The network *)
(** The request is not delivered; it is handled but the answer is lost; it is answered; the Secondary is killed while it
    handles it. *)
Inductive link := LNone | LLost | LAnswered | LKilled (k : nat) (undo : bool).
(** For the n-th request: what happens to it, the circumstances of its handling, and when the Secondary was (re)started before. *)
Record net := { w_link : nat -> link; w_env : nat -> henv; w_starts : nat -> list clock }.
(** The Primary's object for the Secondary: protocol_version (ipuptanesecondary.h); the Secondary; the number of requests made. *)
Record ipst := { ip_ver : Z; ip_sec : fsec; ip_n : nat }.
Definition start_all (l : list clock) (s : fsec) : fsec := fold_left (fun s c => start_sec c s) l s.
Definition set_ver (v : Z) (s : ipst) : ipst := {| ip_ver := v; ip_sec := ip_sec s; ip_n := ip_n s |}.

(** asn1_message.cc:55-101 Asn1Rpc: no connection, a closed connection and an undecodable answer all look the same. *)
Definition rpc (W : net) (q : req) (s : ipst) : ipst * resp :=
  let n := ip_n s in
  let sec := start_all (w_starts W n) (ip_sec s) in
  let next x := {| ip_ver := ip_ver s; ip_sec := x; ip_n := S n |} in
  match w_link W n with
  | LNone => (next sec, PNothing)
  | LLost => (next (fst (handle (w_env W n) q sec)), PNothing)
  | LAnswered => let (sec', a) := handle (w_env W n) q sec in (next sec', match a with Some r => r | None => PNothing end)
  | LKilled k undo => (next (kill_sec k undo (fst (handle (w_env W n) q sec))), PNothing)
  end.

(** ** The Primary's side *)
Definition result (c : Z) : ires := mk_ires (num c) "".
(** 268-277 *)
Definition ping (W : net) (s : ipst) : ipst * bool := let (s1, r) := rpc W QInfo s in (s1, match r with PInfo => true | _ => false end).
(** 101-132 getSecondaryVersion (the Primary offers version 2). The number is an unsigned 32-bit one. *)
Definition get_version (W : net) (s : ipst) : ipst :=
  let (s1, r) := rpc W (QVersion 2) s in
  match r with
  | PVersion v => set_ver (if v <=? 2 then v else 2) s1
  | _ => let (s2, p) := ping W s1 in if p : bool then set_ver 1 s2 else s2
  end.
(** secondary_provider.cc:6-62 getMetadata: the six documents, from the Primary's storage (a failing load is an exception). *)
Record docs := { m_droot : string; m_dtargets : string; m_iroot : string; m_itime : string; m_isnap : string; m_itargets : string }.
Definition get_metadata (d : db) : res (option docs) :=
  do dr <- load_latest_root Director d;
  match dr with None => Ok None | Some dr =>
    do dt <- load_nonroot Director RTargets d;
    match dt with None => Ok None | Some dt =>
      do ir <- load_latest_root Image d;
      match ir with None => Ok None | Some ir =>
        do it <- load_nonroot Image RTimestamp d;
        match it with None => Ok None | Some it =>
          do isn <- load_nonroot Image RSnapshot d;
          match isn with None => Ok None | Some isn =>
            do itg <- load_nonroot Image RTargets d;
            match itg with None => Ok None | Some itg =>
              Ok (Some {| m_droot := dr; m_dtargets := dt; m_iroot := ir; m_itime := it; m_isnap := isn; m_itargets := itg |}) end end end end end end.
(** 203-231: the v2 request. *)
Definition put_of (m : docs) : put_req :=
  {| pq_director := Some [("root", m_droot m); ("targets", m_dtargets m)];
     pq_image := Some [("root", m_iroot m); ("timestamp", m_itime m); ("snapshot", m_isnap m); ("targets", m_itargets m)] |}.
(** 158-201 putMetadata_v1, 211-243 putMetadata_v2 *)
Definition put_v1 (W : net) (m : docs) (s : ipst) : ipst * ires :=
  let (s1, r) := rpc W (QPutMeta (m_droot m) (m_dtargets m) (m_iroot m) (m_itime m) (m_isnap m) (m_itargets m)) s in
  (s1, match r with PPutMeta ok => result (if ok then kOk else kVerificationFailed) | _ => result kInternalError end).
Definition put_v2 (W : net) (m : docs) (s : ipst) : ipst * ires :=
  let (s1, r) := rpc W (QPutMeta2 (put_of m)) s in
  (s1, match r with PPutMeta2 c => result c | _ => result kInternalError end).
(** 134-157 putMetadata; [d]: the Primary's storage. *)
Definition put_metadata (W : net) (d : db) (s : ipst) : ipst * res ires :=
  match get_metadata d with
  | Throw e => (s, Throw e)
  | Ok None => (s, Ok (result kInternalError))
  | Ok (Some m) =>
      let s1 := get_version W s in
      if ip_ver s1 =? 2 then let (s2, r) := put_v2 W m s1 in (s2, Ok r)
      else if ip_ver s1 =? 1 then let (s2, r) := put_v1 W m s1 in (s2, Ok r)
      else (s1, Ok (result kInternalError))
  end.
(** 245-266 getManifest; null if there is no answer. *)
Definition get_manifest (W : net) (s : ipst) : ipst * json :=
  let s1 := get_version W s in
  let (s2, r) := rpc W QManifest s1 in
  (s2, match r with PManifest (Some m) => m | _ => JNull end).
(** 435-458 uploadFirmwareData *)
Definition upload_data (W : net) (d : string) (s : ipst) : ipst * ires :=
  let (s1, r) := rpc W (QUpload d) s in
  (s1, match r with PNothing => result kUnknown | PUpload c => result c | _ => result kInternalError end).
(** 405-433 uploadFirmware: [image] is what is left of the Primary's file. [None]: still running after [fuel] requests. *)
Fixpoint upload_image (W : net) (fuel : nat) (len : Z) (image : string) (total : Z) (s : ipst) : ipst * option ires :=
  if total <? len then
    match fuel with
    | O => (s, None)
    | S f =>
        let c := stake chunk image in
        let (s1, r) := upload_data W c s in
        let total' := total + Z.of_nat (String.length c) in
        if ir_success r then upload_image W f len (sskip chunk image) total' s1 else (s1, Some r)
    end
  else (s, Some (result (if total =? len then kOk else kDownloadFailed))).
(** 383-403 downloadOstreeRev, 293-326 sendFirmware_v1. [creds]: the archive of Treehub credentials. *)
Definition download_ostree (W : net) (creds : string) (s : ipst) : ipst * ires :=
  let (s1, r) := rpc W (QOstree creds) s in
  (s1, match r with POstree c => result c | _ => result kUnknown end).
Definition send_v1 (W : net) (t : target) (creds image : string) (s : ipst) : ipst * ires :=
  let (s1, r) := rpc W (QSendFirmware (if is_ostree t then creds else image)) s in
  (s1, match r with PSendFirmware ok => result (if ok then kOk else kDownloadFailed) | _ => result kDownloadFailed end).
(** 279-291, 328-335 sendFirmware. [image]: the Primary's file of the target ([openTargetFile] may throw: not modelled here). *)
Definition send_firmware (W : net) (fuel : nat) (t : target) (creds image : string) (s : ipst) : ipst * option ires :=
  if ip_ver s =? 2 then
    if is_ostree t then let (s1, r) := download_ostree W creds s in (s1, Some r)
    else upload_image W fuel (t_length t) image 0 s
  else if ip_ver s =? 1 then let (s1, r) := send_v1 W t creds image s in (s1, Some r)
  else (s, Some (result kInternalError)).
(** 337-381, 460-484 install *)
Definition install_v1 (W : net) (t : target) (s : ipst) : ipst * ires :=
  let (s1, r) := rpc W (QInstall (t_filename t)) s in
  (s1, match r with PInstall c => result c | _ => result kInternalError end).
Definition install_v2 (W : net) (t : target) (s : ipst) : ipst * ires :=
  let (s1, r) := rpc W (QInstall (t_filename t)) s in
  (s1, match r with PInstall2 c => result c | _ => result kUnknown end).
Definition ip_install (W : net) (t : target) (s : ipst) : ipst * ires :=
  if ip_ver s =? 2 then install_v2 W t s
  else if ip_ver s =? 1 then install_v1 W t s
  else (s, result kInternalError).
End Ip.
