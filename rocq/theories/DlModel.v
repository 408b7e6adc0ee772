(** Download of binary targets: /repo/src/libaktualizr/package_manager/packagemanagerinterface.cc:14-285, the target_images
    table (storage/sqlstorage.cc:1677-1732) and the images directory.
    Simplifications: SQL statements succeed; the file system is a flat map from names to contents; byte counts do not wrap at
    2^64 (they count bytes in memory). Progress callbacks and log lines are not modelled. *)
From Verif Require Import Base Json TufModel CodecModel.

(** [d_names]: table target_images; [d_files]: the images directory. *)
Record dstate := { d_names : list (string * string); d_files : list (string * string) }.
Definition adel {A} (k : string) (m : list (string * A)) : list (string * A) := filter (fun p => negb (String.eqb (fst p) k)) m.

(** How one HTTP transfer ends (CURLcode and status): finished with a status, CURLE_RANGE_ERROR, aborted by the progress
    callback, any other error. *)
Inductive rkind := RDone (status : Z) | RRange | RInterrupted | RFailed.
(** One transfer: the chunks handed to the write callback, its end, and whether HttpClient::reset was called meanwhile
    (httpclient.cc:266-270: then the code becomes CURLE_ABORTED_BY_CALLBACK). *)
Record response := { rs_chunks : list string; rs_end : rkind; rs_reset : bool }.

(** The world during one fetch. [w_server n url from]: the n-th transfer. [w_token]: the result of the n-th
    canContinue() of the token, None for a null token. [w_space]: checkAvailableDiskSpace; [w_create], [w_append], [w_read]:
    opening files works. [w_store old chunk]: the content of a file after writing a chunk ([append] unless the disk fails). *)
Record world := {
  w_server : nat -> string -> nat -> response; w_token : option (nat -> bool); w_repo : string;
  w_space : bool; w_create : bool; w_append : bool; w_read : bool; w_store : string -> string -> string }.

Section Dl.
Context (E : Env) (W : world).

(** packagemanagerinterface.cc:230-240 checkTargetFile: the name of an existing file. *)
Definition check_file (t : target) (s : dstate) : option string :=
  match aget (t_filename t) (d_names s) with
  | Some f => if String.eqb f "" then None else match aget f (d_files s) with Some _ => Some f | None => None end
  | None => None
  end.
(** The content a user of openTargetFile (242-252) reads. *)
Definition stored (t : target) (s : dstate) : option string :=
  match check_file t s with Some f => aget f (d_files s) | None => None end.
Definition file_name (t : target) : string := match t_hashes t with h :: _ => h_val h | [] => "" end.
Definition file_type (t : target) : htype := match t_hashes t with h :: _ => h_type h | [] => HUnknown end.

(** crypto.h:26-72, packagemanagerinterface.cc:26-35: the digest of the bytes fed to the hasher; None: it throws. *)
Definition digest (ty : htype) (data : string) : option hash :=
  match ty with Sha256 => Some (mk_hash_t Sha256 (sha256hex E data)) | Sha512 => Some (mk_hash_t Sha512 (sha512hex E data)) | HUnknown => None end.

Inductive status := SGood | SNotFound | SIncomplete | SOversized | SMismatch.
(** 186-209 verifyTarget; None: an exception. *)
Definition verify_target (t : target) (s : dstate) : option status :=
  match stored t s with
  | None => Some SNotFound
  | Some c =>
      let size := Z.of_nat (String.length c) in
      if size <? t_length t then Some SIncomplete
      else if t_length t <? size then Some SOversized
      else if w_read W then match digest (file_type t) c with
                            | Some h => Some (if match_hash t h then SGood else SMismatch)
                            | None => None
                            end
      else None
  end.

(** 254-264 createTargetFile. *)
Definition create_file (t : target) (s : dstate) : option dstate :=
  if w_create W && negb (String.eqb (file_name t) "")
  then Some {| d_names := aset (t_filename t) (file_name t) (adel (t_filename t) (d_names s)); d_files := aset (file_name t) "" (adel (file_name t) (d_files s)) |}
  else None.
(** 278-285 removeTargetFile. *)
Definition remove_file (t : target) (s : dstate) : dstate :=
  match check_file t s with
  | Some f => {| d_names := adel (t_filename t) (d_names s); d_files := adel f (d_files s) |}
  | None => s
  end.

(** The DownloadMetaStruct: bytes hashed so far (downloaded_length is their number) and the path of the open file. *)
Record dl := { dl_hashed : string; dl_path : string }.
(** Writing to the open file. *)
Definition write_file (path chunk : string) (s : dstate) : dstate :=
  {| d_names := d_names s;
     d_files := match aget path (d_files s) with Some c => aset path (w_store W c chunk) (adel path (d_files s)) | None => d_files s end |}.
(** 47-60 DownloadHandler for all chunks of a transfer; [log] collects the states after each write; the flag says that a
    chunk was refused. *)
Fixpoint feed (t : target) (chunks : list string) (ds : dl) (s : dstate) (log : list dstate) : dl * dstate * list dstate * bool :=
  match chunks with
  | [] => (ds, s, log, false)
  | c :: cs =>
      if t_length t <? Z.of_nat (String.length (dl_hashed ds)) + Z.of_nat (String.length c) then (ds, s, log, true)
      else let s' := write_file (dl_path ds) c s in
           feed t cs {| dl_hashed := append (dl_hashed ds) c; dl_path := dl_path ds |} s' (log ++ [s'])
  end.

(** Results: true, false, null token dereferenced, still running after the given number of transfers. *)
Inductive fetched := FTrue | FFalse | FUndefined | FRunning.

(** 137-140 *)
Definition target_url (t : target) : string :=
  if String.eqb (t_uri t) "" then append (w_repo W) (append "/targets/" (url_encode (t_filename t))) else t_uri t.
Definition is_ok_status (z : Z) : bool := (200 <=? z) && (z <? 400).

(** 142-179: the transfer loop. *)
Fixpoint fetch_loop (fuel n : nat) (t : target) (ds : dl) (s : dstate) (log : list dstate) : fetched * dstate * list dstate :=
  match fuel with
  | O => (FRunning, s, log)
  | S fuel' =>
      let r := w_server W n (target_url t) (String.length (dl_hashed ds)) in
      let '(ds', s', log', refused) := feed t (rs_chunks r) ds s log in
      match (if rs_reset r then RInterrupted else if refused then RFailed else rs_end r) with
      | RRange =>
          match create_file t s' with
          | Some s2 => fetch_loop fuel' (S n) t {| dl_hashed := ""; dl_path := file_name t |} s2 (log' ++ [s2])
          | None => (FFalse, s', log')
          end
      | RInterrupted =>
          match w_token W with
          | None => (FUndefined, s', log')
          | Some tok => if tok n then
                          match check_file t s' with
                          | Some f => if w_append W then fetch_loop fuel' (S n) t {| dl_hashed := dl_hashed ds'; dl_path := f |} s' log' else (FFalse, s', log')
                          | None => (FFalse, s', log')
                          end
                        else (FFalse, s', log')
          end
      | RDone st =>
          if is_ok_status st then
            match digest (file_type t) (dl_hashed ds') with
            | Some h => if match_hash t h then (FTrue, s', log') else (FFalse, remove_file t s', log')
            | None => (FFalse, s', log')
            end
          else (FFalse, s', log')
      | RFailed => (FFalse, s', log')
      end
  end.

(** 99-184 fetchTarget. *)
Definition fetch_target (fuel : nat) (t : target) (s : dstate) : fetched * dstate * list dstate :=
  match t_hashes t with
  | [] => (FFalse, s, [])
  | _ =>
    match verify_target t s with
    | None => (FFalse, s, [])
    | Some SGood => (FTrue, s, [])
    | Some st =>
        if t_length t =? 0 then
          match create_file t s with Some s' => (FTrue, s', [s']) | None => (FFalse, s, []) end
        else
          match st with
          | SIncomplete =>
              match check_file t s, stored t s with
              | Some f, Some c =>
                  match digest (file_type t) c with      (* the hasher exists *)
                  | None => (FFalse, s, [])
                  | Some _ => if w_read W && w_append W then
                                if w_space W then fetch_loop fuel 0 t {| dl_hashed := c; dl_path := f |} s [] else (FFalse, s, [])
                              else (FFalse, s, [])
                  end
              | _, _ => (FFalse, s, [])
              end
          | _ =>
              match create_file t s with
              | Some s' => if w_space W then fetch_loop fuel 0 t {| dl_hashed := ""; dl_path := file_name t |} s' [s'] else (FFalse, s', [s'])
              | None => (FFalse, s, [])
              end
          end
    end
  end.
End Dl.

(** primary/sotauptaneclient.cc:713-736, the retry loop of downloadImage; [ws]: the worlds of the tries (at most three),
    [goon n]: token->canContinue(false) after the n-th one. *)
Fixpoint fetch_tries (E : Env) (fuel : nat) (ws : list (world * bool)) (t : target) (s : dstate) : fetched * dstate :=
  match ws with
  | [] => (FFalse, s)
  | (w, goon) :: ws' =>
      match fetch_target E w fuel t s with
      | (FTrue, s', _) => (FTrue, s')
      | (FFalse, s', _) => if goon then fetch_tries E fuel ws' t s' else (FFalse, s')
      | (r, s', _) => (r, s')
      end
  end.
