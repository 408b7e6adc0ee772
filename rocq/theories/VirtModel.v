(** The virtual (managed) Secondary, which lives in the Primary's process: /repo/src/virtual_secondary/managedsecondary.cc:20-29, 74-156,
    179-196, 220-239; managedsecondary.h:98-99 (storeMetadata and loadMetadata do nothing).
    Simplifications: the text about a detected attack is a flag; keys and signing of the manifest are left out (ReportModel has a signed
    manifest); versions do not overflow; of the exceptions that are not Uptane's some are std::logic_errors, for which isConsistent
    answers false, here they all leave it (both end in a failure, with the same state); faults injected for tests
    (virtualsecondary.cc) are left out. *)
From Verif Require Import Base Json TufModel MetaStore RepoModel CodecModel InstModel DevModel ClientModel UpdModel IpModel.

(** Memory: current_meta (the parts that are looked at again), whether meta_bundle_ has been filled, detected_attack.
    Files: firmware_path, target_name_path. *)
Record vsec := { vs_droot : root; vs_dtargets : json; vs_iroot : root; vs_bundle : bool; vs_attack : bool;
                 vs_fw : option string; vs_name : option string }.
(** 31-33, tuf.h:221: Root() rejects everything and has version 0; the files are those on disk. *)
Definition vs_new (fw name : option string) : vsec :=
  {| vs_droot := root_empty PRejectAll; vs_dtargets := JNull; vs_iroot := root_empty PRejectAll; vs_bundle := false; vs_attack := false;
     vs_fw := fw; vs_name := name |}.
Definition vs_root (rp : repo) (v : vsec) : root := match rp with Director => vs_droot v | Image => vs_iroot v end.
Definition set_root (rp : repo) (r : root) (v : vsec) : vsec :=
  {| vs_droot := match rp with Director => r | Image => vs_droot v end; vs_dtargets := vs_dtargets v;
     vs_iroot := match rp with Director => vs_iroot v | Image => r end; vs_bundle := vs_bundle v; vs_attack := vs_attack v; vs_fw := vs_fw v; vs_name := vs_name v |}.
Definition set_dtargets (j : json) (v : vsec) : vsec :=
  {| vs_droot := vs_droot v; vs_dtargets := j; vs_iroot := vs_iroot v; vs_bundle := vs_bundle v; vs_attack := vs_attack v; vs_fw := vs_fw v; vs_name := vs_name v |}.
Definition set_flags (b a : bool) (v : vsec) : vsec :=
  {| vs_droot := vs_droot v; vs_dtargets := vs_dtargets v; vs_iroot := vs_iroot v; vs_bundle := b; vs_attack := a; vs_fw := vs_fw v; vs_name := vs_name v |}.
Definition set_files (fw name : option string) (v : vsec) : vsec :=
  {| vs_droot := vs_droot v; vs_dtargets := vs_dtargets v; vs_iroot := vs_iroot v; vs_bundle := vs_bundle v; vs_attack := vs_attack v; vs_fw := fw; vs_name := name |}.

(** Json::Value::empty *)
Definition jempty (j : json) : bool := match j with JNull | JObj [] | JArr [] => true | _ => false end.

Section Virt.
Context (E : Env).
(** 220-238 isConsistent. [new_root] is handed to its own constructor; that constructor first makes it complete (root.cc:7), so
    it checks that the Root is signed by itself, twice. The signer of Targets is a copy as MetaWithKeys, so Root's policy is not asked. *)
Definition is_consistent (v : vsec) : res bool :=
  let orig := b_orig (rt_base (vs_droot v)) in
  let body :=
    if jempty orig then Ok tt else
    do new <- root_of_json E orig;
    do_ root_unpack E new role_root orig;
    do_ root_unpack E new role_root orig;
    if jempty (vs_dtargets v) then Ok tt
    else do_ targets_of_json_signed E (unpack_signed E (rt_ks (vs_droot v))) role_targets (vs_dtargets v); Ok tt in
  match body with
  | Ok _ => Ok true
  | Throw e => if is_uptane e then Ok false else Throw e
  end.

(** 74-92 rawToMeta: one document after the other; an exception leaves the earlier ones replaced. *)
Definition raw_to_meta (m : docs) (v : vsec) : vsec * res unit :=
  match root_of_json E (parse E (m_droot m)) with Throw e => (v, Throw e) | Ok dr =>
  let v := set_root Director dr v in
  match targets_of_json E (parse E (m_dtargets m)) with Throw e => (v, Throw e) | Ok dt =>
  let v := set_dtargets (b_orig (tg_base dt)) v in
  match root_of_json E (parse E (m_iroot m)) with Throw e => (v, Throw e) | Ok ir =>
  let v := set_root Image ir v in
  match timestamp_of_json (parse E (m_itime m)) with Throw e => (v, Throw e) | Ok _ =>
  match snapshot_of_json (parse E (m_isnap m)) with Throw e => (v, Throw e) | Ok _ =>
  match targets_of_json E (parse E (m_itargets m)) with Throw e => (v, Throw e) | Ok _ => (v, Ok tt) end end end end end end.

Definition verdict (v : vsec) : vsec * res ires :=
  (v, match is_consistent v with
      | Ok true => Ok (mk_ires (num kOk) "")
      | Ok false => Ok (mk_ires (num kVerificationFailed) "Error verifying metadata")
      | Throw e => Throw e
      end).
(** 94-114 putMetadata; [d]: the Primary's storage, from which the provider reads. *)
Definition v_put_metadata (d : db) (v : vsec) : vsec * res ires :=
  match get_metadata d with
  | Throw e => (v, Throw e)
  | Ok None => (v, Ok (mk_ires (num kInternalError) "Unable to load stored metadata from Primary"))
  | Ok (Some m) =>
      match raw_to_meta m (set_flags true false v) with
      | (v1, Throw e) => (v1, Throw e)
      | (v1, Ok _) => verdict v1
      end
  end.
(** 116-121 *)
Definition v_root_version (rp : repo) (v : vsec) : Z := rt_version (vs_root rp v).
(** 123-145 putRoot: reading the old Root from the bundle throws if there is none. std::map::insert does not replace, so the bundle
    keeps the old text; nothing reads it. *)
Definition v_put_root (raw : string) (rp : repo) (v : vsec) : vsec * res ires :=
  if negb (vs_bundle v) then (v, Throw EStd) else
  match root_of_json E (parse E raw) with
  | Throw e => (v, Throw e)
  | Ok new =>
      verdict (if rt_version new =? v_root_version rp v + 1 then set_root rp new v else set_flags true true v)
  end.

(** 152-162 install: the image is handed over by the Primary ([src]; opening it may throw), copied to firmware_path without a look
    at the stream's state, then the name is written to a new file that is renamed (utils.cc:326-340, where only opening is checked).
    [fault]: what may go wrong. *)
Inductive fault :=
| FNone
| FOpen                (* firmware_path cannot be opened for writing *)
| FShort (n : nat)     (* the disk is full after n bytes of the image; the name still fits *)
| FName                (* the new name file cannot be opened *)
| FKill (n : nat)      (* the process is killed after n bytes of the image were written *)
| FKillName.           (* the process is killed before the rename *)
Inductive ioutcome := IRet (r : res ires) | IKilled.
Definition v_install (name : string) (src : res string) (f : fault) (v : vsec) : vsec * ioutcome :=
  match src with
  | Throw e => (v, IRet (Throw e))
  | Ok c =>
      let ok := IRet (Ok (mk_ires (num kOk) "")) in
      match f with
      | FNone => (set_files (Some c) (Some name) v, ok)
      | FOpen => (set_files (vs_fw v) (Some name) v, ok)
      | FShort n => (set_files (Some (substring 0 n c)) (Some name) v, ok)
      | FName => (set_files (Some c) (vs_name v) v, IRet (Throw EStd))
      | FKill n => (vs_new (Some (substring 0 n c)) (vs_name v), IKilled)
      | FKillName => (vs_new (Some c) (vs_name v), IKilled)
      end
  end.
(** 179-196 getFirmwareInfo, with generateVersionHashStr (uptane/manifest.cc:73-81): name, SHA-256 in lower case, length. *)
Definition v_image (v : vsec) : string * string * Z :=
  match vs_name v, vs_fw v with
  | Some n, Some c => (n, to_lower (to_upper (sha256hex E c)), Z.of_nat (String.length c))
  | _, _ => ("noimage", to_lower (to_upper (sha256hex E "")), 0)
  end.

(** All calls. A restart of the Primary's process makes a new object. *)
Inductive vop :=
| VPutMeta (d : db) | VPutRoot (raw : string) (rp : repo) | VInstall (name : string) (src : res string) (f : fault) | VRestart.
Definition v_step (o : vop) (v : vsec) : vsec :=
  match o with
  | VPutMeta d => fst (v_put_metadata d v)
  | VPutRoot raw rp => fst (v_put_root raw rp v)
  | VInstall n src f => fst (v_install n src f v)
  | VRestart => vs_new (vs_fw v) (vs_name v)
  end.
Definition v_run (l : list vop) (v : vsec) : vsec := fold_left (fun v o => v_step o v) l v.

(** The virtual Secondary [ecu] as a part of the world of UpdModel: its state follows from its first state and the calls in the
    trace; [d]: the Primary's storage. *)
Definition v_event (ecu : string) (d : db) (v : vsec) (e : uev) : vsec :=
  match e with
  | UPutRoot e' rp _ raw _ => if String.eqb ecu e' then fst (v_put_root raw rp v) else v
  | UPutMeta e' _ _ => if String.eqb ecu e' then fst (v_put_metadata d v) else v
  | _ => v
  end.
Definition v_replay (ecu : string) (d : db) (v0 : vsec) (tr : list uev) : vsec := fold_left (v_event ecu d) tr v0.
Definition v_world (ecu : string) (d : db) (v0 : vsec) (W : world) : world :=
  {| e_verify := e_verify W; e_pings := e_pings W;
     e_rootver := fun tr e rp => if String.eqb ecu e then Ok (v_root_version rp (v_replay ecu d v0 tr)) else e_rootver W tr e rp;
     e_putroot := fun tr e rp raw => if String.eqb ecu e then snd (v_put_root raw rp (v_replay ecu d v0 tr)) else e_putroot W tr e rp raw;
     e_putmeta := fun tr e t => if String.eqb ecu e then snd (v_put_metadata d (v_replay ecu d v0 tr)) else e_putmeta W tr e t;
     e_pm := e_pm W; e_send := e_send W; e_install := e_install W; e_sched := e_sched W; e_manifest := e_manifest W |}.
End Virt.
