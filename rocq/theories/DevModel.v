(** Reporting of installation results: /repo/src/libaktualizr/primary/sotauptaneclient.cc:241-341 (AssembleManifest), 425-495
    (computeDeviceInstallationResult), 1119-1149 (putManifestSimple), 1452-1466 (getEcuHwId) over the tables ecus,
    ecu_installation_results, device_installation_result, ecu_report_counter and ecu_manifests
    (storage/sqlstorage.cc:969-1004, 1386-1561, 1617-1633).
    Simplifications: texts contain no NUL bytes; int64 counters do not overflow; the custom part of a manifest and the part
    about the Primary's current version are left out; every Secondary has a row in secondary_ecus (saveSecondaryInfo, primary/initializer.cc:258-260). *)
From Verif Require Import Base Json CodecModel.

(** types.h:277-294 InstallationResult and its two-argument constructor. *)
Record ires := { ir_success : bool; ir_code : rcode; ir_desc : string }.
Definition mk_ires (c : rcode) (d : string) : ires :=
  {| ir_success := (rc_num c =? kOk) || (rc_num c =? kAlreadyProcessed); ir_code := c; ir_desc := d |}.
Definition num (n : Z) : rcode := {| rc_num := n; rc_text := "" |}.
(** types.h:246 operator==: numbers and texts; comparing with a bare number. toString of an unlisted number throws. *)
Definition rc_eq (a b : rcode) : res bool :=
  if negb (rc_num a =? rc_num b) then Ok false else do x <- rc_string a; do y <- rc_string b; Ok (String.eqb x y).
(** types.h:289 *)
Definition need_completion (r : ires) : res bool := rc_eq (ir_code r) (num kNeedCompletion).

(** A row of ecu_installation_results or device_installation_result: success, result_code (toRepr), description. *)
Record row := { rw_success : bool; rw_code : string; rw_desc : string }.
Definition to_row (r : ires) : res row := do c <- to_repr (ir_code r); Ok {| rw_success := ir_success r; rw_code := c; rw_desc := ir_desc r |}.
Definition of_row (r : row) : res ires := do c <- from_repr (rw_code r); Ok {| ir_success := rw_success r; ir_code := c; ir_desc := rw_desc r |}.

(** [v_ecus]: table ecus in the order of ids; the other tables by their primary keys. *)
Record dev := {
  v_ecus : list (string * string); v_eres : list (string * row); v_dres : option (row * string * string);
  v_cnt : list (string * Z); v_cache : list (string * string); v_pending : bool }.
(** What the client knows: the Primary's serial and hardware id, hardware ids of the Secondaries. *)
Record client := { c_primary : string; c_hw : string; c_secs : list (string * string) }.

(** sotauptaneclient.cc:1452-1466 *)
Definition ecu_hw (c : client) (serial : string) : option string :=
  if String.eqb serial (c_primary c) || String.eqb serial "" then (if String.eqb (c_hw c) "Unknown" then None else Some (c_hw c))
  else aget serial (c_secs c).

(** sqlstorage.cc:1400-1439 loadEcuInstallationResults: the join, in the order of ecus. None: false. *)
Definition joined {A} (ecus : list (string * string)) (t : list (string * A)) : list (string * A) :=
  flat_map (fun e => match aget (fst e) t with Some r => [(fst e, r)] | None => [] end) ecus.
Fixpoint of_rows (l : list (string * row)) : res (list (string * ires)) :=
  match l with [] => Ok [] | (s, r) :: l' => do x <- of_row r; do y <- of_rows l'; Ok ((s, x) :: y) end.
Definition load_eres (d : dev) : res (option (list (string * ires))) :=
  match joined (v_ecus d) (v_eres d) with [] => Ok None | l => do x <- of_rows l; Ok (Some x) end.
(** 1386-1398, INSERT OR REPLACE *)
Definition save_eres (serial : string) (r : ires) (d : dev) : res dev :=
  do w <- to_row r;
  Ok {| v_ecus := v_ecus d; v_eres := aset serial w (v_eres d); v_dres := v_dres d; v_cnt := v_cnt d; v_cache := v_cache d; v_pending := v_pending d |}.

(** sotauptaneclient.cc:444-479: the loop; result so far, error text, description of the last result. *)
Definition join_err (acc item : string) : string := append acc (append (if String.eqb acc "" then "" else "|") item).
Fixpoint result_loop (c : client) (l : list (string * ires)) (cur : ires) (raw err : string) : res (ires * string * string) :=
  match l with
  | [] => Ok (cur, raw, err)
  | (serial, r) :: l' =>
      match ecu_hw c serial with
      | None => Ok (mk_ires (num kInternalError) "Unable to get installation results from ECUs",
                    append "Failed to find an ECU with the given serial: " serial, err)
      | Some hw =>
          do nc <- need_completion r;
          if nc : bool then
            let m := append "ECU needs completion/finalization to be installed: " serial in
            Ok (mk_ires (num kNeedCompletion) m, m, err)
          else if ir_success r then result_loop c l' cur raw err
          else do s <- rc_string (ir_code r); result_loop c l' cur raw (join_err err (append hw (String ":" s)))
      end
  end.
(** 425-495 *)
Definition device_result (c : client) (d : dev) : res (ires * string) :=
  do l <- load_eres d;
  match l with
  | None => Ok (mk_ires (num kInternalError) "Unable to get installation results from ECUs", "Failed to load ECU installation results")
  | Some l =>
      do x <- result_loop c l (mk_ires (num kOk) "Device has been successfully installed") "Installation succesful" "";
      let '(cur, raw, err) := x in
      if String.eqb err "" then Ok (cur, raw)
      else Ok (mk_ires {| rc_num := kInstallFailed; rc_text := err |} "Installation failed on one or more ECUs", "Installation failed on one or more ECUs")
  end.

(** ** Manifests *)
Section Manifest.
(** [savec]: jsonToCanonicalStr, [loadc]: Utils::parseJSON. [verifies serial m]: m has a signature that the public key of
    the Secondary verifies (manifest.cc:43-50); false also if that throws. *)
Context (savec : json -> string) (loadc : string -> json) (verifies : string -> json -> bool).
Definition is_empty_json (j : json) : bool := match j with JNull | JArr [] | JObj [] => true | _ => false end.
(** sotauptaneclient.cc:262-301. [answers serial]: what getManifest returns; JNull if it throws. *)
Fixpoint sec_versions (secs : list (string * string)) (answers : string -> json) (cache : list (string * string)) : list (string * json) * list (string * string) :=
  match secs with
  | [] => ([], cache)
  | (s, _) :: secs' =>
      let a := answers s in
      let next cache' vs := let '(l, c) := sec_versions secs' answers cache' in (vs ++ l, c) in
      if is_empty_json a then
        match aget s cache with
        | Some txt => let m := loadc txt in if verifies s m then next cache [(s, m)] else next cache []
        | None => next cache []
        end
      else if verifies s a then next (aset s (savec a) cache) [(s, a)] else next cache []
  end.
(** The installation report of a manifest (305-337): the device result (success, code, description), raw report,
    correlation id and the results of the ECUs. *)
Definition res_json := (bool * string * string)%type.
Definition to_res_json (r : ires) : res res_json := do s <- rc_string (ir_code r); Ok (ir_success r, s, ir_desc r).
Record report := { rp_result : res_json; rp_raw : string; rp_corr : string; rp_items : list (string * res_json) }.
Fixpoint report_items (l : list (string * ires)) : res (list (string * res_json)) :=
  match l with [] => Ok [] | (s, r) :: l' => do x <- to_res_json r; do y <- report_items l'; Ok ((s, x) :: y) end.
Definition make_report (d : dev) : res (option report) :=
  match v_dres d with
  | None => Ok None
  | Some (w, raw, corr) =>
      do r <- of_row w; do j <- to_res_json r; do l <- load_eres d;
      do items <- report_items (match l with Some x => x | None => [] end);
      Ok (Some {| rp_result := j; rp_raw := raw; rp_corr := corr; rp_items := items |})
  end.
Record manifest := { m_counter : option Z; m_versions : list (string * json); m_report : option report }.
Definition with_cnt (d : dev) (t : list (string * Z)) : dev :=
  {| v_ecus := v_ecus d; v_eres := v_eres d; v_dres := v_dres d; v_cnt := t; v_cache := v_cache d; v_pending := v_pending d |}.
Definition with_cache (d : dev) (t : list (string * string)) : dev :=
  {| v_ecus := v_ecus d; v_eres := v_eres d; v_dres := v_dres d; v_cnt := v_cnt d; v_cache := t; v_pending := v_pending d |}.
(** 241-341. [saved]: the new counter could be written (a failure is only logged, sqlstorage.cc:1519-1522). If a stored
    result cannot be read back the exception leaves the function after the counter was written. dropTargets (315) is not
    part of this model. *)
Definition assemble (c : client) (answers : string -> json) (saved : bool) (d : dev) : dev * res manifest :=
  let '(cnt, d1) := match joined (v_ecus d) (v_cnt d) with
                    | [] => (None, d)
                    | (s, n) :: _ => (Some (n + 1), if saved then with_cnt d (aset s (n + 1) (v_cnt d)) else d)
                    end in
  let '(vs, cache) := sec_versions (c_secs c) answers (v_cache d1) in
  let d2 := with_cache d1 cache in
  (d2, do r <- make_report d2; Ok {| m_counter := cnt; m_versions := vs; m_report := r |}).
(** sqlstorage.cc:1617-1633, one transaction *)
Definition clear_results (d : dev) : dev :=
  {| v_ecus := v_ecus d; v_eres := []; v_dres := None; v_cnt := v_cnt d; v_cache := v_cache d; v_pending := v_pending d |}.

(** Operations and crash points. [DStoreComputed]: end of uptaneInstall and of finalizeAfterReboot; [DStore]: results of
    an install that did not get that far. [DManifest ok crash saved answers]: putManifestSimple with an answer of the
    server; [crash]: the process dies after the answer, before the results are cleared. A manifest that is lost before it
    reaches the server, because of a crash or otherwise, is one with [ok = false]. *)
Inductive dop := DEcu (serial : string) (r : ires) | DStoreComputed (corr : string) | DStore (r : ires) (raw corr : string)
  | DPending (b : bool) | DManifest (ok crash saved : bool) (answers : string -> json).
Inductive dev_ev := VStored (r : ires) (raw corr : string) | VEcu (serial : string) (r : ires) | VSent (m : manifest) (ok : bool) (answers : string -> json) | VCleared.
Definition store_dres (r : ires) (raw corr : string) (d : dev) : dev * list dev_ev :=
  match to_row r with
  | Ok w => ({| v_ecus := v_ecus d; v_eres := v_eres d; v_dres := Some (w, raw, corr); v_cnt := v_cnt d; v_cache := v_cache d; v_pending := v_pending d |},
             [VStored r raw corr])
  | Throw _ => (d, [])
  end.
Definition dstep (c : client) (d : dev) (o : dop) : dev * list dev_ev :=
  match o with
  | DEcu s r => match save_eres s r d with Ok d' => (d', [VEcu s r]) | Throw _ => (d, []) end
  | DStore r raw corr => store_dres r raw corr d
  | DStoreComputed corr => match device_result c d with Ok (r, raw) => store_dres r raw corr d | Throw _ => (d, []) end
  | DPending b => ({| v_ecus := v_ecus d; v_eres := v_eres d; v_dres := v_dres d; v_cnt := v_cnt d; v_cache := v_cache d; v_pending := b |}, [])
  | DManifest ok crash saved answers =>
      if v_pending d then (d, [])
      else match assemble c answers saved d with
           | (d1, Throw _) => (d1, [])
           | (d1, Ok m) => if ok && negb crash then (clear_results d1, [VSent m ok answers; VCleared]) else (d1, [VSent m ok answers])
           end
  end.
Fixpoint drun (c : client) (d : dev) (ops : list dop) : dev * list dev_ev :=
  match ops with [] => (d, []) | o :: ops' => let '(d1, e1) := dstep c d o in let '(d2, e2) := drun c d1 ops' in (d2, e1 ++ e2) end.
End Manifest.
Definition dev_init (ecus : list (string * string)) (cnt : list (string * Z)) : dev :=
  {| v_ecus := ecus; v_eres := []; v_dres := None; v_cnt := cnt; v_cache := []; v_pending := false |}.
