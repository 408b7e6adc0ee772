(** Specification of installation results, their report and the manifest. *)
From Verif Require Import Base Json CodecModel CodecSpec DevModel.

(** ** The result of the device *)
Definition waits (r : ires) : Prop := rc_num (ir_code r) = kNeedCompletion /\ (rc_text (ir_code r) = "" \/ rc_text (ir_code r) = "NEED_COMPLETION").
Definition succeeded (r : ires) : Prop := ir_success r = true /\ ~ waits r.
Definition known (c : client) (serial : string) : Prop := exists hw, ecu_hw c serial = Some hw.
(** The text shown for a code. *)
Definition code_text (r : ires) : string := match rc_string (ir_code r) with Ok s => s | Throw _ => "" end.
Definition hw_text (c : client) (serial : string) : string := match ecu_hw c serial with Some h => h | None => "" end.
(** hardware id and code of every failed ECU, in order *)
Definition failures (c : client) (l : list (string * ires)) : list string :=
  map (fun e => append (hw_text c (fst e)) (String ":" (code_text (snd e)))) (filter (fun e => negb (ir_success (snd e))) l).
(** Every code has a text. *)
Definition codes_ok (l : list (string * ires)) : Prop := Forall (fun e => exists s, rc_string (ir_code (snd e)) = Ok s) l.

(** ** Histories *)
Definition shown (r : ires) : res_json := (ir_success r, code_text r, ir_desc r).
(** What was stored and not cleared since. *)
Definition outstanding (h : list dev_ev) : option (ires * string * string) :=
  fold_left (fun acc (e : dev_ev) => match e with VStored r raw corr => Some (r, raw, corr) | VCleared => None | _ => acc end) h None.
Definition outstanding_ecu (s : string) (h : list dev_ev) : option ires :=
  fold_left (fun acc (e : dev_ev) => match e with VEcu s' r => if String.eqb s s' then Some r else acc | VCleared => None | _ => acc end) h None.
(** The results outstanding after a history, in the order of the ECUs. *)
Definition outstanding_list (ecus : list (string * string)) (h : list dev_ev) : list (string * ires) :=
  flat_map (fun e => match outstanding_ecu (fst e) h with Some r => [(fst e, r)] | None => [] end) ecus.
(** The report that has to be in a manifest after the history [h]. *)
Definition due_report (ecus : list (string * string)) (h : list dev_ev) : option report :=
  match outstanding h with
  | None => None
  | Some (r, raw, corr) =>
      Some {| rp_result := shown r; rp_raw := raw; rp_corr := corr;
              rp_items := flat_map (fun e => match outstanding_ecu (fst e) h with Some x => [(fst e, shown x)] | None => [] end) ecus |}
  end.
(** C++ ints *)
Definition ints (o : dop) : Prop := match o with DEcu _ r | DStore r _ _ => int32 (rc_num (ir_code r)) | _ => True end.
Definition writes_ok (o : dop) : Prop := match o with DManifest _ _ saved _ => saved = true | _ => True end.

(** The last version report of a Secondary in a manifest. *)
Definition last_version (s : string) (h : list dev_ev) : option json :=
  fold_left (fun acc (e : dev_ev) => match e with VSent m _ _ => match aget s (m_versions m) with Some j => Some j | None => acc end | _ => acc end) h None.
