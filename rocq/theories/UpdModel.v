(** Installing an update on all ECUs: /repo/src/libaktualizr/primary/sotauptaneclient.cc:38-57, 110-134 (PackageInstallSetResult),
    957-1071 (uptaneInstall), 1157-1208 (waitSecondariesReachable), 1221-1392 (rotateSecondaryRoot, sendMetadataToEcus,
    sendFirmwareAsync, sendImagesToEcus), 1398-1450 (checkAndUpdatePendingSecondaries), 816-843 (fetchMeta, up to the update check).
    It builds on the models of the offline check (ClientModel), the versions table (InstModel) and the results tables (DevModel).
    Simplifications: the texts of exceptions are dropped; events to the API's listeners (sendEvent) are left out; the results of
    concurrent installations are collected after all of them have ended (collecting earlier only makes some writes earlier). *)
From Verif Require Import Base Json TufModel MetaStore RepoModel CodecModel InstModel DevModel ClientModel.

(** What can be seen of the Primary: its calls of ECUs with the answers, the reports it queues, and its writes to the
    tables of versions and results. *)
Inductive uev :=
| UPing (ecu : string)                                        (* a Secondary answers a ping *)
| URootVersion (ecu : string) (rp : repo) (v : Z)             (* getRootVersion *)
| UPutRoot (ecu : string) (rp : repo) (v : Z) (root : string) (ok : bool)
| UPutMeta (ecu : string) (t : target) (ok : bool)
| UPmInstall (t : target) (r : ires)                          (* the package manager of the Primary installs *)
| USend (ecu : string) (t : target) (ok : bool)               (* sendFirmware *)
| UInstall (ecu : string) (t : target) (r : ires)             (* install of a Secondary *)
| UStarted (ecu corr : string) | UApplied (ecu corr : string) | UCompleted (ecu corr : string) (ok : bool)
| UVersion (ecu : string) (t : target) (m : imode)            (* saveInstalledVersion *)
| UEcuRes (ecu : string) (r : ires)                           (* saveEcuInstallationResult *)
| UDevRes (r : ires) (raw corr : string)                      (* storeDeviceInstallationResult *)
| UManifest (ecu : string) (m : json)                         (* getManifest of a Secondary *)
| UNull.                                                      (* a call through a null pointer: undefined behaviour *)

(** The vehicle: the Primary's serial and hardware id, the Secondaries (std::map, by serial) and the package manager. *)
Record primary := { pr_serial : string; pr_hw : string; pr_secs : list (string * string); pr_ostree : bool }.
(** Everything outside: the package manager, the Secondaries. Answers may depend on all that happened before. *)
Record world := {
  e_verify : target -> res bool;                              (* verifyTarget(t) == TargetStatus::kGood *)
  e_pings : list (string -> bool);                            (* who answers in each round before the deadline *)
  e_rootver : list uev -> string -> repo -> res Z;
  e_putroot : list uev -> string -> repo -> string -> res ires;
  e_putmeta : list uev -> string -> target -> res ires;
  e_pm : target -> res ires;
  e_send : nat -> res ires; e_install : nat -> res ires;      (* answers to the n-th parallel task *)
  e_sched : list nat;                                         (* which task makes the next step *)
  e_manifest : list uev -> string -> res json }.

(** Memory and storage of the Primary, and what has happened. *)
Record pst := { p_ust : ust; p_idb : idb; p_dev : dev; p_tr : list uev }.
Definition PM (A : Type) := pst -> pst * res A.
Definition pret {A} (a : A) : PM A := fun s => (s, Ok a).
Definition pthrow {A} (e : exn) : PM A := fun s => (s, Throw e).
Definition pbind {A B} (m : PM A) (k : A -> PM B) : PM B := fun s => match m s with (s', Ok a) => k a s' | (s', Throw e) => (s', Throw e) end.
Definition plift {A} (r : res A) : PM A := fun s => (s, r).
Definition pgets {A} (f : pst -> A) : PM A := fun s => (s, Ok (f s)).
Notation "'let!' x := m 'in' k" := (pbind m (fun x => k)) (at level 200, x name, m at level 100, k at level 200, right associativity).
Notation "m !; k" := (pbind m (fun _ => k)) (at level 100, k at level 200, right associativity).
Definition pust {A} (m : M A) : PM A :=
  fun s => let (u, r) := m (p_ust s) in ({| p_ust := u; p_idb := p_idb s; p_dev := p_dev s; p_tr := p_tr s |}, r).

Section Upd.
Context (savec : json -> string) (loadc : string -> option json) (E : Env) (fnm : string -> string -> bool) (verifies : string -> json -> bool).
(** The effect of an event on the tables. *)
Definition ev_idb (d : idb) (e : uev) : idb := match e with UVersion s t m => save_installed savec s t m d | _ => d end.
Definition ev_dev (d : dev) (e : uev) : dev :=
  match e with
  | UEcuRes s r => match save_eres s r d with Ok d' => d' | Throw _ => d end
  | UDevRes r raw corr => fst (store_dres r raw corr d)
  | _ => d
  end.
Definition tell (e : uev) : PM unit :=
  fun s => ({| p_ust := p_ust s; p_idb := ev_idb (p_idb s) e; p_dev := ev_dev (p_dev s) e; p_tr := p_tr s ++ [e] |}, Ok tt).
(** Storing a result converts its code to text first, which may throw. *)
Definition save_result (ecu : string) (r : ires) : PM unit := let! _ := plift (to_row r) in tell (UEcuRes ecu r).
Definition save_device (r : ires) (raw corr : string) : PM unit := let! _ := plift (to_row r) in tell (UDevRes r raw corr).

Context (P : primary) (W : world).
Definition vehicle_of (d : idb) : vehicle :=
  {| v_primary := pr_serial P; v_primary_hw := pr_hw P; v_secondaries := pr_secs P;
     v_installed := fun s => do x <- load_installed loadc s d; Ok (Some (fst x)); v_ostree := pr_ostree P;
     ClientModel.v_pending := has_pending d |}.
Definition client_of : client := {| c_primary := pr_serial P; c_hw := pr_hw P; c_secs := pr_secs P |}.
Definition is_sec (ecu : string) : bool := match aget ecu (pr_secs P) with Some _ => true | None => false end.
Definition is_prim (ecu : string) : bool := String.eqb ecu (pr_serial P).
Definition for_ecu (t : target) (ecu : string) : bool := match aget ecu (t_ecus t) with Some _ => true | None => false end.
(** 38-47 findForEcu *)
Definition find_for_ecu (ts : list target) (ecu : string) : list target := filter (fun t => for_ecu t ecu) ts.
Definition set_corr (t : target) (c : string) : target :=
  {| t_valid := t_valid t; t_filename := t_filename t; t_type := t_type t; t_ecus := t_ecus t; t_hashes := t_hashes t;
     t_hwids := t_hwids t; t_custom := t_custom t; t_length := t_length t; t_corr := c; t_uri := t_uri t |}.
(** director_repo.getCorrelationId() *)
Definition corr_id : PM string := pgets (fun s => tg_corr (u_dtargets (p_ust s))).
(** An answer, or the result made from an exception. *)
Definition or_internal (r : res ires) : ires := match r with Ok x => x | Throw _ => mk_ires (num kInternalError) "" end.

(** 985-998: the downloaded images. *)
Fixpoint recheck_images (ts : list target) : PM bool :=
  match ts with
  | [] => pret true
  | t :: ts' => if for_ecu t (pr_serial P) || negb (is_ostree t)
                then let! g := plift (e_verify W t) in if g : bool then recheck_images ts' else pret false
                else recheck_images ts'
  end.
(** 1158-1173: the Secondaries that have to answer. *)
Definition targeted (ts : list target) : list string :=
  nodup string_dec (filter (fun e => negb (is_prim e) && is_sec e) (map fst (flat_map t_ecus ts))).
(** 1181-1202: every round asks those that have not answered; the deadline is looked at before a round only. *)
Fixpoint tell_all (l : list uev) : PM unit := match l with [] => pret tt | e :: l' => tell e !; tell_all l' end.
Fixpoint wait_rounds (rounds : list (string -> bool)) (left : list string) : PM bool :=
  match rounds with
  | [] => pret false
  | up :: rounds' => match left with
                     | [] => pret true
                     | _ => tell_all (map UPing (filter up left)) !; wait_rounds rounds' (filter (fun e => negb (up e)) left)
                     end
  end.
Definition wait_reachable (ts : list target) : PM bool :=
  match targeted ts with [] => pret true | l => wait_rounds (e_pings W) l end.

(** 1238-1257: Root by Root. *)
Context (srv : server).
Fixpoint send_roots (n : nat) (v : Z) (ecu : string) (rp : repo) (last : ires) : PM ires :=
  match n with
  | O => pret last
  | S n' =>
      let! stored := (fun s => (s, load_root rp v (u_db (p_ust s)))) in
      match (match stored with Some r => Some r | None => match srv rp "root" v with Ok r => Some r | Throw _ => None end end) with
      | None => pret (mk_ires (num kInternalError) "Root metadata could not be fetched, skipping to the next Secondary")
      | Some root =>
          let! tr := pgets p_tr in
          let r := or_internal (e_putroot W tr ecu rp root) in
          tell (UPutRoot ecu rp v root (ir_success r)) !;
          if ir_success r then send_roots n' (v + 1) ecu rp r else pret r
      end
  end.
(** 1221-1260. Reading storage and getRootVersion are outside of the try blocks. *)
Definition rotate_root (rp : repo) (ecu : string) : PM ires :=
  let! latest := (fun s => (s, load_latest_root rp (u_db (p_ust s)))) in
  match latest with
  | None => pret (mk_ires (num kInternalError) "Error reading Root metadata")
  | Some raw =>
      let! last := plift (extract_version_untrusted E raw) in
      let! tr := pgets p_tr in
      let! sv := plift (e_rootver W tr ecu rp) in
      tell (URootVersion ecu rp sv) !;
      if (0 <? sv) && (1 <? last - sv) then send_roots (Z.to_nat (last - sv)) (sv + 1) ecu rp (mk_ires (num kOk) "")
      else pret (mk_ires (num kOk) "")
  end.
(** 1277-1298: one ECU of one target. *)
Definition send_metadata_one (t : target) (ecu : string) : PM ires :=
  let! r := rotate_root Director ecu in
  if negb (ir_success r) then pret r else
  let! r := rotate_root Image ecu in
  if negb (ir_success r) then pret r else
  let! tr := pgets p_tr in
  let r := or_internal (e_putmeta W tr ecu t) in
  tell (UPutMeta ecu t (ir_success r)) !; pret r.
(** 1268-1306: the text that lists the failures. *)
Fixpoint send_metadata (l : list (target * (string * string))) (err : string) : PM string :=
  match l with
  | [] => pret err
  | (t, (ecu, hw)) :: l' =>
      if is_sec ecu then
        let! r := send_metadata_one t ecu in
        if ir_success r then send_metadata l' err
        else let! c := plift (rc_string (ir_code r)) in send_metadata l' (join_err err (append hw (String ":" c)))
      else send_metadata l' err
  end.
Definition pairs (ts : list target) : list (target * (string * string)) := flat_map (fun t => map (fun e => (t, e)) (t_ecus t)) ts.
(** 1263-1317 *)
Definition send_metadata_to_ecus (ts : list target) : PM (option ires) :=
  let! err := send_metadata (pairs ts) "" in
  pret (if String.eqb err "" then None
        else Some (mk_ires {| rc_num := kVerificationFailed; rc_text := err |} "Sending metadata to one or more ECUs failed")).

(** 1319-1349: what one task does and its result. *)
Definition task_answers (i : nat) : res ires * option (res ires) :=
  match e_send W i with
  | Ok r => if ir_success r then (Ok r, Some (e_install W i)) else (Ok r, None)
  | Throw e => (Throw e, None)
  end.
Definition task_result (i : nat) : ires := match task_answers i with (_, Some r) => or_internal r | (r, None) => or_internal r end.
Definition task_events (i : nat) (corr ecu : string) (t : target) : list uev * res ires :=
  let r := task_result i in
  let calls := UStarted ecu corr :: USend ecu t (match e_send W i with Ok x => ir_success x | Throw _ => false end)
               :: match snd (task_answers i) with Some x => [UInstall ecu t (or_internal x)] | None => [] end in
  match need_completion r with
  | Ok true => (calls ++ [UApplied ecu corr], Ok r)
  | Ok false => (calls ++ [UCompleted ecu corr (ir_success r)], Ok r)
  | Throw e => (calls, Throw e)
  end.
(** Any interleaving of the tasks. *)
Fixpoint replace_nth {A} (i : nat) (x : A) (l : list A) : list A :=
  match l, i with [], _ => [] | _ :: l', O => x :: l' | y :: l', S i' => y :: replace_nth i' x l' end.
Fixpoint interleave (sched : list nat) (ts : list (list uev)) : list uev :=
  match sched with
  | [] => List.concat ts
  | i :: sched' => match nth_error ts i with Some (e :: rest) => e :: interleave sched' (replace_nth i rest ts) | _ => interleave sched' ts end
  end.
(** 1357-1375: the installations that are started. *)
Definition sec_pairs (ts : list target) : list (target * string) :=
  map (fun p => (fst p, fst (snd p))) (filter (fun p => negb (is_prim (fst (snd p))) && is_sec (fst (snd p))) (pairs ts)).
Fixpoint run_tasks (i : nat) (corr : string) (l : list (target * string)) : list (list uev * (target * string * res ires)) :=
  match l with [] => [] | (t, ecu) :: l' => let (evs, r) := task_events i corr ecu t in (evs, (t, ecu, r)) :: run_tasks (S i) corr l' end.
(** 1377-1391: collecting the results. *)
Definition ecu_report := (target * string * ires)%type.
Fixpoint collect (l : list (target * string * res ires)) : PM (list ecu_report) :=
  match l with
  | [] => pret []
  | (t, ecu, fr) :: l' =>
      let! r := plift fr in
      let! nc := plift (if ir_success r then Ok false else need_completion r) in
      let! corr := corr_id in
      let t' := if ir_success r || nc then set_corr t corr else t in
      (if ir_success r then tell (UVersion ecu t' ModeCurrent) else if nc : bool then tell (UVersion ecu t' ModePending) else pret tt) !;
      save_result ecu r !;
      let! rest := collect l' in
      pret ((t', ecu, r) :: rest)
  end.
(** 1351-1392 *)
Definition send_images (ts : list target) : PM (list ecu_report) :=
  let! corr := corr_id in
  let tasks := run_tasks 0 corr (sec_pairs ts) in
  tell_all (interleave (e_sched W) (map fst tasks)) !;
  collect (map snd tasks).

(** 49-57, 110-134 PackageInstallSetResult *)
Definition package_install (t : target) : PM ires :=
  let r := match e_pm W t with Ok x => x | Throw _ => mk_ires (num kInstallFailed) "" end in
  tell (UVersion (pr_serial P) t ModeNone) !;
  tell (UPmInstall t r) !;
  (if rc_num (ir_code r) =? kOk then tell (UVersion (pr_serial P) t ModeCurrent)
   else if rc_num (ir_code r) =? kNeedCompletion then tell (UVersion (pr_serial P) t ModePending)
   else pret tt) !;
  save_result (pr_serial P) r !;
  pret r.
(** 1021-1053: the Primary's own update. *)
Definition install_primary (ts : list target) : PM (list ecu_report) :=
  match find_for_ecu ts (pr_serial P) with
  | [] => pret []
  | u :: _ =>
      let! corr := corr_id in
      let t := set_corr u corr in
      tell (UStarted (pr_serial P) corr) !;
      let! r := package_install t in
      (if rc_num (ir_code r) =? kNeedCompletion then tell (UApplied (pr_serial P) corr)
       else if rc_num (ir_code r) =? kOk then save_result (pr_serial P) r !; tell (UCompleted (pr_serial P) corr true)
       else save_result (pr_serial P) r !; tell (UCompleted (pr_serial P) corr false)) !;
      pret [(t, pr_serial P, r)]
  end.

(** 965-1063: the lambda; device result, raw report, reports of the ECUs. *)
Definition failure (c : Z) (d : string) : ires := {| ir_success := false; ir_code := num c; ir_desc := d |}.
Definition install_body (clkd clki : clock) (now : string -> string) (ts : list target) : PM (ires * string * list ecu_report) :=
  let! d := pgets p_idb in
  let! oc := (fun s => match pust (check_updates_offline E fnm srv clkd clki now (vehicle_of d) ts) s with
                       | (s', Ok o) => (s', Ok o) | (s', Throw _) => (s', Ok OcError) end) in
  match oc with
  | OcNone => pret (failure kAlreadyProcessed "", "Stored Uptane metadata is invalid", [])
  | OcError => pret (failure kInternalError "", "Stored Uptane metadata is invalid", [])
  | OcAvailable =>
      let! good := recheck_images ts in
      if negb good then pret (failure kInternalError "", "Downloaded target is invalid", []) else
      let! up := wait_reachable ts in
      if negb up then pret (failure kInternalError "Unreachable Secondary", "Secondaries were not available", []) else
      let! m := send_metadata_to_ecus ts in
      match m with
      | Some r => pret (r, "Sending metadata to one or more ECUs failed", [])
      | None =>
          let! pr := install_primary ts in
          let! sr := send_images ts in
          let! dev := pgets p_dev in
          let! x := plift (device_result client_of dev) in
          pret (fst x, snd x, pr ++ sr)
      end
  end.
(** 957-1071: the device's result is stored, whatever it is, unless an exception got here. *)
Definition uptane_install (clkd clki : clock) (now : string -> string) (ts : list target) : PM (ires * list ecu_report) :=
  let! x := install_body clkd clki now ts in
  let '(r, raw, reports) := x in
  let! corr := corr_id in
  save_device r raw corr !; pret (r, reports).

(** ** Pending updates of Secondaries *)
(** manifest.cc:16-23; an absent member reads as null, whose text is empty; a value of another kind makes the conversion or
    operator[] throw (Json.v), which gives a hash of no known algorithm. *)
Definition installed_image_hash (m : json) : hash :=
  match (do a <- jget "signed" m; do b <- jget "installed_image" a; do c <- jget "fileinfo" b; do d <- jget "hashes" c;
         do e <- jget "sha256" d; jas_string e) with
  | Ok s => mk_hash_t Sha256 s
  | Throw _ => mk_hash_t HUnknown ""
  end.
(** 1403-1449: one pending ECU; every "continue" is [pret tt]. *)
Definition check_one (ecu : string) (h : hash) : PM unit :=
  if is_prim ecu then pret tt
  else if negb (is_sec ecu) then tell UNull !; pthrow EStd
  else
    let! tr := pgets p_tr in
    match e_manifest W tr ecu with
    | Throw _ => pret tt
    | Ok m =>
        tell (UManifest ecu m) !;
        if is_empty_json m then pret tt
        else if negb (verifies ecu m) then pret tt
        else if hash_eqb h (installed_image_hash m) then
          let! d := pgets p_idb in
          let! x := plift (load_installed loadc ecu d) in
          (* load_installed is true always; the optional is dereferenced *)
          match snd x with
          | None => tell UNull !; pthrow EStd
          | Some t =>
              save_result ecu (mk_ires (num kOk) "") !;
              tell (UVersion ecu t ModeCurrent) !;
              tell (UCompleted ecu (t_corr t) true) !;
              let! dev := pgets p_dev in
              let! y := plift (device_result client_of dev) in
              save_device (fst y) (snd y) (t_corr t)
          end
        else pret tt
    end.
(** 1398-1450 *)
Fixpoint check_pending (l : list (string * hash)) : PM unit :=
  match l with [] => pret tt | (ecu, h) :: l' => check_one ecu h !; check_pending l' end.
Definition check_pending_secondaries : PM unit :=
  let! l := (fun s => (s, pending_ecus (il_log (p_idb s)))) in check_pending l.
(** 816-843: true: the Director is asked for updates; false: an update is pending. *)
Definition fetch_meta : PM bool :=
  let! d := pgets p_idb in
  (if has_pending d then check_pending_secondaries else pret tt) !;
  let! d := pgets p_idb in
  pret (negb (has_pending d)).
End Upd.
