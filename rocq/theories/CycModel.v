(** One update cycle: /repo/src/libaktualizr/primary/aktualizr.cc:38-73 (UptaneCycle) with
    primary/sotauptaneclient.cc:630-682 (downloadImages), 694-756 (downloadImage), 816-843 (fetchMeta), 845-907 (checkUpdates),
    1102-1110 (isInstallCompletionRequired), 1118-1148 (putManifestSimple), 1210-1217 (storeInstallationFailure), 312-314.
    It puts together the models of the update check, of downloads, of the installation and of manifests.
    Simplifications: commands of other threads do not run between the steps of a cycle; events to the API's listeners and
    reports of network and hardware information are left out; custom manifest data is not sent. *)
From Verif Require Import Base Json TufModel MetaStore RepoModel CodecModel DlModel InstModel DevModel ClientModel UpdModel.

(** What can be seen of a cycle besides the events of the installation: download reports, the end of each download, manifests
    sent with the answer, deletion of the stored Director metadata. *)
Inductive cev :=
| CDlStarted (ecu corr : string) | CFetched (t : target) (ok : bool) | CDlCompleted (ecu corr : string) (ok : bool)
| CManifest (m : manifest) (accepted : bool) | CDropped
| CUndefined | CRunning.                   (* undefined behaviour (null token); a download that never ends *)
(** Memory and storage: that of [pst], and the images. *)
Record cst := { y_p : pst; y_dl : dstate; y_ev : list cev }.
Definition CM (A : Type) := cst -> cst * res A.
Definition cret {A} (a : A) : CM A := fun s => (s, Ok a).
Definition cthrow {A} (e : exn) : CM A := fun s => (s, Throw e).
Definition cbind {A B} (m : CM A) (k : A -> CM B) : CM B := fun s => match m s with (s', Ok a) => k a s' | (s', Throw e) => (s', Throw e) end.
Notation "'let#' x := m 'in' k" := (cbind m (fun x => k)) (at level 200, x name, m at level 100, k at level 200, right associativity).
Notation "m #; k" := (cbind m (fun _ => k)) (at level 100, k at level 200, right associativity).
Definition cpst {A} (m : PM A) : CM A := fun s => let (p, r) := m (y_p s) in ({| y_p := p; y_dl := y_dl s; y_ev := y_ev s |}, r).
Definition ctell (e : cev) : CM unit := fun s => ({| y_p := y_p s; y_dl := y_dl s; y_ev := y_ev s ++ [e] |}, Ok tt).
Definition ctell_all (l : list cev) : CM unit := fun s => ({| y_p := y_p s; y_dl := y_dl s; y_ev := y_ev s ++ l |}, Ok tt).
(** try { m } catch (const std::exception &) { h } *)
Definition ctry {A} (m : CM A) (h : CM A) : CM A := fun s => match m s with (s', Throw _) => h s' | r => r end.

(** Clocks of one verification of metadata. *)
Record times := { t_dir : clock; t_img : clock; t_deleg : string -> string }.
(** Everything outside, during one cycle. *)
Record cworld := {
  x_srv : server;
  x_check : times; x_before_download : times; x_before_install : times;
  x_keys : nat -> bool;                              (* loading keys works for the n-th target *)
  x_fetch : nat -> nat -> DlModel.world * bool;      (* target, attempt; whether the token allows to continue *)
  x_pull : nat -> nat -> bool * bool;                (* the same for OSTree *)
  x_fuel : nat;                                      (* transfers of one attempt *)
  x_verify : DlModel.world;                          (* reading the files again *)
  x_commit : target -> res bool;                     (* the OSTree commit is there *)
  x_upd : UpdModel.world;                            (* ECUs *)
  x_answers : nat -> string -> json;                 (* manifests of the Secondaries, for the n-th manifest *)
  x_saved : nat -> bool; x_accepted : nat -> bool }.

Section Cyc.
Context (savec : json -> string) (loadc : string -> option json) (loadm : string -> json) (E : Env)
  (fnm : string -> string -> bool) (verifies : string -> json -> bool).
Context (P : primary) (force : bool).       (* config.uptane.force_install_completion *)
Context (W : cworld).

(** directorrepository.cc:140-147; clearing the tables does not throw Uptane exceptions. *)
Definition drop_targets : CM unit := cpst (pust director_drop_targets) #; ctell CDropped.
(** 1210-1217 *)
Definition store_failure (c : Z) (text : string) : CM unit :=
  let# corr := cpst corr_id in
  cpst (save_device savec (mk_ires (num c) text) "" corr) #;
  drop_targets.

(** ** Manifests *)
(** 310-314: the stored result that makes AssembleManifest delete the Director's Targets. *)
Definition failed_result (d : dev) : bool :=
  match v_dres d with
  | None => false
  | Some (w, _, _) => match of_row w with
                      | Ok r => if ir_success r then false else match need_completion r with Ok b => negb b | Throw _ => false end
                      | Throw _ => false
                      end
  end.
Definition set_dev_p (d : dev) (s : cst) : cst :=
  {| y_p := {| p_ust := p_ust (y_p s); p_idb := p_idb (y_p s); p_dev := d; p_tr := p_tr (y_p s) |}; y_dl := y_dl s; y_ev := y_ev s |}.
(** 1118-1148 *)
Definition put_manifest (n : nat) : CM bool :=
  fun s =>
    if has_pending (p_idb (y_p s)) then (s, Ok false)
    else
      let (d1, rm) := assemble savec loadm verifies (client_of P) (x_answers W n) (x_saved W n) (p_dev (y_p s)) in
      let s1 := set_dev_p d1 s in
      ((if failed_result (p_dev (y_p s)) then drop_targets else cret tt) #;
       fun s2 => match rm with
                 | Throw e => (s2, Throw e)
                 | Ok m => (ctell (CManifest m (x_accepted W n)) #;
                            fun s3 => if x_accepted W n then (set_dev_p (clear_results (p_dev (y_p s3))) s3, Ok true) else (s3, Ok false)) s2
                 end) s1.

(** ** Checking for updates *)
(** 845-907; [ClientModel.check_updates] with the recording of a failure of the comparison. *)
Definition check_updates_c : CM update_check :=
  let T := x_check W in
  let# it := ctry (let# d := cpst (pgets p_idb) in
                   let# p := cpst (pust (uptane_iteration E (x_srv W) (t_dir T) (t_img T) (vehicle_of loadc P d))) in cret (Some p)) (cret None) in
  match it with
  | None => cret UcError
  | Some (updates, count) =>
      let# stored := cpst (fun s => (s, load_nonroot Director RTargets (u_db (p_ust s)))) in
      match stored with
      | None => cret UcError
      | Some _ =>
          if nilb updates then cret UcNone
          else ctry (let# l := cpst (pust (confirm_with_image E fnm (x_srv W) (t_deleg T) updates)) in cret (UcUpdates l count))
                    (store_failure kVerificationFailed "Metadata verification failed." #; cret UcError)
      end
  end.
(** 816-843 *)
Definition fetch_meta_c : CM update_check :=
  let# go := cpst (fetch_meta savec loadc verifies P (x_upd W)) in
  if go : bool then put_manifest 0 #; check_updates_c else cret UcError.

(** ** Downloading *)
(** 716-736: at most three attempts. *)
Fixpoint pull_tries (l : list (bool * bool)) : bool :=
  match l with [] => false | (ok, goon) :: l' => if ok then true else if goon : bool then pull_tries l' else false end.
(** 703-745; [fetchTarget] of the fake package manager refuses OSTree targets (packagemanagerfake.cc:116-119), that of
    OSTree pulls them (ostreemanager.cc:261-269). Exceptions, and the one thrown after the last attempt, are caught. *)
Definition fetch_one (i : nat) (t : target) : CM bool :=
  if for_ecu t (pr_serial P) || negb (is_ostree t) then
    if negb (x_keys W i) then cret false
    else if is_ostree t then cret (pr_ostree P && pull_tries (map (x_pull W i) [0%nat; 1%nat; 2%nat]))
    else fun s => match fetch_tries E (x_fuel W) (map (x_fetch W i) [0%nat; 1%nat; 2%nat]) t (y_dl s) with
                  | (r, d) => let s' := {| y_p := y_p s; y_dl := d; y_ev := y_ev s |} in
                              match r with
                              | FTrue => (s', Ok true)
                              | FFalse => (s', Ok false)
                              | FUndefined => (ctell CUndefined #; cthrow EStd) s'
                              | FRunning => (ctell CRunning #; cthrow EStd) s'
                              end
                  end
  else cret (x_keys W i).
(** 694-756 *)
Definition download_image (i : nat) (t : target) : CM bool :=
  let# corr := cpst corr_id in
  ctell_all (map (fun e => CDlStarted (fst e) corr) (t_ecus t)) #;
  let# ok := fetch_one i t in
  ctell (CFetched t ok) #;
  ctell_all (map (fun e => CDlCompleted (fst e) corr ok) (t_ecus t)) #;
  cret ok.
Fixpoint download_loop (i : nat) (ts : list target) : CM (list target) :=
  match ts with
  | [] => cret []
  | t :: ts' => let# ok := download_image i t in
                let# rest := download_loop (S i) ts' in
                cret (if ok : bool then t :: rest else rest)
  end.
Inductive dstatus := DsSuccess | DsPartial | DsNothing | DsError.
(** 630-682 *)
Definition download_images (ts : list target) : CM (list target * dstatus) :=
  let T := x_before_download W in
  let# d := cpst (pgets p_idb) in
  let# oc := ctry (cpst (pust (check_updates_offline E fnm (x_srv W) (t_dir T) (t_img T) (t_deleg T) (vehicle_of loadc P d) ts))) (cret OcError) in
  match oc with
  | OcNone => cret ([], DsNothing)
  | OcError => store_failure kInternalError "Error rechecking stored metadata." #; cret ([], DsError)
  | OcAvailable =>
      let# done := download_loop 0 ts in
      if Nat.eqb (List.length ts) (List.length done) then cret (done, DsSuccess)
      else store_failure kDownloadFailed "Target download failed." #;
           cret (done, if nilb done then DsError else DsPartial)
  end.

(** ** Installing *)
(** verifyTarget on the stored images (packagemanagerinterface.cc:186-209, ostreemanager.cc:271-278). *)
Definition verify_image (d : dstate) (t : target) : res bool :=
  if is_ostree t && pr_ostree P then x_commit W t
  else match verify_target E (x_verify W) t d with Some SGood => Ok true | Some _ => Ok false | None => Throw EStd end.
Definition ecus_world (d : dstate) : UpdModel.world :=
  let U := x_upd W in
  {| e_verify := verify_image d; e_pings := e_pings U; e_rootver := e_rootver U; e_putroot := e_putroot U; e_putmeta := e_putmeta U;
     e_pm := e_pm U; e_send := e_send U; e_install := e_install U; e_sched := e_sched U; e_manifest := e_manifest U |}.
Definition install_c (ts : list target) : CM (ires * list ecu_report) :=
  let T := x_before_install W in
  fun s => cpst (uptane_install savec loadc E fnm P (ecus_world (y_dl s)) (x_srv W) (t_dir T) (t_img T) (t_deleg T) ts) s.
(** 1102-1110 *)
Definition completion_required : CM bool :=
  let# l := cpst (fun s => (s, pending_ecus (il_log (p_idb s)))) in
  cret (existsb (fun e => String.eqb (fst e) (pr_serial P)) l && force).

(** ** aktualizr.cc:38-73; false: the program is to end. *)
Definition uptane_cycle : CM bool :=
  let# u := fetch_meta_c in
  match u with
  | UcError => put_manifest 1 #; cret true
  | UcNone | UcUpdates [] _ => cret true
  | UcUpdates l _ =>
      let# x := download_images l in
      match x with
      | (u :: us, DsSuccess) =>
          let# r := install_c (u :: us) in
          let# stop := completion_required in
          if stop : bool then cret false
          else let# d := cpst (pgets p_idb) in
               (if has_pending d then cret true else put_manifest 1) #; cret true
      | (_, DsNothing) => cret true
      | _ => put_manifest 1 #; cret true
      end
  end.
End Cyc.
