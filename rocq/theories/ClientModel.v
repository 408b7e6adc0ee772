(** The Primary's update check: delegation search, selection of new targets, online and offline checks.
    Models /repo/src/libaktualizr/uptane/iterator.cc:5-56 and primary/sotauptaneclient.cc:390-423, 497-628, 758-955,
    1452-1466. *)
From Verif Require Import Base Json TufModel MetaStore RepoModel.

(** What the update check knows about the vehicle. *)
Record vehicle := {
  v_primary : string;                       (* primary_ecu_serial_ *)
  v_primary_hw : string;                    (* primary_ecu_hw_id_ *)
  v_secondaries : list (string * string);   (* secondaries: serial -> getHwId() *)
  v_installed : string -> res (option (option target));
    (* storage->loadInstalledVersions(serial, &current, nullptr): [Ok None] = returned false, [Ok (Some c)] = current *)
  v_ostree : bool;                          (* config.pacman.type == PACKAGE_MANAGER_OSTREE *)
  v_pending : bool                          (* hasPendingUpdates() *)
}.

(** sotauptaneclient.cc:1452-1466 getEcuHwId. *)
Definition get_ecu_hwid (v : vehicle) (serial : string) : option string :=
  if String.eqb serial (v_primary v) || String.eqb serial ""
  then if String.eqb (v_primary_hw v) "Unknown" then None else Some (v_primary_hw v)
  else aget serial (v_secondaries v).

(** sotauptaneclient.cc:503-558: the loop over the ECUs of one target; the result is (is_new, ecus_count). *)
Fixpoint scan_ecus (v : vehicle) (t : target) (ecus : list (string * string)) (is_new : bool) (count : Z) : res (bool * Z) :=
  match ecus with
  | [] => Ok (is_new, count)
  | (serial, hw) :: rest =>
      match get_ecu_hwid v serial with
      | None => Throw UBadEcuId
      | Some known =>
          if negb (String.eqb known hw) then Throw UBadHardwareId else
          do cur <- v_installed v serial;
          match cur with
          | None => Ok (is_new, count)                                 (* break *)
          | Some current =>
              do is_new' <- (match current with
                             | None => Ok true
                             | Some c => if match_target c t then Ok is_new
                                         else if String.eqb (t_filename c) (t_filename t) then Throw UTargetContentMismatch
                                         else Ok true
                             end);
              if String.eqb (v_primary v) serial && (negb (is_ostree t) && v_ostree v) then Throw UInvalidTarget else
              scan_ecus v t rest is_new' (if is_new' then count + 1 else count)
          end
      end
  end.
(** sotauptaneclient.cc:497-564 getNewTargets: (new_targets, ecus_count). *)
Fixpoint get_new_targets (v : vehicle) (ts : list target) (acc : list target) (count : Z) : res (list target * Z) :=
  match ts with
  | [] => Ok (acc, count)
  | t :: rest => do p <- scan_ecus v t (t_ecus t) false count;
                 get_new_targets v rest (if fst p then acc ++ [t] else acc) (snd p)
  end.

Definition kDelegationsMaxDepth : nat := 5. (* imagerepository.h:11 *)

Section Client.
Context (E : Env).
(** fnmatch(pattern, name, 0) == 0 of the C library. *)
Context (fnm : string -> string -> bool).

(** iterator.cc:5-56 getTrustedDelegation.  Delegations are fetched from the path "delegations/<name>" (fetcher.cc:7-19).
    Each delegation is fetched at most once per search: success stores it and failure ends the search.
    imagerepository.cc:176-192 verifyDelegation never returns nullptr (it throws). *)
Definition get_trusted_delegation (srv : server) (offline : bool) (name : string) (parent : targets) : M targets :=
  let* sn := gets u_isnap in
  let vsnap := role_version sn name in
  let* ld := gets (fun s => load_delegation name (u_db s)) in
  let* stored := lift ld in
  let* local := (match stored with
    | None => ret ""
    | Some raw =>
        let* ver := lift (extract_version_untrusted E raw) in
        if vsnap <? ver then throw USecurity
        else if ver <? vsnap then (write (delete_delegation name) ;; ret "")
        else ret raw
    end) in
  let remote := String.eqb local "" in
  let* raw := (if remote
    then if offline then throw UDelegationMissing
         else match srv Image (append "delegations/" name) (-1) with Ok raw => ret raw | Throw _ => throw UDelegationMissing end
    else ret local) in
  (match verify_role_hashes E sn raw name with Ok _ => ret tt | Throw _ => throw UDelegationHashMismatch end) ;;
  let* t := lift (targets_of_json_signed E (unpack_signed E (tg_ks parent)) {| r_kind := RDelegation; r_name := name |} (parse E raw)) in
  (if remote then
     guard (negb (tg_version t =? vsnap)) UVersionMismatch ;; write (store_delegation raw name)
   else ret tt) ;;
  ret t.

(** sotauptaneclient.cc:566-618 findTargetHelper; [fuel] = kDelegationsMaxDepth - level.
    [now] is TimeStamp::Now() at the expiry check of a role; simplification: it depends on the role name only.
    Role::Delegation(delegate_name) throws for reserved names. *)
Fixpoint find_target_helper (srv : server) (now : string -> string) (offline : bool) (q : target)
    (fuel : nat) (terminating : bool) (cur : targets) : M (option target) :=
  match find (fun t => match_target t q) (tg_targets cur) with
  | Some t => ret (Some t)
  | None =>
      if terminating then ret None else
      match fuel with
      | O => ret None
      | S f =>
          (fix loop (names : list string) : M (option target) :=
             match names with
             | [] => ret None
             | name :: rest =>
                 let* r := lift (role_delegation name) in
                 match aget (r_name r) (tg_paths cur) with
                 | None => loop rest
                 | Some patterns =>
                     if existsb (fun p => fnm p (t_filename q)) patterns then
                       let* d := get_trusted_delegation srv offline (r_name r) cur in
                       if is_expired (tg_base d) (now (r_name r)) then loop rest else
                       match aget (r_name r) (tg_term cur) with
                       | None => throw UBase
                       | Some term =>
                           let* found := find_target_helper srv now offline q f term d in
                           match found with Some t => ret (Some t) | None => loop rest end
                       end
                     else loop rest
                 end
             end) (tg_deleg cur)
      end
  end.
(** sotauptaneclient.cc:620-628 findTargetInDelegationTree. *)
Definition find_target_in_tree (srv : server) (now : string -> string) (offline : bool) (q : target) : M (option target) :=
  let* top := gets u_itargets in
  match top with
  | None => ret None
  | Some t => find_target_helper srv now offline q kDelegationsMaxDepth false t
  end.

(** sotauptaneclient.cc:758-781 uptaneIteration. *)
Definition uptane_iteration (srv : server) (clkd clki : clock) (v : vehicle) : M (list target * Z) :=
  director_update E srv clkd ;;
  let* dt := gets u_dtargets in
  let* p := lift (get_new_targets v (tg_targets dt) [] 0) in
  (if nilb (fst p) then ret tt else image_update E srv clki) ;;
  ret p.
(** sotauptaneclient.cc:417-423: exceptions are logged and dropped. *)
Definition check_image_meta_offline (clk : clock) : M unit := catch (image_offline E clk) any_exn (ret tt).
(** sotauptaneclient.cc:783-806 uptaneOfflineIteration. *)
Definition uptane_offline_iteration (clkd clki : clock) (v : vehicle) : M (list target * Z) :=
  director_offline E clkd ;;
  let* dt := gets u_dtargets in
  let* p := lift (get_new_targets v (tg_targets dt) [] 0) in
  (if nilb (fst p) then ret tt else check_image_meta_offline clki) ;;
  ret p.

Definition set_uri (t : target) (u : string) : target :=
  {| t_valid := t_valid t; t_filename := t_filename t; t_type := t_type t; t_ecus := t_ecus t; t_hashes := t_hashes t;
     t_hwids := t_hwids t; t_custom := t_custom t; t_length := t_length t; t_corr := t_corr t; t_uri := u |}.

(** result::UpdateCheck of checkUpdates: kError, kNoUpdatesAvailable or kUpdatesAvailable with the targets.
    Simplification: the message and the raw Director Targets copied into the result are dropped. *)
Inductive update_check := UcError | UcNone | UcUpdates (l : list target) (ecus_count : Z).

(** sotauptaneclient.cc:876-888 *)
Fixpoint confirm_with_image (srv : server) (now : string -> string) (l : list target) : M (list target) :=
  match l with
  | [] => ret []
  | t :: rest =>
      let* it := find_target_in_tree srv now false t in
      match it with
      | None => throw UTargetMismatch
      | Some i =>
          let t' := if String.eqb (t_uri t) "" && negb (String.eqb (t_uri i) "") then set_uri t (t_uri i) else t in
          let* rest' := confirm_with_image srv now rest in
          ret (t' :: rest')
      end
  end.
(** sotauptaneclient.cc:845-907 checkUpdates. Simplification: the recording of the failure of a target mismatch
    (storeInstallationFailure) goes to tables modelled elsewhere. *)
Definition check_updates (srv : server) (clkd clki : clock) (now : string -> string) (v : vehicle) : M update_check :=
  let* it := catch (let* p := uptane_iteration srv clkd clki v in ret (Some p)) any_exn (ret None) in
  match it with
  | None => ret UcError
  | Some (updates, count) =>
      let* ld := gets (fun s => load_nonroot Director RTargets (u_db s)) in
      let* stored := lift ld in
      match stored with
      | None => ret UcError
      | Some _ =>
          if nilb updates then ret UcNone
          else catch (let* l := confirm_with_image srv now updates in ret (UcUpdates l count)) any_exn (ret UcError)
      end
  end.

Inductive offline_check := OcError | OcNone | OcAvailable.
(** sotauptaneclient.cc:939-952 *)
Fixpoint confirm_offline (srv : server) (now : string -> string) (dts ts : list target) : M unit :=
  match ts with
  | [] => ret tt
  | t :: rest =>
      if existsb (fun d => match_target d t) dts then
        let* it := find_target_in_tree srv now true t in
        match it with None => throw UBase | Some _ => confirm_offline srv now dts rest end
      else throw UBase
  end.
(** sotauptaneclient.cc:909-955 checkUpdatesOffline (called first by downloadImages, line 640, and uptaneInstall, line 974;
    both treat a thrown exception as kError). *)
Definition check_updates_offline (srv : server) (clkd clki : clock) (now : string -> string) (v : vehicle) (ts : list target) : M offline_check :=
  if v_pending v then ret OcError
  else if nilb ts then ret OcError
  else
    let* p := uptane_offline_iteration clkd clki v in
    if nilb (fst p) then ret OcNone
    else confirm_offline srv now (fst p) ts ;; ret OcAvailable.

End Client.
