(** Director and Image repository metadata updates.
    Models /repo/src/libaktualizr/uptane/{uptanerepository,directorrepository,imagerepository,fetcher}.cc. *)
From Verif Require Import Base Json TufModel MetaStore.

(** Everything the update functions read and write: the database, the in-memory repository objects, and a ghost log
    of every database state since the start (newest first), used to quantify over crash points. *)
Record ust := {
  u_db : db;
  u_log : list db;
  u_droot : root; u_dtargets : targets; u_dlatest : targets;
  u_iroot : root; u_itime : timestamp; u_isnap : snapshot; u_itargets : option targets
}.

(** A C++ statement: it may change the state and then either finish or throw (changes made before a throw persist). *)
Definition M (A : Type) := ust -> ust * res A.
Definition ret {A} (a : A) : M A := fun s => (s, Ok a).
Definition throw {A} (e : exn) : M A := fun s => (s, Throw e).
Definition mbind {A B} (m : M A) (k : A -> M B) : M B :=
  fun s => match m s with (s', Ok a) => k a s' | (s', Throw e) => (s', Throw e) end.
Definition lift {A} (r : res A) : M A := fun s => (s, r).
Definition gets {A} (f : ust -> A) : M A := fun s => (s, Ok (f s)).
Definition modify (f : ust -> ust) : M unit := fun s => (f s, Ok tt).
(** try { m } catch (selected exceptions) { h }. *)
Definition catch {A} (m : M A) (sel : exn -> bool) (h : M A) : M A :=
  fun s => match m s with (s', Throw e) => if sel e then h s' else (s', Throw e) | r => r end.
Definition any_exn (e : exn) : bool := true.
Notation "'let*' x := m 'in' k" := (mbind m (fun x => k)) (at level 200, x name, m at level 100, k at level 200, right associativity).
Notation "m ;; k" := (mbind m (fun _ => k)) (at level 100, k at level 200, right associativity).
Definition guard (b : bool) (e : exn) : M unit := if b then throw e else ret tt.

(** A durable write: one committed transaction. *)
Definition write (f : db -> db) : M unit :=
  modify (fun s => let d := f (u_db s) in
    {| u_db := d; u_log := d :: u_log s; u_droot := u_droot s; u_dtargets := u_dtargets s; u_dlatest := u_dlatest s;
       u_iroot := u_iroot s; u_itime := u_itime s; u_isnap := u_isnap s; u_itargets := u_itargets s |}).

(** RepositoryCommon::root of the Director resp. Image repository object. *)
Definition get_root (rp : repo) (s : ust) : root := match rp with Director => u_droot s | Image => u_iroot s end.
Definition set_root (rp : repo) (r : root) : M unit :=
  modify (fun s => match rp with
    | Director => {| u_db := u_db s; u_log := u_log s; u_droot := r; u_dtargets := u_dtargets s; u_dlatest := u_dlatest s;
        u_iroot := u_iroot s; u_itime := u_itime s; u_isnap := u_isnap s; u_itargets := u_itargets s |}
    | Image => {| u_db := u_db s; u_log := u_log s; u_droot := u_droot s; u_dtargets := u_dtargets s; u_dlatest := u_dlatest s;
        u_iroot := r; u_itime := u_itime s; u_isnap := u_isnap s; u_itargets := u_itargets s |}
    end).
Definition set_dtargets (t : targets) : M unit :=
  modify (fun s => {| u_db := u_db s; u_log := u_log s; u_droot := u_droot s; u_dtargets := t; u_dlatest := u_dlatest s;
        u_iroot := u_iroot s; u_itime := u_itime s; u_isnap := u_isnap s; u_itargets := u_itargets s |}).
Definition set_dlatest (t : targets) : M unit :=
  modify (fun s => {| u_db := u_db s; u_log := u_log s; u_droot := u_droot s; u_dtargets := u_dtargets s; u_dlatest := t;
        u_iroot := u_iroot s; u_itime := u_itime s; u_isnap := u_isnap s; u_itargets := u_itargets s |}).
Definition set_itime (t : timestamp) : M unit :=
  modify (fun s => {| u_db := u_db s; u_log := u_log s; u_droot := u_droot s; u_dtargets := u_dtargets s; u_dlatest := u_dlatest s;
        u_iroot := u_iroot s; u_itime := t; u_isnap := u_isnap s; u_itargets := u_itargets s |}).
Definition set_isnap (t : snapshot) : M unit :=
  modify (fun s => {| u_db := u_db s; u_log := u_log s; u_droot := u_droot s; u_dtargets := u_dtargets s; u_dlatest := u_dlatest s;
        u_iroot := u_iroot s; u_itime := u_itime s; u_isnap := t; u_itargets := u_itargets s |}).
Definition set_itargets (t : option targets) : M unit :=
  modify (fun s => {| u_db := u_db s; u_log := u_log s; u_droot := u_droot s; u_dtargets := u_dtargets s; u_dlatest := u_dlatest s;
        u_iroot := u_iroot s; u_itime := u_itime s; u_isnap := u_isnap s; u_itargets := t |}).

(** The server, as seen by Fetcher::fetchRole (fetcher.cc:7-19) during one update: repository, role name, version
    (-1 = latest, fetchLatestRole).  A throw is MetadataFetchFailure or any exception of the HTTP client (including
    an answer above the size limit).  Each request is made at most once per update, so a function is general. *)
Definition server := repo -> string -> Z -> res string.
(** TimeStamp::Now() at the expiry check of each role (each is read once per update). *)
Definition clock := rkind -> string.

Definition kMaxRotations : Z := 1000. (* uptanerepository.h:35 *)

Section Repo.
Context (E : Env).

(** uptanerepository.cc:25-33 initRoot: first parsed without verification, then verified against itself. *)
Definition init_root (rp : repo) (raw : string) : M unit :=
  let* r1 := lift (root_of_json E (parse E raw)) in
  set_root rp r1 ;;
  let* cur := gets (get_root rp) in
  let* r2 := lift (root_of_json_signed E (parse E raw) cur) in
  set_root rp r2.

(** uptanerepository.cc:35-56 verifyRoot.
    Simplification: versions are unbounded integers; prev_version + 1 with prev_version = INT_MAX (signed overflow) does
    not occur because the caller's loop stops at 1000. *)
Definition verify_root (rp : repo) (raw : string) : M unit :=
  let* prev := gets (get_root rp) in
  let* r := lift (root_of_json_signed E (parse E raw) prev) in
  set_root rp r ;;
  guard (negb (rt_version r =? rt_version prev + 1)) URootRotation.

(** uptanerepository.cc:75-90: the rotation loop; fuel = number of remaining iterations. *)
Fixpoint root_loop (srv : server) (rp : repo) (fuel : nat) (version : Z) : M unit :=
  match fuel with
  | O => ret tt
  | S f =>
      match srv rp "root" version with
      | Throw _ => ret tt                               (* catch (const std::exception&) { break; } *)
      | Ok raw =>
          verify_root rp raw ;;
          write (store_root raw rp version) ;;
          write (clear_nonroot rp) ;;
          root_loop srv rp f (version + 1)
      end
  end.

(** uptanerepository.h: rootExpired *)
Definition root_expired (clk : clock) (rp : repo) (s : ust) : bool := is_expired (rt_base (get_root rp s)) (clk RRoot).

(** uptanerepository.cc:63-72 *)
Definition load_or_fetch_root (srv : server) (rp : repo) : M unit :=
  let* stored := gets (fun s => load_latest_root rp (u_db s)) in
  let* so := lift stored in
  match so with
  | Some raw => init_root rp raw
  | None =>
      let* raw := lift (srv rp "root" 1) in
      init_root rp raw ;;
      write (store_root raw rp 1)
  end.

(** uptanerepository.cc:60-98 updateRoot. *)
Definition update_root (srv : server) (clk : clock) (rp : repo) : M unit :=
  load_or_fetch_root srv rp ;;
  let* v := gets (fun s => rt_version (get_root rp s)) in
  root_loop srv rp (Z.to_nat (kMaxRotations - (v + 1))) (v + 1) ;;
  let* ex := gets (root_expired clk rp) in
  guard ex UExpired.

(** *** Director *)

(** directorrepository.cc:5-9 *)
Definition director_reset : M unit :=
  set_root Director (root_empty PAcceptAll) ;; set_dtargets targets_empty ;; set_dlatest targets_empty.

(** directorrepository.cc:38-42 *)
Definition use_previous (s : ust) : bool :=
  negb (nilb (tg_targets (u_dtargets s))) && nilb (tg_targets (u_dlatest s)).

(** directorrepository.cc:44-56. The signer is a copy of the root sliced to MetaWithKeys (its policy is ignored). *)
Definition director_verify_targets (raw : string) : M unit :=
  let* r := gets (get_root Director) in
  let* t := lift (targets_of_json_signed E (unpack_signed E (rt_ks r)) role_targets (parse E raw)) in
  set_dlatest t ;;
  let* up := gets use_previous in
  if up then ret tt else set_dtargets t.

(** directorrepository.cc:11-15 *)
Definition director_check_expired (clk : clock) : M unit :=
  let* t := gets u_dlatest in guard (is_expired (tg_base t) (clk RTargets)) UExpired.

(** directorrepository.cc:25-35: the ECU loop; [true] = repeated. *)
Fixpoint ecu_repeated (seen : list string) (l : list string) : bool :=
  match l with
  | [] => false
  | e :: l' => if mem_str e seen then true else ecu_repeated (e :: seen) l'
  end.
(** directorrepository.cc:17-36 *)
Definition director_sanity : M unit :=
  let* lt := gets u_dlatest in
  guard (negb (nilb (tg_deleg lt))) UInvalidMetadata ;;
  let* t := gets u_dtargets in
  guard (ecu_repeated [] (flat_map (fun x => map fst (t_ecus x)) (tg_targets t))) UInvalidMetadata.

(** directorrepository.cc:104-132 (the Targets block of updateMeta). *)
Definition director_targets_block (srv : server) (clk : clock) : M unit :=
  let* raw := lift (srv Director "targets" (-1)) in
  let* remote := lift (extract_version_untrusted E raw) in
  let* stored := gets (fun s => load_nonroot Director RTargets (u_db s)) in
  let* so := lift stored in
  let* local := (match so with
    | Some sraw =>
        let* lv := lift (extract_version_untrusted E sraw) in
        catch (director_verify_targets sraw) any_exn (ret tt) ;;
        ret lv
    | None => ret (-1)
    end) in
  director_verify_targets raw ;;
  let* up := gets use_previous in
  (if remote <? local then throw USecurity
   else if (local <? remote) && negb up then write (store_nonroot raw Director RTargets)
   else ret tt) ;;
  director_check_expired clk ;;
  director_sanity.

(** directorrepository.cc:90-138 updateMeta. *)
Definition director_update (srv : server) (clk : clock) : M unit :=
  director_reset ;;
  update_root srv clk Director ;;
  director_targets_block srv clk.

(** directorrepository.cc:58-88 checkMetaOffline. *)
Definition director_offline (clk : clock) : M unit :=
  director_reset ;;
  let* st := gets (fun s => load_latest_root Director (u_db s)) in
  let* so := lift st in
  match so with
  | None => throw USecurity
  | Some raw =>
      init_root Director raw ;;
      let* ex := gets (root_expired clk Director) in
      guard ex UExpired ;;
      let* tt' := gets (fun s => load_nonroot Director RTargets (u_db s)) in
      let* to := lift tt' in
      match to with
      | None => throw USecurity
      | Some traw =>
          director_verify_targets traw ;;
          director_check_expired clk ;;
          director_sanity
      end
  end.

(** directorrepository.cc:140-147 dropTargets *)
Definition director_drop_targets : M unit := write (clear_nonroot Director) ;; director_reset.

(** directorrepository.cc:149-170 *)
Definition match_with_image_targets (dt it : targets) : bool :=
  forallb (fun d => existsb (fun i => match_target d i) (tg_targets it)) (tg_targets dt).

(** *** Image repository *)

(** imagerepository.cc:5-10 *)
Definition image_reset : M unit :=
  set_root Image (root_empty PAcceptAll) ;; set_itargets None ;; set_isnap snapshot_empty ;; set_itime timestamp_empty.

(** imagerepository.cc:12-21 *)
Definition image_verify_timestamp (raw : string) : M unit :=
  let* r := gets (get_root Image) in
  let* t := lift (timestamp_of_json_signed (unpack_signed E (rt_ks r)) (parse E raw)) in
  set_itime t.

(** imagerepository.cc:53-76 and 128-149: comparison of the canonical form with a list of hashes.
    [None] = mismatch, [Some b] = no mismatch, b = some hash of a known type was compared. *)
Fixpoint check_hashes (canonical : string) (l : list hash) (found : bool) : option bool :=
  match l with
  | [] => Some found
  | h :: l' =>
      match h_type h with
      | Sha256 => if hash_eqb (mk_hash_t Sha256 (sha256hex E canonical)) h then check_hashes canonical l' true else None
      | Sha512 => if hash_eqb (mk_hash_t Sha512 (sha512hex E canonical)) h then check_hashes canonical l' true else None
      | HUnknown => check_hashes canonical l' found
      end
  end.

(** imagerepository.cc:50-94 *)
Definition image_verify_snapshot (raw : string) : M unit :=
  let* tm := gets u_itime in
  match check_hashes (canon E (parse E raw)) (tm_hashes tm) false with
  | None | Some false => throw USecurity
  | Some true =>
      let* r := gets (get_root Image) in
      let* sn := lift (snapshot_of_json_signed (unpack_signed E (rt_ks r)) (parse E raw)) in
      set_isnap sn ;;
      guard (negb (b_version (sn_base sn) =? tm_snap_version tm)) UVersionMismatch
  end.

(** imagerepository.cc:124-150 *)
Definition verify_role_hashes (sn : snapshot) (raw : string) (rn : string) : res unit :=
  match check_hashes (canon E (parse E raw)) (role_hashes sn rn) false with
  | None => Throw USecurity
  | Some _ => Ok tt
  end.

(** imagerepository.cc:156-174 *)
Definition image_verify_targets (raw : string) : M unit :=
  let* sn := gets u_isnap in
  lift (verify_role_hashes sn raw "targets") ;;
  let* r := gets (get_root Image) in
  let* t := lift (targets_of_json_signed E (unpack_signed E (rt_ks r)) role_targets (parse E raw)) in
  set_itargets (Some t) ;;
  guard (negb (tg_version t =? role_version sn "targets")) UVersionMismatch.

(** imagerepository.cc:23-27, 96-100, 194-198 (targets is non-null whenever the last one is called). *)
Definition image_check_timestamp_expired (clk : clock) : M unit :=
  let* t := gets u_itime in guard (is_expired (tm_base t) (clk RTimestamp)) UExpired.
Definition image_check_snapshot_expired (clk : clock) : M unit :=
  let* t := gets u_isnap in guard (is_expired (sn_base t) (clk RSnapshot)) UExpired.
Definition image_check_targets_expired (clk : clock) : M unit :=
  let* t := gets u_itargets in
  match t with Some t => guard (is_expired (tg_base t) (clk RTargets)) UExpired | None => throw EStd end.

(** imagerepository.cc:43-47, 117-121, 222-226: rollback check and store. *)
Definition store_newer (local remote : Z) (raw : string) (ty : rkind) : M unit :=
  if remote <? local then throw USecurity
  else if local <? remote then write (store_nonroot raw Image ty) else ret tt.

(** imagerepository.cc:29-48 *)
Definition image_fetch_snapshot (srv : server) (local : Z) : M unit :=
  let* raw := lift (srv Image "snapshot" (-1)) in
  let* remote := lift (extract_version_untrusted E raw) in
  image_verify_snapshot raw ;;
  store_newer local remote raw RSnapshot.

(** imagerepository.cc:102-122 *)
Definition image_fetch_targets (srv : server) (local : Z) : M unit :=
  let* raw := lift (srv Image "targets" (-1)) in
  let* remote := lift (extract_version_untrusted E raw) in
  image_verify_targets raw ;;
  store_newer local remote raw RTargets.

(** imagerepository.cc:205-229 *)
Definition image_timestamp_block (srv : server) (clk : clock) : M unit :=
  let* raw := lift (srv Image "timestamp" (-1)) in
  let* remote := lift (extract_version_untrusted E raw) in
  let* stored := gets (fun s => load_nonroot Image RTimestamp (u_db s)) in
  let* so := lift stored in
  let* local := lift (match so with Some sraw => extract_version_untrusted E sraw | None => Ok (-1) end) in
  image_verify_timestamp raw ;;
  store_newer local remote raw RTimestamp ;;
  image_check_timestamp_expired clk.

(** imagerepository.cc:231-257 *)
Definition image_snapshot_block (srv : server) (clk : clock) : M unit :=
  let* stored := gets (fun s => load_nonroot Image RSnapshot (u_db s)) in
  let* so := lift stored in
  (match so with
   | Some sraw =>
       let* fetch := catch (image_verify_snapshot sraw ;; ret false) is_uptane (ret true) in
       let* local := gets (fun s => b_version (sn_base (u_isnap s))) in
       if fetch then image_fetch_snapshot srv local else ret tt
   | None => image_fetch_snapshot srv (-1)
   end) ;;
  image_check_snapshot_expired clk.

(** imagerepository.cc:259-285 *)
Definition image_targets_block (srv : server) (clk : clock) : M unit :=
  let* stored := gets (fun s => load_nonroot Image RTargets (u_db s)) in
  let* so := lift stored in
  (match so with
   | Some sraw =>
       let* fetch := catch (image_verify_targets sraw ;; ret false) any_exn (ret true) in
       let* local := gets (fun s => match u_itargets s with Some t => tg_version t | None => -1 end) in
       if fetch then image_fetch_targets srv local else ret tt
   | None => image_fetch_targets srv (-1)
   end) ;;
  image_check_targets_expired clk.

(** imagerepository.cc:200-286 updateMeta. *)
Definition image_update (srv : server) (clk : clock) : M unit :=
  image_reset ;;
  update_root srv clk Image ;;
  image_timestamp_block srv clk ;;
  image_snapshot_block srv clk ;;
  image_targets_block srv clk.

(** load a stored role or throw SecurityException. *)
Definition load_or_security (ty : rkind) : M string :=
  let* st := gets (fun s => load_nonroot Image ty (u_db s)) in
  let* so := lift st in
  match so with None => throw USecurity | Some raw => ret raw end.

(** imagerepository.cc:288-341 checkMetaOffline. *)
Definition image_offline (clk : clock) : M unit :=
  image_reset ;;
  let* st := gets (fun s => load_latest_root Image (u_db s)) in
  let* so := lift st in
  match so with
  | None => throw USecurity
  | Some raw =>
      init_root Image raw ;;
      let* ex := gets (root_expired clk Image) in
      guard ex UExpired ;;
      let* tr := load_or_security RTimestamp in
      image_verify_timestamp tr ;;
      image_check_timestamp_expired clk ;;
      let* sr := load_or_security RSnapshot in
      image_verify_snapshot sr ;;
      image_check_snapshot_expired clk ;;
      let* gr := load_or_security RTargets in
      image_verify_targets gr ;;
      image_check_targets_expired clk
  end.

End Repo.
