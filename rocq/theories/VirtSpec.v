(** Specification for the virtual Secondary. *)
From Verif Require Import Base Json TufModel MetaStore RepoModel CodecModel InstModel DevModel ClientModel UpdModel IpModel VirtModel.

(** ** The image *)
Definition says_ok (o : ioutcome) : bool := match o with IRet (Ok r) => ir_success r | _ => false end.
(** The image whose installation was last reported as a success, with the bytes the Primary handed over for it. *)
Definition told_from (cur : option (string * string)) (l : list vop) : option (string * string) :=
  fold_left (fun cur o => match o with
                          | VInstall n (Ok c) f => if says_ok (snd (v_install n (Ok c) f (vs_new None None))) then Some (n, c) else cur
                          | _ => cur
                          end) l cur.
Definition shown (E : Env) (i : option (string * string)) : string * string * Z :=
  match i with
  | Some (n, c) => (n, to_lower (to_upper (sha256hex E c)), Z.of_nat (String.length c))
  | None => ("noimage", to_lower (to_upper (sha256hex E "")), 0)
  end.
Definition faults (p : fault -> Prop) (l : list vop) : Prop := Forall (fun o => match o with VInstall _ _ f => p f | _ => True end) l.

(** ** Roots *)
Definition root_doc (E : Env) (raw : string) (n : Z) : Prop := exists rt, root_of_json E (parse E raw) = Ok rt /\ rt_version rt = n.
(** The Primary's storage holds six documents; the Director's Root has version [ld] and is signed by itself, the Director's Targets
    are signed as it says, the Image repository's Root has version [li]; all can be read. *)
Definition in_order (E : Env) (d : db) (ld li : Z) : Prop :=
  exists m rt dt dt0 ir tm sn it, get_metadata d = Ok (Some m) /\
    load_latest_root Director d = Ok (Some (m_droot m)) /\ load_latest_root Image d = Ok (Some (m_iroot m)) /\
    extract_version_untrusted E (m_droot m) = Ok ld /\ extract_version_untrusted E (m_iroot m) = Ok li /\
    root_of_json E (parse E (m_droot m)) = Ok rt /\ rt_version rt = ld /\ unpack_signed E (rt_ks rt) role_root (parse E (m_droot m)) = Ok tt /\
    targets_of_json_signed E (unpack_signed E (rt_ks rt)) role_targets (parse E (m_dtargets m)) = Ok dt /\ targets_of_json E (parse E (m_dtargets m)) = Ok dt0 /\
    root_of_json E (parse E (m_iroot m)) = Ok ir /\ rt_version ir = li /\
    timestamp_of_json (parse E (m_itime m)) = Ok tm /\ snapshot_of_json (parse E (m_isnap m)) = Ok sn /\ targets_of_json E (parse E (m_itargets m)) = Ok it.
(** Every Root up to the newest is stored. *)
Definition all_roots (E : Env) (d : db) (rp : repo) (l : Z) : Prop :=
  forall n, 0 < n <= l -> exists raw, load_root rp n d = Ok (Some raw) /\ root_doc E raw n.
(** The Director's Root [raw] is signed by itself and by its keys the Targets metadata [j] is properly signed too. *)
Definition suits (E : Env) (raw : string) (j : json) : Prop :=
  exists rt t, root_of_json E (parse E raw) = Ok rt /\ unpack_signed E (rt_ks rt) role_root (parse E raw) = Ok tt /\
    targets_of_json_signed E (unpack_signed E (rt_ks rt)) role_targets j = Ok t.
(** How many Roots a Secondary with version [a] has missed beyond the next one. *)
Definition behind (l a : Z) : Z := if 0 <? a then Z.max 0 (l - a - 1) else 0.

Section Attempt.
Context (savec : json -> string) (E : Env) (W : world) (srv : server) (ecu : string) (d : db) (v0 : vsec).
(** One transfer of metadata to the Secondary (the body of the loop in sendMetadataToEcus) in state [s]. *)
Definition attempt (t : target) (s : pst) : pst * res ires := send_metadata_one savec E (v_world E ecu d v0 W) srv t ecu s.
(** The Secondary's state after the calls so far. *)
Definition vs_now (s : pst) : vsec := v_replay E ecu d v0 (p_tr s).
(** At least one of [n] successive transfers succeeds. *)
Fixpoint succeeds_within (n : nat) (t : target) (s : pst) : Prop :=
  match n with
  | O => False
  | S n' => exists s' r, attempt t s = (s', Ok r) /\ (ir_success r = true \/ succeeds_within n' t s')
  end.
End Attempt.
