(** Specification of updates of a Secondary over the network. *)
From Verif Require Import Base Json TufModel TufSpec MetaStore RepoModel RepoSpec CodecModel DlModel DlSpec InstModel InstSpec DevModel LiveSpec OrdSpec ChkSpec SndModel SndSpec SecFileModel SecFileSpec IpModel.

Section Spec.
Context (savec : json -> string) (loadc : string -> option json).
Context (E : Env) (stale : htype -> string -> hash) (ecu hw : string) (sigs : json -> json).

(** A version that can be recorded and whose hashes tell its length. *)
Definition sound_version (t : target) : Prop := good_target savec loadc t /\ consistent E t /\ no_stale_match stale t.
(** No write error goes unnoticed. *)
Definition noticed (h : henv) : Prop := forall k, h_wr h <> WLost k.

(** The target that a request makes the Secondary install, if it does. *)
Definition installed_by (h : henv) (q : req) (s : fsec) : list target :=
  match snd (handle savec E stale ecu hw sigs h q s), sn_pending (fs_snd s) with
  | Some (PInstall2 c), Some t => if c =? kOk then [t] else []
  | _, _ => []
  end.
(** [sec_run undos l s]: the Secondary can be in state [s] after any sequence of starts, requests and kills, having installed the
    targets [l] (newest first). It starts with any metadata, image and table of versions. [undos]: it may be killed after the image
    was put in place and before that was recorded. *)
Inductive sec_run (undos : bool) : list target -> fsec -> Prop :=
| sr_init d0 idb image name : ecu <> "" -> ireach savec (good_target savec loadc) idb -> il_ecus idb = [(ecu, hw)] ->
    sec_run undos [] {| fs_snd := snd_off d0; fs_ag := agent_init image name; fs_idb := idb; fs_before := idb |}
| sr_start l s clk : sec_run undos l s -> sec_run undos l (start_sec loadc E ecu hw clk s)
| sr_req l s h q : sec_run undos l s -> noticed h -> Forall sound_version (installed_by h q s) ->
    sec_run undos (installed_by h q s ++ l) (fst (handle savec E stale ecu hw sigs h q s))
| sr_kill l s h q k undo : sec_run undos l s -> noticed h -> Forall sound_version (installed_by h q s) -> (undo = true -> undos = true) ->
    sec_run undos (installed_by h q s ++ l) (kill_sec k undo (fst (handle savec E stale ecu hw sigs h q s))).

(** The image [c] is in place and is one of target [t]. *)
Definition has_image (s : fsec) (t : target) (c : string) : Prop :=
  a_target (fs_ag s) = Some c /\ size c = t_length t /\ matches_target E t c.

(** The Targets of the Director in the Primary's storage assign [t] to the Secondary, and nothing else. *)
Definition assigned (d : db) (t : target) : Prop :=
  exists raw dt, load_nonroot Director RTargets d = Ok (Some raw) /\ targets_doc E "targets" (parse E raw) dt /\ sole_target dt ecu hw t.

(** What a manifest says about the installed image. *)
Fixpoint jpath (l : list string) (j : json) : res json := match l with [] => Ok j | k :: l' => do x <- jget k j; jpath l' x end.
Definition says (m : json) (name : string) (len : Z) (sha : string) : Prop :=
  jpath ["signed"; "ecu_serial"] m = Ok (JStr ecu) /\
  jpath ["signed"; "installed_image"; "filepath"] m = Ok (JStr name) /\
  jpath ["signed"; "installed_image"; "fileinfo"; "length"] m = Ok (JInt len) /\
  jpath ["signed"; "installed_image"; "fileinfo"; "hashes"; "sha256"] m = Ok (JStr sha).

(** [goes Q P s s']: starts, requests that satisfy [Q] and kills lead from [s] to [s'], through states that satisfy [P]. *)
Inductive goes (Q : req -> Prop) (P : fsec -> Prop) : fsec -> fsec -> Prop :=
| go_refl s : goes Q P s s
| go_start s s' clk : P (start_sec loadc E ecu hw clk s) -> goes Q P (start_sec loadc E ecu hw clk s) s' -> goes Q P s s'
| go_req s s' h q : Q q -> P (fst (handle savec E stale ecu hw sigs h q s)) -> goes Q P (fst (handle savec E stale ecu hw sigs h q s)) s' -> goes Q P s s'
| go_kill s s' h q k undo : Q q -> P (fst (handle savec E stale ecu hw sigs h q s)) -> goes Q P (kill_sec k undo (fst (handle savec E stale ecu hw sigs h q s))) s' -> goes Q P s s'.
(** The Secondary waits for no target but [t]. *)
Definition only (t : target) (s : fsec) : Prop := forall t', sn_pending (fs_snd s) = Some t' -> t' = t.
(** The file of the image to be installed exists and is not shorter than the image of [t]. *)
Definition blocked (t : target) (s : fsec) : Prop := exists c, a_new (fs_ag s) = Some c /\ t_length t <= size c.
(** The newest Root of the Director that the Secondary has stored, all of whose transactions are made. *)
Definition trusts (raw : string) (s : fsec) : Prop :=
  load_latest_root Director (u_db (sn_ust (fs_snd s))) = Ok (Some raw) /\ sn_prev (fs_snd s) = u_db (sn_ust (fs_snd s)) /\ u_log (sn_ust (fs_snd s)) = [].
(** If the request carries metadata, then it is a message of the Primary whose Root of the Director is newer than version [v]. *)
Definition root_after (v : Z) (q : req) : Prop :=
  forall p, q = QPutMeta2 p -> exists m w wi, p = put_of m /\ extract_version_untrusted E (m_droot m) = Ok w /\ extract_version_untrusted E (m_iroot m) = Ok wi /\ v < w.
(** Requests other than install requests. *)
Definition harmless (q : req) : Prop := match q with QInstall _ => False | _ => True end.
(** Any requests but install requests are made, over any network. *)
Inductive quietly : ipst -> ipst -> Prop :=
| qu_refl s : quietly s s
| qu_step s s' W q : harmless q -> quietly (fst (rpc savec loadc E stale ecu hw sigs W q s)) s' -> quietly s s'.

(** ** A network that works *)
Definition works (W : net) : Prop :=
  forall n, w_link W n = LAnswered /\ w_starts W n = [] /\ h_opened (w_env W n) = true /\ h_wr (w_env W n) = WAll /\ h_renamed (w_env W n) = true.
(** No write error goes unnoticed, and the Secondary is not killed before it records what it has installed. *)
Definition all_noticed (W : net) : Prop := forall n, noticed (w_env W n).
Definition no_undo (W : net) : Prop := forall n k, w_link W n <> LKilled k true.

(** The newest Roots and the other documents that the Primary has stored. *)
Definition stored_docs (d : db) (m : docs) : Prop :=
  load_latest_root Director d = Ok (Some (m_droot m)) /\ load_nonroot Director RTargets d = Ok (Some (m_dtargets m)) /\
  load_latest_root Image d = Ok (Some (m_iroot m)) /\ load_nonroot Image RTimestamp d = Ok (Some (m_itime m)) /\
  load_nonroot Image RSnapshot d = Ok (Some (m_isnap m)) /\ load_nonroot Image RTargets d = Ok (Some (m_itargets m)).
(** The documents that the Primary sends, as a repository: a Root is offered for every version up to its own. *)
Definition doc_of (m : docs) (rp : repo) (rn : string) : option string :=
  match rp with
  | Director => if String.eqb rn "root" then Some (m_droot m) else if String.eqb rn "targets" then Some (m_dtargets m) else None
  | Image => if String.eqb rn "root" then Some (m_iroot m) else if String.eqb rn "timestamp" then Some (m_itime m)
             else if String.eqb rn "snapshot" then Some (m_isnap m) else if String.eqb rn "targets" then Some (m_itargets m) else None
  end.
Definition offered (m : docs) : server :=
  fun rp rn v =>
    match doc_of m rp rn with
    | None => Throw EStd
    | Some d => if String.eqb rn "root" && negb (v =? -1) then match extract_version_untrusted E d with Ok w => if v <=? w then Ok d else Throw EStd | Throw _ => Throw EStd end
                else Ok d
    end.
(** These documents are in order for a Secondary whose storage is [d]: the Roots lead from the Root it trusts to those sent; the other
    documents are authentic, valid and not older than what it has; the Image repository lists all targets; and [t] is the only
    target for the Secondary, of a kind it supports. *)
Definition sec_in_order (ckd cki : clock) (d : db) (m : docs) (t : target) : Prop :=
  (exists w : Z, extract_version_untrusted E (m_droot m) = Ok w) /\ (exists w : Z, extract_version_untrusted E (m_iroot m) = Ok w) /\
  exists ld Rd dt li Ri tm sn it,
    roots_in_order E (offered m) ckd Director d ld Rd /\ director_in_order E (offered m) ckd d ld Rd dt /\
    roots_in_order E (offered m) cki Image d li Ri /\ image_in_order E (offered m) cki d li Ri tm sn it /\
    (forall x, In x (tg_targets dt) -> listed it x) /\ sole_target dt ecu hw t /\ supported AgFile t = true.
End Spec.
