(** A concrete environment and small metadata documents, used only to show that the hypotheses of the theorems are met
    by non-trivial cases and as witnesses of refutations.  A signature is valid if it repeats the key; the canonical form
    of a document is its "tag" member and a digest is the digested text itself. *)
From Verif Require Import Base Json TufModel TufSpec MetaStore RepoModel RepoSpec.

Definition toy_canon (j : json) : string := match j with JObj l => match aget "tag" l with Some (JStr s) => s | _ => "" end | _ => "" end.
Definition toy (table : list (string * json)) : Env := {|
  canon := toy_canon;
  parse := fun raw => match aget raw table with Some j => j | None => JNull end;
  rsa_type := fun _ => KRsa2048;
  verify := fun _ key sg _ => Some (String.eqb key sg);
  sha256hex := fun s => s;
  sha512hex := fun s => s |}.

Definition far := "2030-01-01T00:00:00Z".
Definition past := "2010-01-01T00:00:00Z".
Definition now2020 : clock := fun _ => "2020-01-01T00:00:00Z".

Definition key_j (kid pub : string) : string * json :=
  (kid, JObj [("keytype", JStr "ED25519"); ("keyval", JObj [("public", JStr pub)])]).
Definition role_j (thr : Z) (kids : list string) : json :=
  JObj [("threshold", JInt thr); ("keyids", JArr (map JStr kids))].
Definition sig_j (p : string * string) : json :=
  JObj [("keyid", JStr (fst p)); ("method", JStr "ed25519"); ("sig", JStr (snd p))].
Definition doc_j (tag ty : string) (v : Z) (exp : string) (rest : list (string * json)) (sigs : list (string * string)) : json :=
  JObj [("tag", JStr tag);
        ("signed", JObj ([("tag", JStr tag); ("_type", JStr ty); ("version", JInt v); ("expires", JStr exp)] ++ rest));
        ("signatures", JArr (map sig_j sigs))].
(** A root whose four roles are all signed by the key ids [kids] with threshold [thr]. *)
Definition root_j (tag : string) (v : Z) (exp : string) (thr : Z) (keys : list (string * string)) (sigs : list (string * string)) : json :=
  doc_j tag "Root" v exp
    [("keys", JObj (map (fun p => key_j (fst p) (snd p)) keys));
     ("roles", JObj (map (fun r => (r, role_j thr (map fst keys))) ["root"; "snapshot"; "targets"; "timestamp"]))] sigs.
Definition target_j (len : Z) (h : string) (custom : list (string * json)) : json :=
  JObj [("length", JInt len); ("hashes", JObj [("sha256", JStr h)]); ("custom", JObj custom)].
Definition targets_j (tag : string) (v : Z) (exp : string) (ts : list (string * json)) (sigs : list (string * string)) : json :=
  doc_j tag "Targets" v exp [("targets", JObj ts)] sigs.
Definition snapshot_j (tag : string) (v : Z) (exp : string) (tver : Z) (thash : string) (sigs : list (string * string)) : json :=
  doc_j tag "Snapshot" v exp
    [("meta", JObj [("targets.json", JObj [("version", JInt tver); ("hashes", JObj [("sha256", JStr thash)])])])] sigs.
Definition timestamp_j (tag : string) (v : Z) (exp : string) (sver : Z) (shash : string) (sigs : list (string * string)) : json :=
  doc_j tag "Timestamp" v exp
    [("meta", JObj [("snapshot.json", JObj [("version", JInt sver); ("length", JInt 1); ("hashes", JObj [("sha256", JStr shash)])])])] sigs.

Definition ecu_custom (ecu hw : string) : list (string * json) :=
  [("ecuIdentifiers", JObj [(ecu, JObj [("hardwareId", JStr hw)])])].
Definition hw_custom (hw : string) : list (string * json) := [("hardwareIds", JArr [JStr hw])].

(** The world used below: key k1 is rotated to k2; Director and Image documents by either key. *)
Definition k1 := [("k1", "pub1")].
Definition k2 := [("k2", "pub2")].
Definition both := [("k1", "pub1"); ("k2", "pub2")].
Definition world : list (string * json) := [
  ("R1", root_j "r1" 1 far 1 k1 k1);
  ("R2", root_j "r2" 2 far 1 k2 both);
  ("R2x", root_j "r2x" 2 past 1 k2 both);
  ("R3", root_j "r3" 3 far 1 k2 k2);
  ("D5", targets_j "d5" 5 far [("app", target_j 7 "aa" (ecu_custom "ecu1" "hw1"))] k1);
  ("D5x", targets_j "d5x" 5 past [("app", target_j 7 "aa" (ecu_custom "ecu1" "hw1"))] k1);
  ("D6", targets_j "d6" 6 far [("app", target_j 7 "bb" (ecu_custom "ecu1" "hw1"))] k1);
  ("D6x", targets_j "d6x" 6 past [("app", target_j 7 "bb" (ecu_custom "ecu1" "hw1"))] k1);
  ("D6e", targets_j "d6e" 6 far [] k1);
  ("D3n", targets_j "d3n" 3 far [("app", target_j 7 "aa" (ecu_custom "ecu1" "hw1"))] k2);
  ("TS5", timestamp_j "ts5" 5 far 5 "SN5" k1);
  ("SN5", snapshot_j "sn5" 5 far 5 "TG5" k1);
  ("TG5", targets_j "tg5" 5 far [("app", target_j 7 "aa" (hw_custom "hw1"))] k1);
  ("TS6", timestamp_j "ts6" 6 far 4 "SN4" k1);
  ("SN4", snapshot_j "sn4" 4 far 4 "TG4" k1);
  ("TG4", targets_j "tg4" 4 far [("app", target_j 7 "aa" (hw_custom "hw1"))] k1);
  ("TS7", timestamp_j "ts7" 7 far 5 "SN5" k1)].
Definition W : Env := toy world.

(** A server given by the documents it offers: root by version, others by name; everything else fails. *)
Definition serve (roots : list (Z * string)) (docs : list (string * string)) : server :=
  fun _ rn v => if String.eqb rn "root" then match zget v roots with Some d => Ok d | None => Throw UFetchFailure end
                else match aget rn docs with Some d => Ok d | None => Throw UFetchFailure end.

Definition mem0 (d : db) : ust := {|
  u_db := d; u_log := []; u_droot := root_empty PAcceptAll; u_dtargets := targets_empty; u_dlatest := targets_empty;
  u_iroot := root_empty PAcceptAll; u_itime := timestamp_empty; u_isnap := snapshot_empty; u_itargets := None |}.
Definition db_dir : db := store_nonroot "D5" Director RTargets (store_root "R1" Director 1 db_empty).
Definition db_img : db :=
  store_nonroot "TG5" Image RTargets (store_nonroot "SN5" Image RSnapshot (store_nonroot "TS5" Image RTimestamp
    (store_root "R1" Image 1 db_empty))).

Lemma serve_clean roots docs : Forall (fun p => nul_free (snd p)) roots -> Forall (fun p => nul_free (snd p)) docs ->
  clean_server (serve roots docs).
Proof.
  intros H1 H2 rp rn v raw. unfold serve. destruct (String.eqb rn "root").
  - destruct (zget v roots) as [d|] eqn:H; [|discriminate]. intros G; inversion G; subst.
    induction H1 as [|(k, x) l Hx Hl IH]; simpl in H; [discriminate|].
    destruct (v =? k); [inversion H; subst; auto|auto].
  - destruct (aget rn docs) as [d|] eqn:H; [|discriminate]. intros G; inversion G; subst.
    induction H2 as [|(k, x) l Hx Hl IH]; simpl in H; [discriminate|].
    destruct (String.eqb rn k); [inversion H; subst; auto|auto].
Qed.

Lemma no_roots_no_rotation E docs rp d : ~ rotation_offered E (serve [] docs) rp d.
Proof. intros (r0 & R0 & r1 & R1 & _ & _ & H & _). discriminate. Qed.
Lemma nul_free_dec raw : negb (String.eqb raw "") && String.eqb (cut_nul raw) raw = true -> nul_free raw.
Proof.
  intros H. apply andb_true_iff in H. destruct H as (H1 & H2). apply negb_true_iff in H1. split.
  - intros ->. discriminate.
  - now apply String.eqb_eq.
Qed.
Ltac clean_serve := apply serve_clean; repeat (constructor; [apply nul_free_dec; reflexivity|]); constructor.
