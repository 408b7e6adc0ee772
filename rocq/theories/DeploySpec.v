(** What the deployment tools should do, in terms of what the servers see and of exit codes. *)
From Verif Require Import Base Json TufModel PushModel PushSpec DeployModel.

(** The requests about objects among the events. *)
Definition objects (l : list ev) : list tev := flat_map (fun e => match e with EObj t => [t] | _ => [] end) l.
(** The requests and commands that can change something. *)
Definition changes (e : ev) : Prop :=
  match e with EObj (TPost _) | ERef _ _ | EManifest _ _ | ESys _ => True | _ => False end.
(** All that is needed of a commit was reported by the server. *)
Definition commit_reported (R : repo) (root : obj) (l : list ev) : Prop :=
  forall o, needed R (objects l) root o -> reported (objects l) o.

(** 64 hexadecimal digits, 32 bytes. *)
Definition hex_digit (c : ascii) : Prop := 48 <= acode c <= 57 \/ 65 <= acode c <= 70 \/ 97 <= acode c <= 102.
Fixpoint every (P : ascii -> Prop) (s : string) : Prop := match s with EmptyString => True | String c s' => P c /\ every P s' end.
Definition hex64 (s : string) : Prop := String.length s = 64%nat /\ every hex_digit s.
Definition hash32 (h : ohash) : Prop := List.length h = 32%nat /\ Forall (fun v => 0 <= v < 256) h.
Definition blank (c : ascii) : Prop := acode c = 32 \/ 9 <= acode c <= 13.

(** Members of a JSON object. *)
Definition field (k : string) (j : json) : option json := match j with JObj l => aget k l | _ => None end.
Definition elements (j : json) : list json := match j with JObj l => map snd l | JArr l => l | _ => [] end.
(** Targets metadata that is still valid at [now] and names the commit. *)
Definition names_commit (j : json) (ref now : string) : Prop :=
  exists s e exp tl t h v,
    field "signed" j = Some s /\ field "expires" s = Some e /\ jas_string e = Ok exp /\
    String.length exp = 20%nat /\ now <> "" /\ str_ltb exp now = false /\
    field "targets" s = Some tl /\ In t (elements tl) /\ field "hashes" t = Some h /\ field "sha256" h = Some v /\ jas_string v = Ok ref.
(** The file of a commit on the server. *)
Definition commit_file (hex : string) : string :=
  match hex with
  | String a (String b r) => append "objects/" (String a (String b (append "/" (append r ".commit"))))
  | _ => ""
  end.
(** The server has the commit, and its Targets metadata names it. *)
Definition deployed (E : chk_env) (ref : string) : Prop :=
  ce_head E (commit_file ref) = Some 200 /\ exists j, ce_targets E = Some (200, j) /\ names_commit j ref (ce_now E).
(** URL joining: exactly one slash in between. *)
Definition no_end_slash (s : string) : string := if last_is slash s then drop_last s else s.
Definition no_first_slash (s : string) : string := match s with String a s' => if Ascii.eqb a slash then s' else s | _ => s end.
Definition joined (base suffix : string) : string := append (no_end_slash base) (String slash (no_first_slash suffix)).

(** What a shell makes of a simple command: the words between spaces.  Commands with other characters than these are not simple. *)
Definition plain (c : ascii) : bool :=
  let n := acode c in
  ((48 <=? n) && (n <=? 57)) || ((65 <=? n) && (n <=? 90)) || ((97 <=? n) && (n <=? 122)) ||
  existsb (Ascii.eqb c) ["-"%char; "."%char; "_"%char; "/"%char; ","%char; ":"%char; "+"%char; "@"%char].
Fixpoint all_chars (f : ascii -> bool) (s : string) : bool := match s with EmptyString => true | String c s' => f c && all_chars f s' end.
Fixpoint pieces (s : string) : list string :=
  match s with
  | EmptyString => [""]
  | String c s' => if Ascii.eqb c " " then "" :: pieces s' else match pieces s' with p :: r => String c p :: r | [] => [String c ""] end
  end.
Definition words (s : string) : list string := filter (fun w => negb (String.eqb w "")) (pieces s).
Definition shell (s : string) : option (list string) :=
  if all_chars (fun c => plain c || Ascii.eqb c " ") s then Some (words s) else None.
(** The commands that should be run to publish an image. *)
Definition sign_words (cred_path name hex hwids : string) : list (list string) :=
  [ ["garage-sign"; "init"; "--repo"; "aktualizr"; "--credentials"; cred_path];
    ["garage-sign"; "targets"; "pull"; "--repo"; "aktualizr"];
    ["garage-sign"; "targets"; "add"; "--repo"; "aktualizr"; "--format"; "OSTREE"; "--length"; "0"; "--name"; name; "--version"; hex;
     "--sha256"; hex; "--hardwareids"; hwids];
    ["garage-sign"; "targets"; "sign"; "--key-name"; "targets"; "--repo"; "aktualizr"];
    ["garage-sign"; "targets"; "push"; "--repo"; "aktualizr"] ].
