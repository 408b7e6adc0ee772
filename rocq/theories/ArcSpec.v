(** What a user expects of credential archives. *)
From Verif Require Import Base Json CodecModel ArcModel.

(** The archive has a complete file of that name and content. *)
Definition holds (x : file) (f c : string) : Prop :=
  exists a e, x = Arc a /\ In e (a_entries a) /\ e_name e = f /\ e_data e = c /\ e_ok e = true.
Definition distinct (x : file) : Prop := match x with Arc a => NoDup (map e_name (a_entries a)) | _ => True end.
Definition undamaged (x : file) : Prop := match x with Arc a => a_ok a = true /\ Forall (fun e => e_ok e = true) (a_entries a) | _ => True end.

(** [u] is [s] without the white space around it. *)
Fixpoint all_chars (p : ascii -> bool) (s : string) : Prop := match s with EmptyString => True | String c s' => p c = true /\ all_chars p s' end.
Fixpoint last_char (s : string) : option ascii := match s with EmptyString => None | String c EmptyString => Some c | String _ s' => last_char s' end.
Definition first_char (s : string) : option ascii := match s with EmptyString => None | String c _ => Some c end.
Definition trimmed (p : ascii -> bool) (s u : string) : Prop :=
  (exists a b, s = append a (append u b) /\ all_chars p a /\ all_chars p b) /\
  (forall c, first_char u = Some c -> p c = false) /\ (forall c, last_char u = Some c -> p c = false).

(** The kinds of trouble in which the archive is left alone. *)
Definition early (e : ending) : Prop := match e with NoTemp | KillCopy _ | FailCopy _ => True | _ => False end.

(** What treehub.json says. *)
Definition says (j : json) (section key value : string) : Prop :=
  exists o v, pt_child section j = Some o /\ pt_child key o = Some v /\ pt_text v = value.
Definition says_nothing (j : json) (section key : string) : Prop :=
  forall o, pt_child section j = Some o -> pt_child key o = None.
Definition setting (j : json) (section key value : string) : Prop :=
  says j section key value \/ (says_nothing j section key /\ value = "").
