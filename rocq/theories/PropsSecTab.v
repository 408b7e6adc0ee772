(** Property C191: what is stored about a Secondary is read back as last written. *)
From Coq Require Import ListDec.
From Verif Require Import Base TufModel DlProofs SecTabModel.

(** ** Specification: by the history of calls, the most recent first *)
Definition usable_b (l : list (string * string)) : bool := match l with [] => false | _ => if ListDec.NoDup_dec string_dec (map fst l) then true else false end.
(** The ECUs registered: of the last usable list since the last clearing. *)
Fixpoint ecus_at (h : list swrite) : list (string * string) :=
  match h with
  | [] => []
  | WEcus l :: h' => if usable_b l then l else ecus_at h'
  | WClear :: _ => []
  | _ :: h' => ecus_at h'
  end.
(** The Secondaries: all but the first. *)
Definition secondaries_at (h : list swrite) : list (string * string) := match ecus_at h with [] => [] | _ :: l => l end.
Fixpoint last_data (s : string) (h : list swrite) : option string :=
  match h with
  | [] => None
  | WData s' d :: h' => if string_dec s s' then Some d else last_data s h'
  | WClear :: _ => None
  | _ :: h' => last_data s h'
  end.
Definition is_secondary (s : string) (h : list swrite) : bool := if in_dec string_dec s (map fst (secondaries_at h)) then true else false.
Definition has {A} (o : option A) : bool := match o with Some _ => true | None => false end.
(** Information is taken about a Secondary, and about an ECU something is known of. *)
Fixpoint last_info (s : string) (h : list swrite) : option (string * pkey) :=
  match h with
  | [] => None
  | WInfo s' ty k :: h' =>
      if string_dec s s' then (if is_secondary s h' || has (last_data s h') || has (last_info s h') then Some (ty, k) else last_info s h')
      else last_info s h'
  | WClear :: _ => None
  | _ :: h' => last_info s h'
  end.
Definition known (s : string) (h : list swrite) : bool := has (last_data s h) || has (last_info s h).
(** A manifest is only kept of an ECU something is known of. *)
Fixpoint last_manifest (s : string) (h : list swrite) : option string :=
  match h with
  | [] => None
  | WManifest s' m :: h' => if string_dec s s' then (if known s h' then Some m else last_manifest s h') else last_manifest s h'
  | WClear :: _ => None
  | _ :: h' => last_manifest s h'
  end.
Definition or_empty (o : option string) : string := match o with Some s => s | None => "" end.
Definition described (h : list swrite) (e : string * string) : sinfo :=
  let '(ty, k) := match last_info (fst e) h with Some p => p | None => ("", ("", KUnknown)) end in
  {| i_serial := fst e; i_hw := snd e; i_type := ty; i_key := k; i_extra := or_empty (last_data (fst e) h) |}.
(** Keys are made by constructors that check the length of an RSA key. *)
Definition real_key (ident : string -> keytype) (k : pkey) : Prop :=
  match snd k with KRsa2048 => ident (fst k) = KRsa2048 | KRsa3072 => ident (fst k) = KRsa3072 | KRsa4096 => ident (fst k) = KRsa4096 | _ => True end.
Definition real_write ident (w : swrite) : Prop := match w with WInfo _ _ k => real_key ident k | _ => True end.
(** The table after a history that started with an empty one. *)
Fixpoint table (h : list swrite) : stab := match h with [] => {| t_ecus := []; t_rows := [] |} | w :: h' => fst (swrite_run w (table h')) end.

Definition C191_statement : Prop := forall ident h, Forall (real_write ident) h ->
  (* all Secondaries, in order, each as last described *)
  get_secondaries ident (table h) = Ok (map (described h) (secondaries_at h)) /\
  (forall s, load_info ident s (table h) = Ok (option_map (described h) (find (fun e => String.eqb (fst e) s) (secondaries_at h)))) /\
  (forall s, load_manifest s (table h) = (if string_dec (or_empty (last_manifest s h)) "" then None else last_manifest s h)) /\
  (* a call fails exactly if it describes an ECU that is neither a Secondary nor known, and then nothing changes *)
  (forall s ty k, snd (swrite_run (WInfo s ty k) (table h)) = (is_secondary s h || known s h)) /\
  (forall w, snd (swrite_run w (table h)) = false -> table (w :: h) = table h).

(** ** Proof *)
Lemma nodup_str_dec l : nodup_str l = if ListDec.NoDup_dec string_dec l then true else false.
Proof.
  destruct (ListDec.NoDup_dec string_dec l) as [N|N].
  - induction N as [|x l Hx N IH]; [reflexivity|]. cbn [nodup_str]. rewrite IH, andb_true_r. apply negb_true_iff. apply not_true_is_false. intros M. apply Hx.
    unfold mem_str in M. apply existsb_exists in M. destruct M as (y & I1 & E). apply String.eqb_eq in E. subst. exact I1.
  - apply not_true_is_false. intros M. apply N. clear N. induction l as [|x l IH]; [constructor|]. cbn [nodup_str] in M. apply andb_prop in M. destruct M as (A & B).
    constructor; [|exact (IH B)]. intros I1. apply negb_true_iff in A. assert (T : mem_str x l = true) by (apply existsb_exists; exists x; split; [exact I1|apply String.eqb_refl]). congruence.
Qed.
Lemma store_ecus_usable l t : store_ecus l t = if usable_b l then {| t_ecus := l; t_rows := t_rows t |} else t.
Proof. unfold store_ecus, usable_b. destruct l as [|e l]; [reflexivity|]. rewrite nodup_str_dec. destruct (ListDec.NoDup_dec string_dec (map fst (e :: l))); reflexivity. Qed.
Lemma existsb_in s (l : list (string * string)) : existsb (fun e => String.eqb (fst e) s) l = if in_dec string_dec s (map fst l) then true else false.
Proof.
  destruct (in_dec string_dec s (map fst l)) as [I1|N].
  - apply in_map_iff in I1. destruct I1 as (e & <- & I1). apply existsb_exists. exists e. split; [exact I1|apply String.eqb_refl].
  - apply not_true_is_false. intros E. apply N. apply existsb_exists in E. destruct E as (e & I1 & Q). apply String.eqb_eq in Q. subst. apply in_map. exact I1.
Qed.
Lemma eqb_dec {A} s s' (a b : A) : (if String.eqb s s' then a else b) = (if string_dec s s' then a else b).
Proof. destruct (String.eqb_spec s s'), (string_dec s s'); congruence. Qed.

(** The row that the history says. *)
Definition spec_row (s : string) (h : list swrite) : option srow :=
  if known s h then Some {| sr_type := option_map fst (last_info s h); sr_kt := option_map (fun p => kt_text (snd (snd p))) (last_info s h);
                            sr_key := option_map (fun p => fst (snd p)) (last_info s h); sr_extra := last_data s h; sr_manifest := last_manifest s h |} else None.
Lemma unknown_manifest s h : known s h = false -> last_manifest s h = None.
Proof.
  induction h as [|w h IH]; [reflexivity|]. intros K. destruct w as [l|s' ty k|s' d|s' m|]; try reflexivity.
  - apply IH. exact K.
  - cbn [last_manifest]. apply IH. unfold known in *. cbn [last_data last_info] in K. destruct (string_dec s s'); [|exact K].
    destruct (is_secondary s h || has (last_data s h) || has (last_info s h)); [|exact K]. cbn [has] in K. rewrite orb_true_r in K. discriminate.
  - cbn [last_manifest]. apply IH. unfold known in *. cbn [last_data last_info] in K. destruct (string_dec s s'); [discriminate K|exact K].
  - cbn [last_manifest]. assert (K' : known s h = false) by exact K. destruct (string_dec s s'); [rewrite K'|]; exact (IH K').
Qed.
Lemma table_spec : forall h, t_ecus (table h) = ecus_at h /\ forall s, aget s (t_rows (table h)) = spec_row s h.
Proof.
  induction h as [|w h (E & R)]; [split; reflexivity|]. destruct w as [l|s' ty k|s' d|s' m|].
  - cbn [table swrite_run fst ecus_at]. rewrite store_ecus_usable. destruct (usable_b l); [split; [reflexivity|intros s; exact (R s)]|split; [exact E|intros s; exact (R s)]].
  - cbn [table swrite_run ecus_at]. unfold save_info.
    assert (T : tl (t_ecus (table h)) = secondaries_at h) by (rewrite E; unfold secondaries_at; destruct (ecus_at h); reflexivity).
    rewrite (R s'), T, existsb_in. fold (is_secondary s' h).
    destruct (spec_row s' h) as [r|] eqn:Q.
    + split; [exact E|]. intros s. cbn [fst t_rows]. rewrite aget_aset, eqb_dec. unfold spec_row at 1, known. cbn [last_data last_info last_manifest].
      destruct (string_dec s s') as [->|N]; [|exact (R s)]. unfold spec_row in Q. destruct (known s' h) eqn:K; [|discriminate]. injection Q as <-. unfold known in K.
      rewrite <- orb_assoc, K, orb_true_r. cbn [has]. rewrite orb_true_r. reflexivity.
    + assert (K : known s' h = false) by (unfold spec_row in Q; destruct (known s' h); [discriminate|reflexivity]).
      pose proof (unknown_manifest s' h K) as M. unfold known in K. apply orb_false_iff in K. destruct K as (K1 & K2).
      destruct (is_secondary s' h) eqn:S1.
      * split; [exact E|]. intros s. cbn [fst t_rows]. rewrite aget_aset, eqb_dec. unfold spec_row at 1, known. cbn [last_data last_info last_manifest].
        destruct (string_dec s s') as [->|N]; [|exact (R s)]. rewrite S1, K1. cbn [orb has]. rewrite M. destruct (last_data s' h); [discriminate K1|reflexivity].
      * split; [exact E|]. intros s. cbn [fst]. rewrite (R s). unfold spec_row, known. cbn [last_data last_info last_manifest].
        destruct (string_dec s s') as [->|N]; [|reflexivity]. rewrite S1, K1, K2. cbn [orb]. rewrite K2. reflexivity.
  - cbn [table swrite_run fst ecus_at]. split; [exact E|]. intros s. unfold save_extra. cbn [t_rows]. rewrite aget_aset, eqb_dec, (R s').
    remember (spec_row s' h) as o eqn:Ho. unfold spec_row, known. cbn [last_data last_info last_manifest]. destruct (string_dec s s') as [->|N]; [|exact (R s)]. cbn [has orb]. f_equal.
    rewrite Ho. unfold spec_row. destruct (known s' h) eqn:K; [reflexivity|]. rewrite (unknown_manifest s' h K). unfold known in K. apply orb_false_iff in K. destruct K as (_ & K2).
    destruct (last_info s' h); [discriminate K2|reflexivity].
  - cbn [table swrite_run fst ecus_at]. unfold save_manifest. rewrite (R s'). destruct (spec_row s' h) as [r|] eqn:Q.
    + split; [exact E|]. intros s. cbn [t_rows]. rewrite aget_aset, eqb_dec. unfold spec_row at 1, known at 1. cbn [last_data last_info last_manifest].
      destruct (string_dec s s') as [->|N]; [|exact (R s)]. unfold spec_row in Q. destruct (known s' h) eqn:K; [|discriminate]. injection Q as <-. unfold known in K. rewrite K. reflexivity.
    + split; [exact E|]. intros s. rewrite (R s). unfold spec_row, known at 2. cbn [last_data last_info last_manifest]. fold (known s h).
      destruct (string_dec s s') as [->|N]; [|reflexivity]. unfold spec_row in Q. destruct (known s' h) eqn:K; [discriminate|reflexivity].
  - split; reflexivity.
Qed.
Lemma last_info_real ident s : forall h, Forall (real_write ident) h -> forall ty k, last_info s h = Some (ty, k) -> real_key ident k.
Proof.
  induction h as [|w h IH]; intros F ty k H; [discriminate|]. inversion F as [|a b F1 F2]; subst. destruct w as [l|s' ty' k'|s' d|s' m|]; cbn [last_info] in H; try (eapply IH; eassumption).
  - destruct (string_dec s s'); [|eapply IH; eassumption]. destruct (is_secondary s h || has (last_data s h) || has (last_info s h)); [injection H as <- <-; exact F1|eapply IH; eassumption].
  - discriminate H.
Qed.
Lemma kt_text_of k : kt_of (kt_text k) = k.
Proof. destruct k; reflexivity. Qed.
Lemma info_spec ident h e : Forall (real_write ident) h -> info_of ident e (spec_row (fst e) h) = Ok (described h e).
Proof.
  intros F. unfold info_of, described, spec_row, known. destruct (last_info (fst e) h) as [(ty, (v, k))|] eqn:L; cbn [has option_map fst snd].
  - rewrite orb_true_r. cbn [sr_kt sr_key sr_type sr_extra value_or]. pose proof (last_info_real ident _ h F ty (v, k) L) as K. unfold real_key in K. cbn [fst snd] in K.
    rewrite kt_text_of. assert (M : mk_pkey ident v k = Ok (v, k)) by (unfold mk_pkey; destruct k; cbn [is_rsa andb] in *; rewrite ?K; reflexivity).
    rewrite M. assert (T : String.eqb (kt_text k) "" = false) by (destruct k; reflexivity). rewrite T. reflexivity.
  - rewrite orb_false_r. destruct (last_data (fst e) h); reflexivity.
Qed.
Theorem C191 : C191_statement.
Proof.
  intros ident h F. destruct (table_spec h) as (E & R).
  assert (T : tl (t_ecus (table h)) = secondaries_at h) by (rewrite E; unfold secondaries_at; destruct (ecus_at h); reflexivity).
  split; [|split; [|split; [|split]]].
  - unfold get_secondaries. rewrite T. clear T. induction (secondaries_at h) as [|e l IH]; [reflexivity|]. cbn [infos_of map]. rewrite (R (fst e)), (info_spec ident h e F), IH; reflexivity.
  - intros s. unfold load_info. rewrite T. destruct (find _ (secondaries_at h)) as [e|] eqn:Q; [|reflexivity]. apply find_some in Q. destruct Q as (_ & Q). apply String.eqb_eq in Q. subst s.
    rewrite (R (fst e)), (info_spec ident h e F). reflexivity.
  - intros s. unfold load_manifest. rewrite (R s). unfold spec_row. destruct (known s h) eqn:K.
    + cbn [sr_manifest]. rewrite eqb_dec. unfold value_or, or_empty. destruct (last_manifest s h) as [m|]; [reflexivity|]. destruct (string_dec "" ""); [reflexivity|congruence].
    + rewrite (unknown_manifest s h K). destruct (string_dec _ ""); reflexivity.
  - intros s ty k. cbn [swrite_run]. unfold save_info. rewrite (R s), T, existsb_in. fold (is_secondary s h). unfold spec_row. destruct (known s h); cbn [snd]; [rewrite orb_true_r; reflexivity|].
    rewrite orb_false_r. destruct (is_secondary s h); reflexivity.
  - intros w. cbn [table]. destruct w as [l|s ty k|s d|s m|]; cbn [swrite_run snd]; try discriminate. destruct (save_info s ty k (table h)); [discriminate|reflexivity].
Qed.
Print Assumptions C191.
(** In particular: writing about one ECU never changes what is read about another. *)
Theorem C191_others ident h w s : Forall (real_write ident) (w :: h) -> match w with WInfo s' _ _ | WData s' _ | WManifest s' _ => s' <> s | _ => False end ->
  load_info ident s (table (w :: h)) = load_info ident s (table h) /\ load_manifest s (table (w :: h)) = load_manifest s (table h).
Proof.
  intros F N. inversion F as [|a b F1 F2]; subst. destruct (C191 ident (w :: h) F) as (_ & A & B & _). destruct (C191 ident h F2) as (_ & A' & B' & _). rewrite A, A', B, B'.
  assert (D : forall e, fst e = s -> described (w :: h) e = described h e).
  { intros e <-. unfold described. destruct w as [l|s' ty k|s' d|s' m|]; try contradiction; cbn [last_info last_data]; destruct (string_dec (fst e) s'); congruence. }
  assert (S1 : secondaries_at (w :: h) = secondaries_at h) by (destruct w; try contradiction; reflexivity).
  assert (M : last_manifest s (w :: h) = last_manifest s h) by (destruct w as [l|s' ty k|s' d|s' m|]; try contradiction; cbn [last_manifest]; [reflexivity..|]; destruct (string_dec s s'); congruence).
  rewrite M, S1. split; [|reflexivity]. f_equal. destruct (find _ (secondaries_at h)) as [e|] eqn:Q; [|reflexivity]. apply find_some in Q. destruct Q as (_ & Q). apply String.eqb_eq in Q.
  cbn [option_map]. rewrite (D e Q). reflexivity.
Qed.
Print Assumptions C191_others.
Example C191_example : let id := fun _ => KRsa2048 in
  let h := [WData "s2" "addr2"; WInfo "s1" "IP" ("key1b", KRsa2048); WManifest "s1" "m"; WData "s1" "addr"; WInfo "s1" "IP" ("key1", KEd25519); WInfo "s3" "IP" ("k", KUnknown); WEcus [("p", "hp"); ("s1", "h1"); ("s2", "h2")]] in
  Forall (real_write id) h /\
  get_secondaries id (table h) = Ok [{| i_serial := "s1"; i_hw := "h1"; i_type := "IP"; i_key := ("key1b", KRsa2048); i_extra := "addr" |};
                                      {| i_serial := "s2"; i_hw := "h2"; i_type := ""; i_key := ("", KUnknown); i_extra := "addr2" |}] /\
  load_manifest "s1" (table h) = Some "m".
Proof. cbv zeta. split; [repeat (apply Forall_cons; [exact I || reflexivity|]); apply Forall_nil|]. split; reflexivity. Qed.
(** What was set about an ECU that is not registered is kept and shown once it is. *)
Example C191_unregistered : let h := [WEcus [("p", "hp"); ("s1", "h1")]; WData "s1" "early"] in
  get_secondaries (fun _ => KUnknown) (table h) = Ok [{| i_serial := "s1"; i_hw := "h1"; i_type := ""; i_key := ("", KUnknown); i_extra := "early" |}].
Proof. reflexivity. Qed.
