(** C143-C148: credential archives. *)
From Verif Require Import Base Json CodecModel CodecProofs ArcModel ArcSpec ArcProofs.

(** C143: removing a file from an archive leaves every other file as it was, however the removal ends. *)
Definition C143_statement : Prop :=
  forall f d e r d', remove f d e = (r, d') -> forall g c, g <> f -> (holds (d_arc d) g c <-> holds (d_arc d') g c).

Definition ent (n c : string) : entry := {| e_name := n; e_data := c; e_ok := true |}.
Definition zip : archive := {| a_entries := [ent p12_name "p12"; ent "autoprov.url" "https://ota"; ent "treehub.json" "{}"]; a_ok := true |}.
Definition dk (a : archive) : disk := {| d_arc := Arc a; d_tmp := [] |}.
Lemma zip_url : holds (Arc zip) "autoprov.url" "https://ota".
Proof. exists zip, (ent "autoprov.url" "https://ota"). repeat split. right. now left. Qed.
Lemma empty_holds b g c : ~ holds (Arc {| a_entries := []; a_ok := b |}) g c.
Proof. intros (x & e & [= <-] & [] & _). Qed.

(** The new archive replaces the old one before it is written: a device that stops then has lost everything. *)
Theorem C143_refuted : ~ C143_statement.
Proof.
  intros H. specialize (H p12_name (dk zip) (KillFlush 0) RKilled {| d_arc := Arc {| a_entries := []; a_ok := false |}; d_tmp := [] |} eq_refl "autoprov.url" "https://ota").
  destruct H as [H _]; [discriminate|]. exact (empty_holds _ _ _ (H zip_url)).
Qed.
(** The same on a full disk, and the removal reports success. *)
Theorem C143_disk_full_refuted : ~ (forall f d e d', remove f d e = (ROk, d') -> forall g c, g <> f -> holds (d_arc d) g c -> holds (d_arc d') g c).
Proof.
  intros H. specialize (H p12_name (dk zip) (FailEnd 0) {| d_arc := Arc {| a_entries := []; a_ok := false |}; d_tmp := [] |} eq_refl "autoprov.url" "https://ota").
  exact (empty_holds _ _ _ (H ltac:(discriminate) zip_url)).
Qed.
(** A file that was damaged looks complete afterwards. *)
Theorem C143_damaged_refuted : ~ (forall f d d', remove f d Fine = (ROk, d') -> forall g c, g <> f -> holds (d_arc d') g c -> holds (d_arc d) g c).
Proof.
  intros H.
  set (a := {| a_entries := [ent p12_name "p12"; {| e_name := "autoprov.url"; e_data := "https://o"; e_ok := false |}]; a_ok := true |}).
  specialize (H p12_name (dk a) {| d_arc := Arc {| a_entries := [ent "autoprov.url" "https://o"]; a_ok := true |}; d_tmp := [] |} eq_refl "autoprov.url" "https://o").
  destruct H as (b & e & [= <-] & Hi & Hn & Hd & Hk); [discriminate| |].
  - eexists _, (ent "autoprov.url" "https://o"). split; [reflexivity|]. repeat split. now left.
  - destruct Hi as [<-|[<-|[]]]; discriminate.
Qed.
(** After a failed removal, a copy of the other files stays on the disk. *)
Theorem C143_leftover_refuted : ~ (forall f d e d', remove f d e = (RThrow, d') -> d_tmp d' = d_tmp d).
Proof. intros H. specialize (H p12_name (dk zip) (FailCopy 2) _ eq_refl). discriminate. Qed.

(** Holds for an undamaged archive when all can be written, or when the trouble comes before the end of the copy. *)
Theorem C143_partial : forall f d e r d', remove f d e = (r, d') -> undamaged (d_arc d) -> e = Fine \/ early e ->
  forall g c, g <> f -> (holds (d_arc d) g c <-> holds (d_arc d') g c).
Proof.
  intros f d e r d' H U [->|E] g c Hg.
  - unfold remove in H. destruct (d_arc d) as [|t|a] eqn:Ed.
    + injection H as <- <-. now rewrite Ed.
    + injection H as <- <-. reflexivity.
    + destruct U as [_ U]. destruct (existsb _ _); injection H as <- <-; cbn [d_arc]; [now apply removed_others|now rewrite Ed].
  - destruct (remove_early _ _ _ _ _ E H) as [-> _]. reflexivity.
Qed.
(** Whatever happens: when the removal reports success, the file is gone; and when it fails with an exception, nothing has changed. *)
Theorem C143_gone : forall f d e d', remove f d e = (ROk, d') -> forall c, ~ holds (d_arc d') f c.
Proof. exact removed_gone. Qed.
Theorem C143_failed : forall f d e d', remove f d e = (RThrow, d') -> d_arc d' = d_arc d.
Proof.
  intros f d e d' H. unfold remove in H. destruct (d_arc d) as [|t|a] eqn:E.
  - injection H as <-. exact E.
  - destruct e; injection H as <-; cbn [d_arc]; auto.
  - destruct e; try destruct (existsb _ _); try discriminate; injection H as <-; cbn [d_arc]; auto.
Qed.
(** And it succeeds if the file is there and nothing goes wrong. *)
Theorem C143_succeeds : forall f d c, holds (d_arc d) f c -> exists d', remove f d Fine = (ROk, d') /\ d_tmp d' = d_tmp d.
Proof.
  intros f d c (a & e & E & H1 & H2 & _). unfold remove. rewrite E.
  assert (X : existsb (fun e0 => String.eqb (e_name e0) f) (a_entries a) = true).
  { apply existsb_exists. exists e. split; [exact H1|now apply String.eqb_eq]. }
  rewrite X. eexists. split; reflexivity.
Qed.

(** C144: what is read from an archive under a name is a complete file of that name. *)
Definition C144_statement : Prop := forall x f c, read_file x f false = Ok c -> holds x f c.
(** Files of the same name are joined. *)
Theorem C144_refuted : ~ C144_statement.
Proof.
  intros H. specialize (H (Arc {| a_entries := [ent "autoprov.url" "https://a"; ent "autoprov.url" "https://b"]; a_ok := true |}) "autoprov.url" "https://ahttps://b" eq_refl).
  destruct H as (a & e & [= <-] & Hi & _ & Hd & _). destruct Hi as [<-|[<-|[]]]; discriminate.
Qed.
(** Holds, and every complete file can be read, when no name is there twice. *)
Theorem C144_partial : forall x f c, distinct x -> (read_file x f false = Ok c <-> holds x f c).
Proof. intros. now apply read_holds. Qed.

(** C145: once a start with shared credentials has succeeded, they are no longer in the archive. *)
Definition C145_statement : Prop :=
  forall l d d', dv_tls d = None -> starts MShared l d SFailed = (SDone, d') -> forall c, ~ holds (d_arc (dv_disk d')) p12_name c.

Definition newdev : dev := {| dv_tls := None; dv_disk := dk zip |}.
Definition devcreds : tls := {| t_ca := "ca"; t_cert := "cert"; t_pkey := "pkey" |}.
Definition good_start : start_env :=
  {| se_boot := fun _ => true; se_post := Some devcreds; se_kill_before := false; se_kill_stored := false; se_rm1 := Fine; se_rm2 := Fine |}.
Definition killed_start : start_env :=
  {| se_boot := fun _ => true; se_post := Some devcreds; se_kill_before := false; se_kill_stored := true; se_rm1 := Fine; se_rm2 := Fine |}.
Definition readonly_start : start_env :=
  {| se_boot := fun _ => true; se_post := Some devcreds; se_kill_before := false; se_kill_stored := false; se_rm1 := NoTemp; se_rm2 := NoTemp |}.
Lemma zip_p12 : holds (Arc zip) p12_name "p12".
Proof. exists zip, (ent p12_name "p12"). repeat split. now left. Qed.
(** A device that stops right after it has stored its own credentials keeps the shared ones for ever. *)
Theorem C145_refuted : ~ C145_statement.
Proof.
  intros H. apply (H [killed_start; good_start] newdev {| dv_tls := Some devcreds; dv_disk := dk zip |} eq_refl) with (c := "p12"); [|exact zip_p12].
  vm_compute. reflexivity.
Qed.
(** So does one whose first start fails because the archive cannot be rewritten. *)
Theorem C145_readonly_refuted : exists d', starts MShared [readonly_start; good_start] newdev SFailed = (SDone, d') /\ holds (d_arc (dv_disk d')) p12_name "p12".
Proof. eexists. split; [vm_compute; reflexivity|exact zip_p12]. Qed.

(** Holds over every sequence of starts in which none is stopped between storing the credentials and rewriting the archive. *)
Theorem C145_partial : forall l d d', dv_tls d = None -> starts MShared l d SFailed = (SDone, d') ->
  Forall (fun v => se_kill_stored v = false /\ ~ early (se_rm1 v)) l -> forall c, ~ holds (d_arc (dv_disk d')) p12_name c.
Proof.
  intros l d d' T H F. apply no_name_gone. apply (starts_gone l d SFailed SDone d' F H).
  - rewrite T. discriminate.
  - destruct (starts_done_ok _ _ _ _ _ H) as [K|K]; [discriminate|exact K].
Qed.
(** In the mode that keeps them, and whenever there are already credentials, a start never touches the archive. *)
Theorem C145_reuse : forall v d r d', init_tls MReuse v d = (r, d') -> dv_disk d' = dv_disk d.
Proof.
  intros v d r d' H. unfold init_tls in H. destruct (tls_ok (dv_tls d)); [now injection H as _ <-|].
  destruct (read_file _ _ _); [|now injection H as _ <-]. destruct (_ || _)%bool; [now injection H as _ <-|].
  destruct (se_kill_before v); [now injection H as _ <-|]. destruct (se_post v) as [t|]; [|now injection H as _ <-].
  destruct (se_kill_stored v); [now injection H as _ <-|]. destruct (negb _); now injection H as _ <-.
Qed.

(** C146: an OSTree Secondary gets the credentials and the server of its Primary; without credentials it gets none. *)
Theorem C146 : forall files t url,
  (files = true -> forall creds, t = Some creds ->
     exists u, extract_credentials (treehub_credentials files t url) = Ok (creds, u) /\ trimmed is_space url u) /\
  (files = false \/ t = None -> exists e, extract_credentials (treehub_credentials files t url) = Throw e).
Proof.
  intros files t url. split.
  - intros -> creds ->. exists (trim_by is_space (trim_by blank url)). split; [destruct creds; reflexivity|].
    eapply trimmed_twice; [exact blank_space|apply trim_by_spec|apply trim_by_spec].
  - intros H. exists EStd. destruct H as [ -> | -> ]; [reflexivity|]. destruct files; reflexivity.
Qed.

(** C147: the tools use the credentials of the file: with client_auth.p12 in the archive this one, else what treehub.json says;
    a damaged archive is refused. *)
Definition described (x : file) (j : json) (c : creds) : Prop :=
  (forall p, holds x "client_auth.p12" p -> cr_method c = ATls /\ cr_p12 c = p) /\
  ((forall p, ~ holds x "client_auth.p12" p) ->
     match cr_method c with
     | AOauth2 => setting j "oauth2" "server" (cr_server c) /\ setting j "oauth2" "client_id" (cr_id c) /\
                  setting j "oauth2" "client_secret" (cr_secret c) /\ setting j "oauth2" "scope" (cr_scope c) /\ pt_child "oauth2" j <> None
     | ABasic => setting j "basic_auth" "user" (cr_user c) /\ setting j "basic_auth" "password" (cr_pass c) /\
                 pt_child "oauth2" j = None /\ pt_child "basic_auth" j <> None
     | ANone => pt_child "oauth2" j = None /\ pt_child "basic_auth" j = None
     | ATls => False
     end) /\
  setting j "ostree" "server" (cr_ostree c) /\
  (forall u, holds x "tufrepo.url" u -> trimmed blank u (cr_repo c)).
Definition C147_statement : Prop := forall parse a c, load_creds parse (Arc a) = Ok c ->
  undamaged (Arc a) /\ exists text j, holds (Arc a) "treehub.json" text /\ parse text = Some j.

(** An archive that ends in the middle is taken for a shorter one. *)
Theorem C147_refuted : ~ C147_statement.
Proof.
  intros H. specialize (H (fun _ => Some (JObj [])) {| a_entries := [ent "treehub.json" "{}"]; a_ok := false |}).
  destruct (H _ eq_refl) as [[K _] _]. discriminate.
Qed.

(** Holds for undamaged archives without double names: they are accepted just if treehub.json is there and is JSON, and understood as described. *)
Theorem C147_partial : forall parse a, undamaged (Arc a) -> distinct (Arc a) ->
  ((exists c, load_creds parse (Arc a) = Ok c) <-> exists text j, holds (Arc a) "treehub.json" text /\ parse text = Some j) /\
  (forall c, load_creds parse (Arc a) = Ok c -> exists text j, holds (Arc a) "treehub.json" text /\ parse text = Some j /\ described (Arc a) j c).
Proof.
  intros parse a [_ U] D. cbn [distinct] in D.
  assert (Uniq : forall e e', In e (a_entries a) -> In e' (a_entries a) -> e_name e = e_name e' -> e = e').
  { clear U. induction (a_entries a) as [|x l IH]; [intros e e' []|]. cbn [map] in D. inversion D as [|y z N1 N2]; subst.
    intros e e' [<-|He] [<-|He'] E; auto.
    - exfalso. apply N1. rewrite E. now apply in_map.
    - exfalso. apply N1. rewrite <- E. now apply in_map. }
  assert (Hh : forall e, In e (a_entries a) -> holds (Arc a) (e_name e) (e_data e)).
  { intros e He. exists a, e. repeat split; auto. rewrite Forall_forall in U. now apply U. }
  assert (Sound : forall c, load_creds parse (Arc a) = Ok c ->
    exists text j, holds (Arc a) "treehub.json" text /\ parse text = Some j /\ described (Arc a) j c).
  { intros c H. cbn [load_creds] in H. destruct (load_entries (a_entries a) None None None) as [[[j p] r]|] eqn:L; [|discriminate].
    cbn [bind] in H. destruct (load_entries_spec _ _ _ _ _ _ _ L) as (_ & A1 & A2 & A3 & _ & _ & A6 & A7).
    destruct j as [text|]; [|discriminate]. destruct A1 as [A1|(e & He & En & [= ->])]; [discriminate|].
    unfold from_json in H. destruct (parse (e_data e)) as [j|] eqn:P; [|discriminate].
    exists (e_data e), j. split; [rewrite <- En; now apply Hh|]. split; [exact P|].
    assert (Os : setting j "ostree" "server" (match pt_child "ostree" j with Some o => pt_get "server" o | None => "" end)).
    { destruct (pt_child "ostree" j) as [o|] eqn:Eo; [now apply pt_setting|]. right. split; [|reflexivity]. intros o K. congruence. }
    assert (Rp : forall u, holds (Arc a) "tufrepo.url" u -> trimmed blank u (or_empty r)).
    { intros u (b & e' & [= <-] & Hi & Hn & Hd & _). destruct A7 as (e2 & H2 & N2 & ->); [rewrite <- Hn; now apply in_map|].
      assert (e2 = e') by (apply Uniq; congruence). subst e2. cbn [or_empty]. rewrite Hd. apply trim_by_spec. }
    assert (Pp : forall q, holds (Arc a) "client_auth.p12" q -> p = Some q).
    { intros q (b & e' & [= <-] & Hi & Hn & Hd & _). destruct A6 as (e2 & H2 & N2 & ->); [rewrite <- Hn; now apply in_map|].
      assert (e2 = e') by (apply Uniq; congruence). subst e2. now rewrite Hd. }
    destruct p as [p|].
    - injection H as <-. split; [|split; [|split; [exact Os|exact Rp]]].
      + intros q Hq. cbn [cr_method cr_p12 or_empty]. split; [reflexivity|]. now injection (Pp q Hq) as ->.
      + intros K. exfalso. destruct A2 as [A2|(e2 & H2 & N2 & _)]; [discriminate|]. apply (K (e_data e2)). rewrite <- N2. now apply Hh.
    - assert (Np : forall q, ~ holds (Arc a) "client_auth.p12" q) by (intros q Hq; discriminate (Pp q Hq)).
      destruct (pt_child "oauth2" j) as [o|] eqn:Eo; [|destruct (pt_child "basic_auth" j) as [b|] eqn:Eb]; injection H as <-;
        (split; [intros q Hq; exfalso; exact (Np q Hq)|split; [intros _|split; [exact Os|exact Rp]]]);
        cbn [cr_method cr_server cr_id cr_secret cr_scope cr_user cr_pass].
      + repeat (split; [now apply pt_setting|]). congruence.
      + repeat (split; [now apply pt_setting|]). split; congruence.
      + auto. }
  split; [split|exact Sound].
  - intros (c & H). destruct (Sound c H) as (text & j & H1 & H2 & _). eauto.
  - intros (text & j & H1 & H2). cbn [load_creds]. destruct (load_entries_ok _ U None None None) as [[[j0 p] r] L]. rewrite L. cbn [bind].
    destruct (load_entries_spec _ _ _ _ _ _ _ L) as (_ & _ & _ & _ & _ & A5 & _).
    destruct H1 as (b & e & [= <-] & Hi & Hn & Hd & _). destruct A5 as (e2 & He2 & N2 & ->); [rewrite <- Hn; now apply in_map|].
    assert (e2 = e) by (apply Uniq; congruence). subst e2. rewrite Hd. unfold from_json. rewrite H2. eauto.
Qed.
(** A file that cannot be read to its end is refused, at least if it is one of those that are needed. *)
Theorem C147_refuses : forall parse a e, In e (a_entries a) -> In (e_name e) ["treehub.json"; "client_auth.p12"; "tufrepo.url"] -> e_ok e = false ->
  exists x, load_creds parse (Arc a) = Throw x.
Proof.
  intros parse a e He Hn Hk. cbn [load_creds]. destruct (load_entries (a_entries a) None None None) as [[[j p] r]|x] eqn:L; [|cbn [bind]; eauto].
  destruct (load_entries_spec _ _ _ _ _ _ _ L) as (A0 & _). rewrite (A0 e He Hn) in Hk. discriminate.
Qed.

(** C148: when the authentication succeeds, requests carry the login, the certificate or the token that the server has issued. *)
Definition C148_statement : Prop :=
  forall parse c status body a, authenticate parse c status body = Some a ->
    match cr_method c with
    | ABasic => a = TBasic (cr_user c) (cr_pass c)
    | ATls => a = TTls (cr_p12 c)
    | ANone => a = TNone
    | AOauth2 => (cr_id c = "" /\ a = TNone) \/
                 (exists j t, cr_id c <> "" /\ status = 200 /\ parse body = Some j /\ pt_child "access_token" j = Some (JStr t) /\ t <> "" /\ a = TBearer t)
    end.
Definition oc : creds := {| cr_method := AOauth2; cr_p12 := ""; cr_repo := ""; cr_user := ""; cr_pass := ""; cr_server := "https://auth";
                            cr_id := "me"; cr_secret := "s"; cr_scope := ""; cr_ostree := "https://treehub" |}.
(** An answer without a token counts as success: requests are sent with an empty one. *)
Theorem C148_refuted : ~ C148_statement.
Proof.
  intros H. specialize (H (fun _ => Some (JObj [])) oc 200 "{}" _ eq_refl).
  cbn [cr_method oc] in H. destruct H as [[K _]|(j & t & _ & _ & [= <-] & K & _)]; discriminate.
Qed.
(** Holds when every answer with status 200 has a token. *)
Theorem C148_partial : forall parse c status body a, authenticate parse c status body = Some a ->
  (forall j, status = 200 -> parse body = Some j -> exists t, pt_child "access_token" j = Some (JStr t) /\ t <> "") ->
  match cr_method c with
  | ABasic => a = TBasic (cr_user c) (cr_pass c)
  | ATls => a = TTls (cr_p12 c)
  | ANone => a = TNone
  | AOauth2 => (cr_id c = "" /\ a = TNone) \/
               (exists j t, cr_id c <> "" /\ status = 200 /\ parse body = Some j /\ pt_child "access_token" j = Some (JStr t) /\ t <> "" /\ a = TBearer t)
  end.
Proof.
  intros parse c status body a H T. unfold authenticate in H. destruct (cr_method c); try (injection H as <-; reflexivity).
  destruct (String.eqb (cr_id c) "") eqn:E; [apply String.eqb_eq in E; injection H as <-; now left|]. apply String.eqb_neq in E.
  right. unfold token_of in H. destruct (status =? 200) eqn:S2; [|discriminate]. apply Z.eqb_eq in S2.
  destruct (parse body) as [j|] eqn:P; [|discriminate]. destruct (T j S2 eq_refl) as (t & T1 & T2). injection H as <-.
  exists j, t. unfold pt_get. rewrite T1. auto 10.
Qed.
(** Any other status is a failure. *)
Theorem C148_status : forall parse c status body, cr_method c = AOauth2 -> cr_id c <> "" -> status <> 200 -> authenticate parse c status body = None.
Proof.
  intros parse c status body M I S. unfold authenticate, token_of. rewrite M, (proj2 (String.eqb_neq _ _) I), (proj2 (Z.eqb_neq _ _) S). reflexivity.
Qed.
(** The request for the token: to the address of the credentials, with the scope as one field if the address is that of the token service. *)
Definition C148_request_statement : Prop :=
  forall c, ends_with "/token" (cr_server c) = true ->
    fst (token_request c) = cr_server c /\ split_all "&" (snd (token_request c)) = ["grant_type=client_credentials"; append "scope=" (cr_scope c)].
Theorem C148_request_refuted : ~ C148_request_statement.
Proof.
  intros H. specialize (H {| cr_method := AOauth2; cr_p12 := ""; cr_repo := ""; cr_user := ""; cr_pass := ""; cr_server := "https://auth/token";
    cr_id := "me"; cr_secret := "s"; cr_scope := "a&grant_type=password"; cr_ostree := "" |} eq_refl). vm_compute in H. destruct H as [_ H]. discriminate.
Qed.
Theorem C148_request_partial : forall c, has_char "&" (cr_scope c) = false ->
  (ends_with "/token" (cr_server c) = true ->
     fst (token_request c) = cr_server c /\ split_all "&" (snd (token_request c)) = ["grant_type=client_credentials"; append "scope=" (cr_scope c)]) /\
  (ends_with "/token" (cr_server c) = false ->
     fst (token_request c) = append (cr_server c) "/token" /\ split_all "&" (snd (token_request c)) = ["grant_type=client_credentials"]).
Proof.
  intros c H. unfold token_request. destruct (ends_with "/token" (cr_server c)); split; try discriminate; intros _; (split; [reflexivity|]); cbn [snd].
  - change (append "grant_type=client_credentials&scope=" (cr_scope c)) with
      (append "grant_type=client_credentials" (String "&" (append "scope=" (cr_scope c)))).
    rewrite split_all_app by reflexivity. rewrite split_all_plain; [reflexivity|].
    unfold has_char in *. cbn [append split_first]. destruct (split_first "&" (cr_scope c)) as [[x y]|]; [discriminate|]. reflexivity.
  - reflexivity.
Qed.

(** *** Cases *)
Lemma zip_undamaged : undamaged (Arc zip).
Proof. split; [reflexivity|]. repeat constructor. Qed.
Lemma zip_distinct : distinct (Arc zip).
Proof. cbn [distinct zip a_entries map e_name ent]. repeat constructor; cbn [In]; intuition discriminate. Qed.
Example C143_case : exists d', remove p12_name (dk zip) Fine = (ROk, d') /\ holds (d_arc d') "autoprov.url" "https://ota" /\ forall c, ~ holds (d_arc d') p12_name c.
Proof.
  destruct (C143_succeeds p12_name (dk zip) "p12" zip_p12) as (d' & E & _). exists d'. split; [exact E|]. split; [|exact (C143_gone _ _ _ _ E)].
  apply (C143_partial _ _ _ _ _ E zip_undamaged (or_introl eq_refl) "autoprov.url" "https://ota"); [discriminate|exact zip_url].
Qed.
Example C143_failed_case : exists d', remove p12_name (dk zip) (FailCopy 1) = (RThrow, d').
Proof. eexists. reflexivity. Qed.
Example C144_case : read_file (Arc zip) "autoprov.url" false = Ok "https://ota".
Proof. apply C144_partial; [exact zip_distinct|exact zip_url]. Qed.
Example C145_case : exists d', starts MShared [good_start; good_start] newdev SFailed = (SDone, d') /\ forall c, ~ holds (d_arc (dv_disk d')) p12_name c.
Proof.
  eexists. split; [vm_compute; reflexivity|]. eapply (C145_partial [good_start; good_start] newdev); [reflexivity|vm_compute; reflexivity|].
  repeat constructor; intros [].
Qed.
Example C146_case : extract_credentials (treehub_credentials true (Some devcreds) (append "https://treehub " (String (ascii_of_nat 10) ""))) = Ok (devcreds, "https://treehub").
Proof. vm_compute. reflexivity. Qed.
Definition oauth_json : json := JObj [("oauth2", JObj [("server", JStr "https://auth"); ("client_id", JStr "me")]); ("ostree", JObj [("server", JStr "https://treehub")])].
Example C147_case : exists c, load_creds (fun _ => Some oauth_json) (Arc zip) = Ok c /\ cr_method c = AOauth2 /\ cr_id c = "me".
Proof.
  destruct (C147_partial (fun _ => Some oauth_json) zip zip_undamaged zip_distinct) as [[_ C] _].
  destruct C as (c & E); [|exists c; split; [exact E|]; vm_compute in E; injection E as <-; split; reflexivity].
  exists "{}", oauth_json. split; [|reflexivity]. exists zip, (ent "treehub.json" "{}"). repeat split. right. right. now left.
Qed.
Example C147_refuses_case : exists x, load_creds (fun _ => Some oauth_json) (Arc {| a_entries := [{| e_name := "treehub.json"; e_data := "{"; e_ok := false |}]; a_ok := true |}) = Throw x.
Proof. eapply C147_refuses; [left; reflexivity|now left|reflexivity]. Qed.
Example C148_case : authenticate (fun _ => Some (JObj [("access_token", JStr "tok")])) oc 200 "x" = Some (TBearer "tok").
Proof. reflexivity. Qed.
Example C148_case_hyp : forall j, (fun _ : string => Some (JObj [("access_token", JStr "tok")])) "x" = Some j -> exists t, pt_child "access_token" j = Some (JStr t) /\ t <> "".
Proof. intros j [= <-]. exists "tok". split; [reflexivity|discriminate]. Qed.

Print Assumptions C143_partial. Print Assumptions C143_gone. Print Assumptions C143_failed. Print Assumptions C143_succeeds.
Print Assumptions C143_refuted. Print Assumptions C143_disk_full_refuted. Print Assumptions C143_damaged_refuted. Print Assumptions C143_leftover_refuted.
Print Assumptions C144_partial. Print Assumptions C144_refuted. Print Assumptions C145_partial. Print Assumptions C145_reuse.
Print Assumptions C145_refuted. Print Assumptions C145_readonly_refuted. Print Assumptions C146.
Print Assumptions C147_partial. Print Assumptions C147_refuses. Print Assumptions C147_refuted.
Print Assumptions C148_partial. Print Assumptions C148_status. Print Assumptions C148_refuted. Print Assumptions C148_request_partial. Print Assumptions C148_request_refuted.
