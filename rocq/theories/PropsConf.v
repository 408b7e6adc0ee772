(** C119-C122: the configuration of the Primary. *)
From Verif Require Import Base TufModel TufProofs GenProofs DeployModel DeploySpec DeployProofs ConfModel ConfSpec ConfProofs ConfProofs2 ConfProofs3 ConfProofs4 ConfProofs5 ConfProofs6.

(** ** C119: a configuration that is written out and read again is the same. *)
Definition C119_statement : Prop := forall E dirs o c, plain_inputs E o -> load E dirs o = Ok c -> exists d, load_file E (write_cfg c) = Ok d /\ same_but [] d c.

(** What is proved: all options except p11.tls_cacert_id, unless a path within the storage contains an ampersand. *)
Theorem C119_partial : forall E dirs o c, plain_inputs E o -> load E dirs o = Ok c -> based_plain c -> exists d, load_file E (write_cfg c) = Ok d /\ same_but ["p11.tls_cacert_id"] d c.
Proof. exact reload. Qed.

(** A small world: nothing is read besides the configuration; one file. *)
Definition E0 : penv := {| url_file := fun _ => ""; archive := fun _ => None |}.
Definition no_options : cmdline := {| o_loglevel := None; o_config := None; o_tls := None; o_repo := None; o_director := None; o_serial := None; o_hwid := None; o_secfile := None |}.
Definition dir_of (l : list (string * string)) : list cpath := [{| cp_name := "conf.d"; cp_what := Some (PDir (map (fun x => (fst x, EFile (Some (snd x)))) l)) |}].
Lemma E0_plain : plain_inputs E0 no_options.
Proof.
  split; [intros p; split; exact Logic.I|]. split; [intros p u H; discriminate|]. split; intros m s H; unfold on_command_line in H; cbn [cmd_options no_options o_loglevel o_tls o_repo o_director o_serial o_hwid o_secfile In] in H;
    destruct H as [H|[H|[H|[H|[H|[H|[H|[]]]]]]]]; discriminate.
Qed.
Definition got (m : string) (r : res cfg) : option (option cval) := match r with Ok c => Some (member m c) | Throw _ => None end.
Lemma rewritten (skip : list string) (m : string) (s : string) (rw : row) (text : string) :
  In (s, rw) options -> r_mem rw = m -> ~ In m skip ->
  match load E0 (dir_of [("a.toml", text)]) no_options with
  | Ok c => match got m (load_file E0 (write_cfg c)), member m c with Some (Some (VS a)), Some (VS b) => negb (String.eqb a b) | _, _ => false end
  | Throw _ => false
  end = true ->
  ~ (forall E dirs o c, plain_inputs E o -> load E dirs o = Ok c -> exists d, load_file E (write_cfg c) = Ok d /\ same_but skip d c).
Proof.
  intros I E N H A. destruct (load E0 (dir_of [("a.toml", text)]) no_options) as [c|] eqn:L; [|discriminate].
  destruct (A E0 _ _ c E0_plain L) as (d & D & [S _]). rewrite D in H. cbn [got] in H. specialize (S s rw I). rewrite E in S. rewrite (S N) in H.
  destruct (member m c) as [[x| |]|]; try discriminate. rewrite String.eqb_refl in H. discriminate.
Qed.
Definition quote1 (s : string) : string := String dq (append s (String dq "")).
Definition p11_text : string := one_option "p11" "tls_cacert_id" (quote1 "ca").
Theorem C119_refuted : ~ C119_statement.
Proof.
  apply (rewritten [] "p11.tls_cacert_id" "p11" (Row "p11.tls_cacert_id" "tls_cacert_id" KStr) p11_text); [|reflexivity|intros []|vm_compute; reflexivity].
  apply (in_options "p11" p11_read); [left; reflexivity|do 3 right; left; reflexivity].
Qed.
(** The second exception is needed as well. *)
Definition amp_text : string := one_option "storage" "sqldb_path" (quote1 "a&b.db").
Theorem C119_ampersand_refuted : ~ (forall E dirs o c, plain_inputs E o -> load E dirs o = Ok c -> exists d, load_file E (write_cfg c) = Ok d /\ same_but ["p11.tls_cacert_id"] d c).
Proof.
  apply (rewritten ["p11.tls_cacert_id"] "storage.sqldb_path" "storage" (Row "storage.sqldb_path" "sqldb_path" KBased) amp_text); [|reflexivity|intros [H|[]]; discriminate|vm_compute; reflexivity].
  apply (in_options "storage" storage_rows); [do 5 right; left; reflexivity|do 2 right; left; reflexivity].
Qed.
(** A case that meets the hypotheses: several files, several sections, an additional option of the package manager. *)
Definition toy_text : string :=
  document [("tls", [("server", quote1 "https://gw:1"); ("ca_source", quote1 "pkcs11")]); ("pacman", [("type", quote1 "ostree"); ("docker_bin", quote1 "/usr/bin/docker")]);
            ("uptane", [("polling_sec", "33"); ("force_install_completion", "true")]); ("storage", [("path", quote1 "/mnt/ota && co")])].
Definition toy_dirs : list cpath := dir_of [("20-site.toml", one_option "uptane" "polling_sec" "44"); ("10-base.toml", toy_text); ("notes.txt", "[[[")].
Definition toy_loaded : res cfg := Eval vm_compute in load E0 toy_dirs no_options.
Example C119_nonvacuous : exists c, load E0 toy_dirs no_options = Ok c /\ based_plain c /\
  member "uptane.polling_sec" c = Some (VZ 44) /\ member "uptane.director_server" c = Some (VS "https://gw:1/director") /\ member "storage.path" c = Some (VS "/mnt/ota & co") /\
  member "tls.ca_source" c = Some (VS "pkcs11") /\ aget "docker_bin" (c_extra c) = Some "/usr/bin/docker" /\ member "provision.mode" c = Some (VS "DeviceCred").
Proof.
  assert (G : load E0 toy_dirs no_options = toy_loaded) by (vm_compute; reflexivity). unfold toy_loaded in G. match type of G with _ = Ok ?x => exists x; split; [exact G|]; clear G end.
  split.
  - intros s r p I K M. assert (B : forallb (fun x => match r_kd (snd x) with KBased => match toy_loaded with Ok c => nocharb amp (text_of (r_mem (snd x)) c) | _ => false end | _ => true end) options = true) by (vm_compute; reflexivity).
    rewrite forallb_forall in B. specialize (B _ I). cbn [snd] in B. rewrite K in B. unfold toy_loaded in B. unfold text_of in B. rewrite M in B. now apply nocharb_ok.
  - repeat match goal with |- _ /\ _ => split end; vm_compute; reflexivity.
Qed.

(** ** C120: of files with the same name the last one found counts; files are applied in the order of their names, and the last one that says something about an option wins;
    an option that no file mentions keeps its initial value; the command line wins over all files.  Loading fails exactly if a path that was given is missing or a file cannot be read. *)
Definition C120_statement : Prop := forall E dirs o files, effective (searched dirs o) files ->
  (starts_well dirs o files -> exists b c, load E dirs o = Ok c /\ settings o files b /\ derived E b c) /\
  (~ starts_well dirs o files -> exists e, load E dirs o = Throw e).
Theorem C120_partial : forall E dirs o files, o_secfile o = None -> effective (searched dirs o) files ->
  (starts_well dirs o files -> exists b c, load E dirs o = Ok c /\ settings o files b /\ derived E b c) /\
  (~ starts_well dirs o files -> exists e, load E dirs o = Throw e).
Proof. exact load_settings. Qed.
(** There is exactly one such list of files. *)
Theorem C120_files : forall l, exists files, effective l files /\ forall files', effective l files' -> files' = files.
Proof. intros l. exists (chosen l). split; [apply chosen_effective|]. intros f H. exact (effective_unique l _ _ H (chosen_effective l)). Qed.
(** Files are found by name, or in a directory if they are regular and their name ends in .toml. *)
Lemma is_suffix_spec : forall x s, is_suffix x s = true <-> exists b, s = append b x.
Proof.
  intros x s. induction s as [|c s IH]; cbn [is_suffix]; rewrite Bool.orb_true_iff; split.
  - intros [H|H]; [|discriminate H]. apply String.eqb_eq in H. exists "". cbn. congruence.
  - intros [b Hb]. left. destruct b; [|discriminate Hb]. cbn in Hb. rewrite Hb. apply String.eqb_refl.
  - intros [H|H]; [apply String.eqb_eq in H; exists ""; cbn; congruence|]. apply IH in H. destruct H as [b Hb]. exists (String c b). cbn. congruence.
  - intros [b Hb]. destruct b as [|c' b]; cbn in Hb; [left; rewrite Hb; apply String.eqb_refl|]. right. apply IH. exists b. congruence.
Qed.
Theorem C120_names : forall l n t, In (n, t) (found l) <->
  (exists p, In p l /\ cp_what p = Some (PFile t) /\ n = cp_name p) \/
  (exists p es b, In p l /\ cp_what p = Some (PDir es) /\ In (n, EFile t) es /\ n = append b ".toml").
Proof.
  intros l n t. unfold found. rewrite in_flat_map. split.
  - intros [p [Hp H]]. destruct (cp_what p) as [[u|es]|] eqn:Ep; [| |destruct H].
    + left. destruct H as [H|[]]. injection H as <- <-. exists p. auto.
    + right. unfold toml_files in H. rewrite in_flat_map in H. destruct H as [[m e] [He H]]. cbn [fst snd] in H. destruct e as [u|]; [|destruct H].
      destruct (is_suffix ".toml" m) eqn:Es; [|destruct H]. destruct H as [H|[]]. injection H as <- <-. apply is_suffix_spec in Es. destruct Es as [b Hb].
      exists p, es, b. auto.
  - intros [[p [Hp [Hw ->]]]|[p [es [b [Hp [Hw [He Hb]]]]]]].
    + exists p. rewrite Hw. split; [exact Hp|left; reflexivity].
    + exists p. rewrite Hw. split; [exact Hp|]. unfold toml_files. rewrite in_flat_map. exists (n, EFile t). split; [exact He|]. cbn [fst snd].
      assert (is_suffix ".toml" n = true) as -> by (apply is_suffix_spec; exists b; exact Hb). left; reflexivity.
Qed.
(** --secondary-config-file *)
Theorem C120_refuted : ~ C120_statement.
Proof.
  intros H. pose (o := {| o_loglevel := None; o_config := None; o_tls := None; o_repo := None; o_director := None; o_serial := None; o_hwid := None; o_secfile := Some "/etc/secondaries.json" |}).
  destruct (H E0 [] o [] (chosen_effective _)) as [A _]. destruct A as (b & c & L & _).
  - split; [intros N; exfalso; apply N; reflexivity|intros x []].
  - vm_compute in L. discriminate.
Qed.
Example C120_nonvacuous : exists files, effective (searched toy_dirs no_options) files /\ starts_well toy_dirs no_options files /\ map fst files = ["10-base.toml"; "20-site.toml"].
Proof.
  exists (chosen (searched toy_dirs no_options)). split; [apply chosen_effective|]. split; [|vm_compute; reflexivity].
  destruct (load_ok E0 toy_dirs no_options _ match toy_loaded with Ok c => c | Throw _ => cfg0 end (chosen_effective _)) as (_ & SW & _); [vm_compute; reflexivity|exact SW].
Qed.

(** ** C121: the program runs with what was set; only what was left out is derived. *)
Theorem C121 : forall E dirs o files c, effective (searched dirs o) files -> load E dirs o = Ok c ->
  (forall s r v, In (s, r) options -> set_to o files (r_mem r) v -> v <> VS "" -> v <> VS "Default" -> member (r_mem r) c = Some v) /\
  (forall g m suf, member "tls.server" c = Some (VS g) -> g <> "" -> In (m, ("tls.server", suf)) derived_from -> left_out o files m -> member m c = Some (VS (append g suf))) /\
  (forall b d, derived E b c -> derived E c d -> same_but ["p11.tls_cacert_id"] d c).
Proof.
  intros E dirs o files c EF L. split; [|split].
  - intros s r v I ST N1 N2. exact (explicit_kept E dirs o files c s r v EF L I ST N1 N2).
  - intros g m suf G N I LO. exact (derived_gateway E dirs o files c g EF L G N m suf I LO).
  - intros b d D1 D2. apply (derive_again E b c c d D1 D2). split; reflexivity.
Qed.
Example C121_nonvacuous : exists files c, effective (searched toy_dirs no_options) files /\ load E0 toy_dirs no_options = Ok c /\ set_to no_options files "uptane.polling_sec" (VZ 44) /\ left_out no_options files "uptane.repo_server" /\ member "tls.server" c = Some (VS "https://gw:1").
Proof.
  exists (chosen (searched toy_dirs no_options)). destruct C119_nonvacuous as (c & L & _). exists c. split; [apply chosen_effective|]. split; [exact L|].
  destruct (load_ok E0 toy_dirs no_options _ c (chosen_effective _) L) as (_ & SW & b & S & D).
  assert (NC : forall m v, ~ on_command_line no_options m v).
  { intros m v H. unfold on_command_line in H. cbn [cmd_options no_options o_loglevel o_tls o_repo o_director o_serial o_hwid o_secfile In] in H. destruct H as [H|[H|[H|[H|[H|[H|[H|[]]]]]]]]; discriminate. }
  assert (F : chosen (searched toy_dirs no_options) = [("10-base.toml", Some toy_text); ("20-site.toml", Some (one_option "uptane" "polling_sec" "44"))]) by (vm_compute; reflexivity).
  split; [|split].
  - right. split; [apply NC|]. rewrite F. exists [("10-base.toml", Some toy_text)], "20-site.toml", (one_option "uptane" "polling_sec" "44"), []. split; [reflexivity|]. split; [|intros ? ? ? []].
    exists [("uptane", Sect [("polling_sec", "44")])], "uptane", (Row "uptane.polling_sec" "polling_sec" KUInt), "44". split; [vm_compute; reflexivity|].
    split; [apply (in_options "uptane" uptane_rows); [do 3 right; left; reflexivity|left; reflexivity]|]. split; [reflexivity|]. split; reflexivity.
  - right. split; [apply NC|]. rewrite F. intros n text v I SA. destruct SA as (t & s & r & w & R & O & EM & G & V).
    assert (X : (s, r) = ("uptane", Row "uptane.repo_server" "repo_server" KStr)) by (apply option_unique; [exact O|apply (in_options "uptane" uptane_rows); [do 3 right; left; reflexivity|do 2 right; left; reflexivity]|exact EM]).
    injection X as -> ->. destruct I as [I|[I|[]]]; injection I as <- <-.
    + vm_compute in R. injection R as <-. vm_compute in G. discriminate.
    + vm_compute in R. injection R as <-. vm_compute in G. discriminate.
  - assert (Q : got "tls.server" (load E0 toy_dirs no_options) = Some (Some (VS "https://gw:1"))) by (vm_compute; reflexivity). rewrite L in Q. cbn [got] in Q. congruence.
Qed.

(** ** C122: an option that is given a TOML value takes that value, or the file is refused. *)
Definition C122_effect_statement : Prop := forall E l s kv r v w, well_formed l -> In (s, kv) l -> In (s, r) options -> In (r_key r, toml_text v) kv -> toml_plain v -> fits (r_kd r) v w ->
  w <> VS "" -> w <> VS "Default" -> exists c, load_file E (document l) = Ok c /\ member (r_mem r) c = Some w.
Definition C122_refused_statement : Prop := forall E l s kv r v, well_formed l -> In (s, kv) l -> In (s, r) options -> In (r_key r, toml_text v) kv -> toml_plain v -> (forall w, ~ fits (r_kd r) v w) ->
  exists e, load_file E (document l) = Throw e.
(** What is proved: a value of the right type takes effect, unless it is a path with an ampersand. *)
Theorem C122_partial : forall E l s kv r v w, well_formed l -> In (s, kv) l -> In (s, r) options -> In (r_key r, toml_text v) kv -> toml_plain v -> fits (r_kd r) v w ->
  (r_kd r = KPath -> forall x, v = TStr x -> without amp x) -> w <> VS "" -> w <> VS "Default" -> exists c, load_file E (document l) = Ok c /\ member (r_mem r) c = Some w.
Proof. exact document_takes_effect. Qed.
Definition one (s k v : string) : list (string * list (string * string)) := [(s, [(k, v)])].
Lemma one_well s k v : tightb s && nocharb nlc s && nocharb "]" s && keyb k && tightb v && nocharb nlc v = true -> well_formed (one s k v).
Proof.
  rewrite !andb_true_iff. intros [[[[[A B] C] D] F] G]. split; [constructor; [intros []|constructor]|]. intros n kv [I|[]]. injection I as <- <-.
  destruct (tightb_ok s A) as (A1 & A2 & A3). apply nocharb_ok in B, C, G. destruct (keyb_ok k D) as ((K1 & K2 & K3) & K4 & K5 & K6). destruct (tightb_ok v F) as (F1 & F2 & F3).
  split; [repeat split; assumption|]. split; [exact C|]. split; [discriminate|]. split; [constructor; [intros []|constructor]|]. intros k' v' [I|[]]. injection I as <- <-. split; repeat split; assumption.
Qed.
(** A path with an ampersand loses it; a number in quotes is silently ignored. *)
Theorem C122_refuted : ~ C122_effect_statement /\ ~ C122_refused_statement.
Proof.
  split; intros H.
  - assert (O : In ("storage", Row "storage.path" "path" KPath) options) by (apply (in_options "storage" storage_rows); [do 5 right; left; reflexivity|right; left; reflexivity]).
    destruct (H E0 (one "storage" "path" (quote1 "/a&b")) "storage" [("path", quote1 "/a&b")] (Row "storage.path" "path" KPath) (TStr "/a&b") (VS "/a&b")) as (c & L & M).
    + apply one_well. vm_compute. reflexivity.
    + left. reflexivity.
    + exact O.
    + left. reflexivity.
    + (split; [|split]); apply nocharb_ok; reflexivity.
    + reflexivity.
    + discriminate.
    + discriminate.
    + assert (Q : got "storage.path" (load_file E0 (document (one "storage" "path" (quote1 "/a&b")))) = Some (Some (VS "/ab"))) by (vm_compute; reflexivity).
      rewrite L in Q. cbn [got r_mem] in *. congruence.
  - assert (O : In ("uptane", Row "uptane.polling_sec" "polling_sec" KUInt) options) by (apply (in_options "uptane" uptane_rows); [do 3 right; left; reflexivity|left; reflexivity]).
    destruct (H E0 (one "uptane" "polling_sec" (quote1 "33")) "uptane" [("polling_sec", quote1 "33")] (Row "uptane.polling_sec" "polling_sec" KUInt) (TStr "33")) as (e & L).
    + apply one_well. vm_compute. reflexivity.
    + left. reflexivity.
    + exact O.
    + left. reflexivity.
    + (split; [|split]); apply nocharb_ok; reflexivity.
    + intros w F. exact F.
    + assert (Q : got "uptane.polling_sec" (load_file E0 (document (one "uptane" "polling_sec" (quote1 "33")))) = Some (Some (VZ 10))) by (vm_compute; reflexivity). rewrite L in Q. discriminate.
Qed.
(** A comment after a value becomes part of it. *)
Theorem C122_comment_refuted : ~ (forall E l1 l2 s k v c, well_formed (l1 ++ (s, [(k, v)]) :: l2) -> well_formed (l1 ++ (s, [(k, append v " # comment")]) :: l2) ->
  load_file E (document (l1 ++ (s, [(k, v)]) :: l2)) = Ok c -> load_file E (document (l1 ++ (s, [(k, append v " # comment")]) :: l2)) = Ok c).
Proof.
  intros H. pose (v := quote1 "ostree"). pose (c := match load_file E0 (document (one "pacman" "type" v)) with Ok c => c | Throw _ => cfg0 end).
  specialize (H E0 [] [] "pacman" "type" v c). assert (W1 : well_formed (one "pacman" "type" v)) by (apply one_well; vm_compute; reflexivity).
  assert (W2 : well_formed (one "pacman" "type" (append v " # comment"))) by (apply one_well; vm_compute; reflexivity).
  specialize (H W1 W2). assert (L : load_file E0 (document ([] ++ ("pacman", [("type", v)]) :: [])) = Ok c) by (vm_compute; reflexivity). specialize (H L).
  assert (Q : got "pacman.type" (load_file E0 (document ([] ++ ("pacman", [("type", append v " # comment")]) :: []))) = Some (Some (VS "ostree # comment"))) by (vm_compute; reflexivity).
  rewrite H in Q. vm_compute in Q. discriminate.
Qed.
Example C122_nonvacuous : exists c, load_file E0 (document (one "storage" "path" (quote1 "/mnt/ota"))) = Ok c /\ member "storage.path" c = Some (VS "/mnt/ota").
Proof.
  apply (C122_partial E0 (one "storage" "path" (quote1 "/mnt/ota")) "storage" [("path", quote1 "/mnt/ota")] (Row "storage.path" "path" KPath) (TStr "/mnt/ota") (VS "/mnt/ota")).
  - apply one_well. vm_compute. reflexivity.
  - left. reflexivity.
  - apply (in_options "storage" storage_rows); [do 5 right; left; reflexivity|right; left; reflexivity].
  - left. reflexivity.
  - (split; [|split]); apply nocharb_ok; reflexivity.
  - reflexivity.
  - intros _ x H. injection H as <-. apply nocharb_ok. reflexivity.
  - discriminate.
  - discriminate.
Qed.
Print Assumptions C119_partial. Print Assumptions C119_refuted. Print Assumptions C119_ampersand_refuted.
Print Assumptions C120_partial. Print Assumptions C120_files. Print Assumptions C120_names. Print Assumptions C120_refuted.
Print Assumptions C121. Print Assumptions C122_partial. Print Assumptions C122_refuted. Print Assumptions C122_comment_refuted.
