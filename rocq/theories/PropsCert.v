(** C149-C152: aktualizr-cert-provider. *)
From Verif Require Import Base CodecModel CodecProofs ArcModel ArcSpec ArcProofs TufModel RepoModel InstModel ConvModel ConvSpec CertModel CertSpec CertProofs PropsInst PropsConv.

(** C149: success means that key and certificate, issued for this device, and what else was asked for are all in place. *)
Definition in_place (o : opts) (w : cworld) (k : kind) (c : string) : Prop :=
  (o_local o <> "" -> w_local w (join (o_local o) (place o k)) = Some c) /\ (o_target o <> "" -> w_remote w (place o k) = Some c).
Definition C149_statement : Prop :=
  forall E o w w', provide E o w = (true, w') -> apart o (fun p => p) -> apart o (join (o_local o)) ->
    exists key cert, issued E o key cert /\ in_place o w' KKey key /\ in_place o w' KCert cert /\
      (o_ca o = true -> exists c, in_place o w' KCa c) /\ (o_url o = true -> exists c, in_place o w' KUrl c).

Lemma provide_ok E o w w' : provide E o w = (true, w') -> exists t w1 w2,
  credentials E o (device_name E o) w = (Ok t, w1) /\ Bool.eqb (String.eqb (o_fleet_ca o) "") (String.eqb (o_fleet_key o) "") = true /\
  (if String.eqb (o_local o) "" then (true, w1) else copies E 0 (map (fun x => let '(_, p, c) := x in (join (o_local o) p, c)) (outputs E o t)) w1) = (true, w2) /\
  w' = (if String.eqb (o_target o) "" then w2 else snd (transfers E o (outputs E o t) w2)).
Proof.
  unfold provide. destruct (Bool.eqb _ _) eqn:B; [|discriminate]. cbn [negb]. destruct (match o_dir o with Some _ => _ | None => _ end); [discriminate|].
  destruct (_ && _)%bool; [discriminate|]. destruct (_ && _)%bool; [discriminate|]. destruct (empty_opt (o_cn o)); [discriminate|].
  fold (device_name E o). destruct (credentials E o (device_name E o) w) as [[t|] w1] eqn:C; [|discriminate].
  destruct (if String.eqb (o_local o) "" then _ else _) as [b w2] eqn:K. destruct b; [|discriminate]. cbn [negb].
  intros H. exists t, w1, w2. repeat split; auto. destruct (String.eqb (o_target o) ""); now injection H as <-.
Qed.

(** Holds when there is no target device, or no command fails. *)
Theorem C149_partial : forall E o w w', provide E o w = (true, w') -> apart o (fun p => p) -> apart o (join (o_local o)) ->
  o_target o = "" \/ (forall n, v_cmd E n = true) ->
  exists key cert, issued E o key cert /\ in_place o w' KKey key /\ in_place o w' KCert cert /\
    (o_ca o = true -> exists c, in_place o w' KCa c) /\ (o_url o = true -> exists c, in_place o w' KUrl c).
Proof.
  intros E o w w' H A1 A2 V. destruct (provide_ok _ _ _ _ H) as (t & w1 & w2 & C & B & L & ->).
  exists (t_pkey t), (t_cert t). split; [exact (credentials_issued _ _ _ _ _ C B)|].
  assert (P : forall k, asked o k -> in_place o (if String.eqb (o_target o) "" then w2 else snd (transfers E o (outputs E o t) w2)) k (content E o t k)).
  { intros k Hk. apply kinds_asked in Hk. destruct (map_apart o (join (o_local o)) E t A2) as [_ N2]. destruct (map_apart o (fun p => p) E t A1) as [N1 _].
    split.
    - intros Nl. rewrite (proj2 (String.eqb_neq _ _) Nl) in L. destruct (copies_put _ _ _ _ _ L) as (_ & _ & Q & _).
      assert (K : w_local w2 (join (o_local o) (place o k)) = Some (content E o t k)).
      { apply Q; [exact N2|]. apply in_map_iff. exists (tmp_of E k, place o k, content E o t k). split; [reflexivity|].
        rewrite outputs_spec. apply in_map_iff. eauto. }
      destruct (String.eqb (o_target o) ""); [exact K|]. now rewrite transfers_local.
    - intros Nt. rewrite (proj2 (String.eqb_neq _ _) Nt). destruct V as [V|V]; [contradiction|].
      destruct (transfers_put E o (outputs E o t) w2 V) as (_ & _ & Q & _). apply (Q ltac:(rewrite outputs_spec, map_map; exact N1) (tmp_of E k)).
      rewrite outputs_spec. apply in_map_iff. eauto. }
  split; [exact (P KKey Logic.I)|]. split; [exact (P KCert Logic.I)|]. split; intros K; [exists (content E o t KCa); apply P|exists (content E o t KUrl); apply P]; exact K.
Qed.

(** A failure leaves the target device alone, and runs nothing there. *)
Theorem C149_failed : forall E o w w', provide E o w = (false, w') -> w_remote w' = w_remote w /\ w_cmds w' = w_cmds w.
Proof.
  intros E o w w'. unfold provide. destruct (negb _); [intros [= <-]; auto|]. destruct (match o_dir o with Some _ => _ | None => _ end); [intros [= <-]; auto|].
  destruct (_ && _)%bool; [intros [= <-]; auto|]. destruct (_ && _)%bool; [intros [= <-]; auto|]. destruct (empty_opt (o_cn o)); [intros [= <-]; auto|].
  destruct (credentials E o _ w) as [[t|] w1] eqn:C; destruct (credentials_local _ _ _ _ _ _ C) as (_ & C1 & C2); [|intros [= <-]; auto].
  destruct (String.eqb (o_local o) "").
  - cbn [negb]. destruct (String.eqb (o_target o) ""); discriminate.
  - destruct (copies E 0 _ w1) as [b w2] eqn:K. destruct (copies_remote _ _ _ _ _ _ K) as [K1 K2]. destruct b; cbn [negb].
    + destruct (String.eqb (o_target o) ""); discriminate.
    + intros [= <-]. split; congruence.
Qed.
(** It fails, with everything as it was, when the options are not consistent. *)
Theorem C149_options : forall E o w,
  (o_fleet_ca o = "" <-> o_fleet_key o <> "") \/ (o_dir o <> None /\ o_config o <> None) \/ (o_local o = "" /\ o_target o = "") \/
  (o_creds o = "" /\ (o_fleet_ca o = "" \/ o_ca o = true \/ o_url o = true)) \/ o_cn o = Some "" ->
  provide E o w = (false, w).
Proof.
  intros E o w H. unfold provide. destruct (Bool.eqb (String.eqb (o_fleet_ca o) "") (String.eqb (o_fleet_key o) "")) eqn:B; [|reflexivity]. cbn [negb].
  destruct (match o_dir o with Some _ => _ | None => _ end) eqn:D; [reflexivity|]. destruct (String.eqb (o_local o) "" && String.eqb (o_target o) "")%bool eqn:L; [reflexivity|].
  destruct ((String.eqb (o_fleet_ca o) "" || o_ca o || o_url o) && String.eqb (o_creds o) "")%bool eqn:C; [reflexivity|].
  destruct (empty_opt (o_cn o)) eqn:N; [reflexivity|]. exfalso.
  destruct H as [H|[[H1 H2]|[[H1 H2]|[[H1 H2]|H]]]].
  - apply Bool.eqb_prop in B. destruct (String.eqb (o_fleet_ca o) "") eqn:F.
    + apply String.eqb_eq in F. symmetry in B. apply String.eqb_eq in B. tauto.
    + symmetry in B. apply String.eqb_neq in F, B. tauto.
  - destruct (o_dir o), (o_config o); congruence.
  - rewrite H1, H2 in L. discriminate.
  - rewrite H1 in C. cbn [String.eqb] in C. rewrite Bool.andb_true_r in C. apply Bool.orb_false_iff in C as [C C3]. apply Bool.orb_false_iff in C as [C1 C2].
    destruct H2 as [H2|[H2|H2]]; [rewrite H2 in C1|..]; try congruence. discriminate.
  - rewrite H in N. discriminate.
Qed.

(** *** Cases and counterexamples *)
Definition kc0 : conf := {| k_base := "/var/sota/import"; k_path := "/var/sota"; k_ipkey := ""; k_icert := ""; k_ica := "";
                            k_spkey := "pkey.pem"; k_scert := "client.pem"; k_sca := "root.crt"; k_url := "" |}.
Definition kc1 : conf := {| k_base := "/var/sota/import"; k_path := "/var/sota"; k_ipkey := "pkey.pem"; k_icert := "/etc/client.pem"; k_ica := "root.crt";
                            k_spkey := "pkey.pem"; k_scert := "client.pem"; k_sca := "root.crt"; k_url := "" |}.
Definition mk (c : option conf) (ca url : bool) (loc : string) : opts :=
  {| o_target := "root@device"; o_port := 2222; o_dir := None; o_ca := ca; o_url := url; o_local := loc; o_config := c; o_skip := true;
     o_fleet_ca := "ca.pem"; o_fleet_key := "ca.key"; o_creds := "cred.zip"; o_cn := Some "dev1"; o_c := Some "DE"; o_st := None; o_o := None; o_bits := 2048; o_days := 365 |}.
Definition czip : file := Arc {| a_entries := [{| e_name := "server_ca.pem"; e_data := "CA"; e_ok := true |}]; a_ok := true |}.
Definition E0 (cmd : bool) : env :=
  {| v_file := fun _ => czip; v_p12 := fun _ => None; v_name := "x"; v_post := fun _ _ _ => None; v_gen := fun _ _ _ _ _ _ => Ok ("key", "cert");
     v_tmp := fun n => append "/tmp/" (to_dec (Z.of_nat n)); v_copy := fun _ => CDone; v_cmd := fun _ => cmd |}.
Definition w0 : cworld := {| w_local := fun _ => None; w_remote := fun _ => None; w_cmds := []; w_posts := [] |}.

Lemma apart_id c loc : (c = None \/ c = Some kc0 \/ c = Some kc1) -> apart (mk c true true loc) (fun p => p).
Proof. intros [->|[->| ->]] [] [] _ _; (reflexivity || (intros K; vm_compute in K; discriminate)). Qed.
Lemma apart_local c : (c = None \/ c = Some kc0 \/ c = Some kc1) -> apart (mk c true true "out") (join "out").
Proof. intros [->|[->| ->]] [] [] _ _; (reflexivity || (intros K; vm_compute in K; discriminate)). Qed.
Lemma apart_none c : (c = None \/ c = Some kc0 \/ c = Some kc1) -> apart (mk c true true "") (join "").
Proof. intros [->|[->| ->]] [] [] _ _; (reflexivity || (intros K; vm_compute in K; discriminate)). Qed.

(** When ssh fails, the tool reports success all the same. *)
Theorem C149_refuted : ~ C149_statement.
Proof.
  intros H. destruct (provide (E0 false) (mk None true true "") w0) as [b w'] eqn:P.
  assert (X : fst (provide (E0 false) (mk None true true "") w0) = true /\ w_remote (snd (provide (E0 false) (mk None true true "") w0)) "/var/sota/import/pkey.pem" = None)
    by (split; vm_compute; reflexivity).
  rewrite P in X. cbn [fst snd] in X. destruct X as [-> X]. destruct (H _ _ _ _ P (apart_id _ _ (or_introl eq_refl)) (apart_none _ (or_introl eq_refl))) as (key & cert & _ & [_ K] & _).
  assert (Q : w_remote w' "/var/sota/import/pkey.pem" = Some key) by (apply K; discriminate). congruence.
Qed.
Example C149_case : exists w', provide (E0 true) (mk (Some kc1) true true "out") w0 = (true, w') /\
  w_remote w' "/etc/client.pem" = Some "cert" /\ w_local w' "out/var/sota/import/pkey.pem" = Some "key" /\ List.length (w_cmds w') = 8%nat.
Proof. eexists. split; [vm_compute; reflexivity|]. vm_compute. repeat split. Qed.
Example C149_case_apart : apart (mk (Some kc1) true true "out") (fun p => p) /\ apart (mk (Some kc1) true true "out") (join "out").
Proof. split; [apply apart_id|apply apart_local]; auto. Qed.

(** C150: a device whose configuration was given to the tool takes over what was put on it. *)
Definition C150_statement : Prop :=
  forall E o w w' k X savec loadc cn pub priv vers q q', provide E o w = (true, w') -> o_target o <> "" -> (forall n, v_cmd E n = true) -> o_config o = Some k ->
    apart o (fun p => p) -> apart o (join (o_local o)) ->
    import_data X savec loadc cn 5 (device_imports k (w_remote w') pub priv vers) q = (q', true) -> q_pkey q = None -> q_cert q = None -> q_ca q = None ->
    exists key cert, issued E o key cert /\ q_pkey q' = Some key /\ q_cert q' = Some cert /\ (o_ca o = true -> exists ca, q_ca q' = Some ca).

(** By default, nothing is imported. *)
Theorem C150_refuted : ~ C150_statement.
Proof.
  intros H. destruct (provide (E0 true) (mk (Some kc0) true true "") w0) as [b w'] eqn:P.
  assert (X : fst (provide (E0 true) (mk (Some kc0) true true "") w0) = true) by (vm_compute; reflexivity). rewrite P in X. cbn [fst] in X. subst b.
  destruct (H (E0 true) (mk (Some kc0) true true "") w0 w' kc0 CE sv ld all_cn NoPath NoPath NoPath sql_empty sql_empty P
              ltac:(discriminate) (fun _ => eq_refl) eq_refl (apart_id _ _ (or_intror (or_introl eq_refl))) (apart_none _ (or_intror (or_introl eq_refl))))
    as (key & cert & _ & K & _); try reflexivity. discriminate.
Qed.
(** Holds when the configuration has a directory and names for the import. *)
Theorem C150_partial : forall E o w w' k X savec loadc cn pub priv vers q q', provide E o w = (true, w') -> o_target o <> "" -> (forall n, v_cmd E n = true) -> o_config o = Some k ->
  apart o (fun p => p) -> apart o (join (o_local o)) ->
  import_data X savec loadc cn 5 (device_imports k (w_remote w') pub priv vers) q = (q', true) -> q_pkey q = None -> q_cert q = None -> q_ca q = None ->
  k_base k <> "" -> k_ipkey k <> "" -> k_icert k <> "" -> k_ica k <> "" ->
  exists key cert, issued E o key cert /\ q_pkey q' = Some key /\ q_cert q' = Some cert /\ (o_ca o = true -> exists ca, q_ca q' = Some ca).
Proof.
  intros E o w w' k X savec loadc cn pub priv vers q q' P T V Ck A1 A2 M Q1 Q2 Q3 N1 N2 N3 N4.
  destruct (C149_partial _ _ _ _ P A1 A2 (or_intror V)) as (key & cert & I & [_ K1] & [_ K2] & K3 & _). specialize (K1 T). specialize (K2 T).
  exists key, cert. split; [exact I|].
  assert (D : o_dir o = None).
  { unfold provide in P. rewrite Ck in P. destruct (negb _); [discriminate|]. destruct (o_dir o); [discriminate|reflexivity]. }
  assert (G : directory o = k_base k) by (unfold directory; rewrite D, Ck, (proj2 (String.eqb_neq _ _) N1); reflexivity).
  unfold place, name in K1, K2. rewrite G, Ck in K1, K2. rewrite (proj2 (String.eqb_neq _ _) N2) in K1. rewrite (proj2 (String.eqb_neq _ _) N3) in K2.
  apply C105_exact in M. destruct M as (_ & M1 & M2 & M3 & _). cbn [device_imports m_cert m_ca m_pkey] in M1, M2, M3. unfold source in M1, M2, M3.
  rewrite (proj2 (String.eqb_neq _ _) N2), K1 in M3. rewrite (proj2 (String.eqb_neq _ _) N3), K2 in M1. cbn [imported] in M1, M3.
  split; [destruct M3 as [M3|(p & M3 & _)]; [exact M3|congruence]|]. split; [destruct M1 as [M1|(p & M1 & _)]; [exact M1|congruence]|].
  intros Oc. destruct (K3 Oc) as (ca & _ & K4). specialize (K4 T). unfold place, name in K4. rewrite G, Ck, (proj2 (String.eqb_neq _ _) N4) in K4.
  rewrite (proj2 (String.eqb_neq _ _) N4), K4 in M2. cbn [imported] in M2. exists ca. destruct M2 as [M2|(p & M2 & _)]; [exact M2|congruence].
Qed.
Example C150_case : exists w', provide (E0 true) (mk (Some kc1) true true "out") w0 = (true, w') /\
  import_data CE sv ld all_cn 5 (device_imports kc1 (w_remote w') NoPath NoPath NoPath) sql_empty =
    (set_creds None (Some "CA") (Some "cert") (Some "key") sql_empty, true).
Proof. eexists. split; [vm_compute; reflexivity|]. vm_compute. reflexivity. Qed.

(** C151: the server's address that is provided is the one in the archive, the CA is the archive's or that of its P12 file. *)
Definition C151_statement : Prop :=
  forall E o w w', provide E o w = (true, w') -> o_url o = true -> o_target o = "" -> apart o (join (o_local o)) ->
    exists u v, holds (v_file E (o_creds o)) "autoprov.url" u /\ trimmed blank u v /\ w_local w' (join (o_local o) (place o KUrl)) = Some v.
Definition E1 : env := E0 true.
Definition mkl (url : bool) : opts :=
  {| o_target := ""; o_port := 22; o_dir := Some "/d"; o_ca := true; o_url := url; o_local := "out"; o_config := None; o_skip := false;
     o_fleet_ca := "ca.pem"; o_fleet_key := "ca.key"; o_creds := "cred.zip"; o_cn := None; o_c := None; o_st := None; o_o := None; o_bits := 2048; o_days := 365 |}.
Lemma apart_mkl : apart (mkl true) (join "out") /\ apart (mkl true) (fun p => p).
Proof. split; intros [] [] _ _; (reflexivity || (intros K; vm_compute in K; discriminate)). Qed.
(** If the archive has none, an empty file is provided. *)
Theorem C151_refuted : ~ C151_statement.
Proof.
  intros H. destruct (provide E1 (mkl true) w0) as [b w'] eqn:P.
  assert (X : fst (provide E1 (mkl true) w0) = true) by (vm_compute; reflexivity). rewrite P in X. cbn [fst] in X. subst b.
  destruct (H _ _ _ _ P eq_refl eq_refl (proj1 apart_mkl)) as (u & v & (a & e & Ha & Hi & Hn & _) & _).
  cbn [E1 E0 v_file mkl o_creds] in Ha. injection Ha as <-. destruct Hi as [<-|[]]. discriminate.
Qed.
(** Holds when the archive has exactly one. *)
Theorem C151_partial : forall E o w w', provide E o w = (true, w') -> o_url o = true -> o_target o = "" -> o_local o <> "" -> apart o (join (o_local o)) ->
  forall u, distinct (v_file E (o_creds o)) -> holds (v_file E (o_creds o)) "autoprov.url" u ->
  exists v, trimmed blank u v /\ w_local w' (join (o_local o) (place o KUrl)) = Some v.
Proof.
  intros E o w w' H U T Nl A u D Hu. destruct (provide_ok _ _ _ _ H) as (t & w1 & w2 & C & B & L & ->). rewrite T. cbn [String.eqb].
  rewrite (proj2 (String.eqb_neq _ _) Nl) in L. destruct (copies_put _ _ _ _ _ L) as (_ & _ & Q & _).
  destruct (map_apart o (join (o_local o)) E t A) as [_ N2]. exists (server_url E (o_creds o)). split.
  - apply (read_holds _ _ _ D) in Hu. unfold server_url. unfold read_file in *. destruct (v_file E (o_creds o)) as [|?|a]; try discriminate.
    destruct (scan "autoprov.url" (a_entries a) "" false) as [out [|]]; [|discriminate]. injection Hu as ->. apply trim_by_spec.
  - apply Q; [exact N2|]. apply in_map_iff. exists (tmp_of E KUrl, place o KUrl, content E o t KUrl). split; [reflexivity|].
    rewrite outputs_spec. apply in_map_iff. exists KUrl. split; [reflexivity|]. apply kinds_asked. exact U.
Qed.
Theorem C151_ca : forall E o w w', provide E o w = (true, w') -> o_ca o = true -> o_fleet_ca o <> "" -> o_target o = "" -> o_local o <> "" -> apart o (join (o_local o)) ->
  forall a, v_file E (o_creds o) = Arc a -> distinct (Arc a) ->
  (forall c, holds (Arc a) "server_ca.pem" c -> c <> "" -> w_local w' (join (o_local o) (place o KCa)) = Some c) /\
  ((forall c, ~ holds (Arc a) "server_ca.pem" c) -> exists p t, holds (Arc a) "autoprov_credentials.p12" p /\ v_p12 E p = Some t /\
     w_local w' (join (o_local o) (place o KCa)) = Some (t_ca t)).
Proof.
  intros E o w w' H U F T Nl A a Ea D. destruct (provide_ok _ _ _ _ H) as (t & w1 & w2 & C & B & L & ->). rewrite T. cbn [String.eqb].
  rewrite (proj2 (String.eqb_neq _ _) Nl) in L. destruct (copies_put _ _ _ _ _ L) as (_ & _ & Q & _).
  destruct (map_apart o (join (o_local o)) E t A) as [_ N2].
  assert (W : w_local w2 (join (o_local o) (place o KCa)) = Some (t_ca t)).
  { apply Q; [exact N2|]. apply in_map_iff. exists (tmp_of E KCa, place o KCa, content E o t KCa). split; [reflexivity|].
    rewrite outputs_spec. apply in_map_iff. exists KCa. split; [reflexivity|]. apply kinds_asked. exact U. }
  unfold credentials in C. rewrite (proj2 (String.eqb_neq _ _) F) in C. injection C as C _. rewrite U in C.
  apply TufProofs.bind_ok in C as (? & _ & C). apply TufProofs.bind_ok in C as (? & _ & C). apply TufProofs.bind_ok in C as (? & _ & C).
  apply TufProofs.bind_ok in C as (kc & _ & C). apply TufProofs.bind_ok in C as (ca & G & C). injection C as <-. cbn [t_ca] in W.
  unfold server_ca in G. rewrite Ea in G. split.
  - intros c Hc Nc. apply (read_holds _ _ _ D) in Hc. rewrite Hc in G. cbv zeta in G. rewrite (proj2 (String.eqb_neq _ _) Nc) in G. now injection G as ->.
  - intros Hn. destruct (read_file (Arc a) "server_ca.pem" false) as [c|] eqn:R; [apply (read_holds _ _ _ D) in R; destruct (Hn _ R)|].
    cbn [String.eqb] in G. apply TufProofs.bind_ok in G as (b & Bo & G). injection G as <-. unfold bootstrap in Bo.
    destruct (String.eqb (o_creds o) ""); [discriminate|]. apply TufProofs.bind_ok in Bo as (p & Hp & Bo). rewrite Ea in Hp. apply (read_holds _ _ _ D) in Hp.
    destruct (String.eqb p ""); [discriminate|]. destruct (v_p12 E p) as [t'|] eqn:Pp; [|discriminate]. injection Bo as ->. eauto.
Qed.
Example C151_case : exists w', provide E1 (mkl true) w0 = (true, w') /\ w_local w' "out/d/root.crt" = Some "CA" /\ w_local w' "out/d/gateway.url" = Some "".
Proof. eexists. split; [vm_compute; reflexivity|]. vm_compute. split; reflexivity. Qed.

(** With shared credentials: the server issues them. *)
Definition E2 : env :=
  {| v_file := fun _ => Arc {| a_entries := [{| e_name := "autoprov.url"; e_data := "https://ota "; e_ok := true |}; {| e_name := "autoprov_credentials.p12"; e_data := "P"; e_ok := true |}]; a_ok := true |};
     v_p12 := fun s => if String.eqb s "P" then Some {| t_ca := "a"; t_cert := "b"; t_pkey := "c" |} else if String.eqb s "Q" then Some {| t_ca := "CA"; t_cert := "cert"; t_pkey := "key" |} else None;
     v_name := "pretty"; v_post := fun u n _ => if (String.eqb u "https://ota/devices" && String.eqb n "pretty")%bool then Some "Q" else None;
     v_gen := fun _ _ _ _ _ _ => Throw EStd; v_tmp := fun n => append "/tmp/" (to_dec (Z.of_nat n)); v_copy := fun _ => CDone; v_cmd := fun _ => true |}.
Definition mks : opts :=
  {| o_target := ""; o_port := 22; o_dir := Some "/d"; o_ca := true; o_url := true; o_local := "out"; o_config := None; o_skip := false;
     o_fleet_ca := ""; o_fleet_key := ""; o_creds := "cred.zip"; o_cn := None; o_c := None; o_st := None; o_o := None; o_bits := 2048; o_days := 365 |}.
Example C151_shared_case : exists w', provide E2 mks w0 = (true, w') /\ w_local w' "out/d/root.crt" = Some "CA" /\ w_local w' "out/d/pkey.pem" = Some "key" /\ w_local w' "out/d/gateway.url" = Some "https://ota" /\ distinct (v_file E2 (o_creds mks)) /\ holds (v_file E2 (o_creds mks)) "autoprov.url" "https://ota ".
Proof.
  eexists. split; [vm_compute; reflexivity|]. split; [vm_compute; reflexivity|]. split; [vm_compute; reflexivity|]. split; [vm_compute; reflexivity|]. split.
  - cbn [distinct v_file E2 a_entries map e_name]. repeat (apply NoDup_cons; [cbn [In]; intuition discriminate|]). apply NoDup_nil.
  - eexists _, _. split; [reflexivity|]. split; [left; reflexivity|]. repeat split.
Qed.

(** C152: the commands are what they should be: the shell sees the target, the temporary file and the place as one word each. *)
Definition C152_statement : Prop :=
  forall o tmp path, has_char " " tmp = false -> tmp <> "" -> o_target o <> "" ->
    words (scp_cmd o tmp path) = ["scp"] ++ (if o_port o =? 22 then [] else ["-P"; to_dec (o_port o)]) ++
      (if o_skip o then ["-o"; "StrictHostKeyChecking=no"] else []) ++ [tmp; append (o_target o) (append ":" path)].
(** Nothing is quoted. *)
Theorem C152_refuted : ~ C152_statement.
Proof. intros H. specialize (H (mk None true true "") "/tmp/f" "/my dir/f" eq_refl ltac:(discriminate) ltac:(discriminate)). vm_compute in H. discriminate. Qed.
(** Holds for targets and places without blanks; the commands that are run are two for each file. *)
Theorem C152_partial : forall E o w w', provide E o w = (true, w') -> w_cmds w = [] -> o_target o <> "" -> has_char " " (o_target o) = false -> (forall n, v_cmd E n = true) ->
  (forall n, has_char " " (v_tmp E n) = false /\ v_tmp E n <> "") -> (forall k, asked o k -> has_char " " (place o k) = false /\ parent (place o k) <> "") ->
  map words (w_cmds w') = List.concat (map (fun k =>
    [["ssh"] ++ (if o_port o =? 22 then [] else ["-p"; to_dec (o_port o)]) ++ (if o_skip o then ["-o"; "StrictHostKeyChecking=no"] else []) ++
       [o_target o; "mkdir"; "-p"; parent (place o k)];
     ["scp"] ++ (if o_port o =? 22 then [] else ["-P"; to_dec (o_port o)]) ++ (if o_skip o then ["-o"; "StrictHostKeyChecking=no"] else []) ++
       [tmp_of E k; append (o_target o) (append ":" (place o k))]])
    ([KKey; KCert] ++ (if o_ca o then [KCa] else []) ++ (if o_url o then [KUrl] else []))).
Proof.
  intros E o w w' H W T B V Tm Pl. destruct (provide_ok _ _ _ _ H) as (t & w1 & w2 & C & _ & L & ->). rewrite (proj2 (String.eqb_neq _ _) T).
  destruct (transfers_put E o (outputs E o t) w2 V) as (_ & _ & _ & _ & ->).
  assert (W2 : w_cmds w2 = []).
  { destruct (credentials_local _ _ _ _ _ _ C) as (_ & _ & C2). destruct (String.eqb (o_local o) ""); [injection L as <-; congruence|].
    destruct (copies_remote _ _ _ _ _ _ L) as [_ K]. congruence. }
  rewrite W2. cbn [app]. rewrite outputs_spec, map_map. cbn [fst snd]. change ([KKey; KCert] ++ _) with (kinds o).
  change (KKey :: KCert :: _) with (kinds o).
  assert (S : forall k, In k (kinds o) -> asked o k) by (intros k; apply kinds_asked). clear - S Tm Pl T B.
  induction (kinds o) as [|k l IH]; [reflexivity|]. cbn [map List.concat]. rewrite map_app, IH by (intros k' K; apply S; now right). f_equal.
  destruct (Pl k (S k (or_introl eq_refl))) as [P1 P2]. cbn [map]. rewrite mkdir_words by auto. rewrite scp_words by (auto; apply Tm). reflexivity.
Qed.
Example C152_case : map words (w_cmds (snd (provide (E0 true) (mk None false false "") w0))) =
  [["ssh"; "-p"; "2222"; "-o"; "StrictHostKeyChecking=no"; "root@device"; "mkdir"; "-p"; "/var/sota/import"];
   ["scp"; "-P"; "2222"; "-o"; "StrictHostKeyChecking=no"; "/tmp/0"; "root@device:/var/sota/import/pkey.pem"];
   ["ssh"; "-p"; "2222"; "-o"; "StrictHostKeyChecking=no"; "root@device"; "mkdir"; "-p"; "/var/sota/import"];
   ["scp"; "-P"; "2222"; "-o"; "StrictHostKeyChecking=no"; "/tmp/1"; "root@device:/var/sota/import/client.pem"]].
Proof. vm_compute. reflexivity. Qed.

Print Assumptions C149_partial. Print Assumptions C149_failed. Print Assumptions C149_options. Print Assumptions C149_refuted.
Print Assumptions C150_partial. Print Assumptions C150_refuted. Print Assumptions C151_partial. Print Assumptions C151_ca. Print Assumptions C151_refuted.
Print Assumptions C152_partial. Print Assumptions C152_refuted.
