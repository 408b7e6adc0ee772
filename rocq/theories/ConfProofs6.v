(** Proofs about configurations: reloading what was written, documents. *)
From Verif Require Import Base TufModel TufProofs GenProofs DeployModel DeploySpec DeployProofs ConfModel ConfSpec ConfProofs ConfProofs2 ConfProofs3 ConfProofs4 ConfProofs5.

Definition members : list string := map (fun x => r_mem (snd x)) options.
Lemma member_option m : mem_str m members = true -> exists s r, In (s, r) options /\ r_mem r = m.
Proof. intros H. apply existsb_exists in H. destruct H as (y & I & E). apply String.eqb_eq in E. subst y. apply in_map_iff in I. destruct I as ([s r] & E & I). exists s, r. auto. Qed.
Lemma not_member m l : mem_str m l = false -> ~ In m l.
Proof. intros H I. assert (X : mem_str m l = true) by (apply existsb_exists; exists m; split; [exact I|apply String.eqb_refl]). congruence. Qed.
Lemma dir_derived : In ("uptane.director_server", ("tls.server", "/director")) derived_from.
Proof. right. right. left. reflexivity. Qed.
Lemma one_line_app a b : one_line a -> one_line b -> one_line (append a b).
Proof. intros [A1 A2] [B1 B2]. split; apply without_app; assumption. Qed.
Lemma good_text c m : good c -> kind_is_str m = true -> mem_str m members = true -> exists x, member m c = Some (VS x) /\ text_of m c = x /\ one_line x.
Proof.
  intros [A _] K M. destruct (member_option m M) as (s & r & I & E). destruct (A s r I) as (v & X & T & Q). rewrite (str_kind m s r K I E) in T, Q. rewrite E in X.
  destruct v as [x| |]; cbn [typed noquote] in T, Q; try contradiction. exists x. split; [exact X|]. unfold text_of. rewrite X. split; [reflexivity|split; assumption].
Qed.
Lemma derived_kind m from suf : In (m, (from, suf)) derived_from -> kind_is_str m = true /\ mem_str m members = true /\ mem_str from members = true /\ kind_is_str from = true /\ one_line suf /\ m <> "provision.mode" /\ m <> "tls.server".
Proof.
  intros I. cbn [derived_from In] in I.
  destruct I as [I|[I|[I|[I|[I|[]]]]]]; injection I as <- <- <-; (split; [reflexivity|split; [reflexivity|split; [reflexivity|split; [reflexivity|split; [|split; discriminate]]]]]);
    (split; apply nocharb_ok; reflexivity).
Qed.
(** Each derived member, with what it is derived from already settled. *)
Lemma good_post E o b : plain_inputs E o -> good b -> good (post_update E b).
Proof.
  intros (PU & PA & _) G. destruct (post_derived E b) as (EX & D & M1 & M2 & M3 & T1 & T2 & T3 & T4 & DF). set (c := post_update E b) in *.
  assert (OLt : forall m, kind_is_str m = true -> mem_str m members = true -> member m c = member m b -> one_line (text_of m c)).
  { intros m K MM H. destruct (good_text b m G K MM) as (x & X & Y & O). rewrite (text_member m c b H), Y. exact O. }
  assert (TLS : member "tls.server" c = member "tls.server" b \/ exists x, member "tls.server" c = Some (VS x) /\ one_line x).
  { destruct (String.eqb_spec (text_of "tls.server" b) "") as [E1|E1]; [|left; auto]. destruct (String.eqb_spec (text_of "tls.server_url_path" b) "") as [E2|E2]; [|right; eexists; split; [exact (T2 E1 E2)|apply PU]].
    destruct (String.eqb_spec (text_of "provision.provision_path" b) "") as [E3|E3]; [left; apply T4; auto|]. destruct (archive E (text_of "provision.provision_path" b)) as [u|] eqn:A; [|left; apply T4; auto].
    right. exists u. split; [apply T3; auto|exact (PA _ u A)]. }
  assert (FROM : forall m from suf, In (m, (from, suf)) derived_from -> one_line (text_of from c) -> member m c = member m b \/ exists x, member m c = Some (VS x) /\ one_line x).
  { intros m from suf I O. destruct (derived_kind m from suf I) as (_ & _ & _ & _ & OS & _). destruct (DF m from suf I) as [A B]. destruct (String.eqb_spec (text_of m b) "") as [E1|E1]; [|left; auto].
    destruct (String.eqb_spec (text_of from c) "") as [E2|E2]; [left; auto|]. right. eexists. split; [exact (B E1 E2)|]. now apply one_line_app. }
  assert (TLSo : one_line (text_of "tls.server" c)).
  { destruct TLS as [H|(x & H & O)]; [now apply OLt|]. unfold text_of. now rewrite H. }
  assert (DIR : one_line (text_of "uptane.director_server" c)).
  { assert (I : In ("uptane.director_server", ("tls.server", "/director")) derived_from) by exact dir_derived. destruct (FROM _ _ _ I TLSo) as [H|(x & H & O)]; [now apply OLt|]. unfold text_of. now rewrite H. }
  apply (good_change b c G EX). intros s r I. destruct (String.eqb_spec (r_mem r) "provision.mode") as [E1|E1].
  - rewrite E1. destruct (String.eqb_spec (text_of "provision.mode" b) "Default") as [E2|E2]; [|left; auto]. right.
    assert (X : (s, r) = ("provision", Row "provision.mode" "mode" k_mode)) by (apply option_unique; [exact I|apply (in_options "provision" provision_rows); [right; right; left; reflexivity|do 8 right; left; reflexivity]|exact E1]). inversion X; subst.
    destruct (String.eqb_spec (text_of "provision.provision_path" b) "") as [E3|E3]; eexists; (split; [first [exact (M2 E2 E3)|exact (M3 E2 E3)]|]); (split; [left; cbn [In]; auto|exact Logic.I]).
  - destruct (String.eqb_spec (r_mem r) "tls.server") as [E2|E2].
    + rewrite E2. destruct TLS as [H|(x & H & O)]; [now left|]. right. exists (VS x). split; [exact H|]. apply (str_value "tls.server" s r x); auto.
    + destruct (in_dec string_dec (r_mem r) (map fst derived_from)) as [J|J]; [|left; now apply D].
      apply in_map_iff in J. destruct J as ([m [from suf]] & EM & J). cbn [fst] in EM. subst m.
      assert (OF : one_line (text_of from c)) by (pose proof J as J'; cbn [derived_from In] in J'; destruct J' as [K|[K|[K|[K|[K|[]]]]]]; injection K as _ <- _; assumption).
      destruct (FROM _ _ _ J OF) as [H|(x & H & O)]; [now left|]. right. exists (VS x). split; [exact H|]. destruct (derived_kind _ _ _ J) as (K & _). apply (str_value (r_mem r) s r x); auto.
Qed.
Lemma good_start E o : plain_inputs E o -> good (start o).
Proof.
  intros (_ & _ & _ & PZ). unfold start. destruct (o_loglevel o) as [z|] eqn:L; [|exact good0]. apply (good_change cfg0 (with_member "logger.loglevel" (VZ z) cfg0) good0 eq_refl). intros s r I. rewrite member_with.
  destruct (String.eqb_spec (r_mem r) "logger.loglevel") as [E1|E1]; [|now left]. right. exists (VZ z). split; [reflexivity|].
  assert (X : (s, r) = ("logger", Row "logger.loglevel" "loglevel" int32)) by (apply option_unique; [exact I|now left|exact E1]). inversion X; subst. split; [|exact Logic.I].
  apply (PZ "logger.loglevel" z). unfold on_command_line, cmd_options. rewrite L. now left.
Qed.
Lemma load_post E dirs o c : load E dirs o = Ok c -> exists b, c = post_update E b /\ (plain_inputs E o -> good b).
Proof.
  intros H. rewrite (load_steps E dirs o _ (chosen_effective _)) in H. destruct (match o_config o with Some l => _ | None => _ end); [discriminate|].
  destruct (update_files (from_cmd o) (chosen (searched dirs o)) (start o)) as [c1|] eqn:F; [|discriminate]. cbn [bind] in H. destruct (update_cmd o c1) as [c2|] eqn:U; [|discriminate]. cbn [bind] in H.
  exists c2. split; [congruence|]. intros P. apply (good_cmd E o c1 c2 P U). apply (good_files _ _ _ _ F). exact (good_start E o P).
Qed.
(** ** Deriving once more changes nothing, whatever is done with a member nothing depends on *)
Lemma derive_again E b c d1 d : derived E b c -> derived E d1 d -> same_but ["p11.tls_cacert_id"] d1 c -> same_but ["p11.tls_cacert_id"] d c.
Proof.
  intros (EX & D & M1 & M2 & M3 & T1 & T2 & T3 & T4 & DF) (EX' & D' & M1' & M2' & M3' & T1' & T2' & T3' & T4' & DF') [SM SX].
  assert (S1 : forall m, mem_str m members = true -> m <> "p11.tls_cacert_id" -> member m d1 = member m c).
  { intros m MM N. destruct (member_option m MM) as (s & r & I & <-). apply (SM s r I). intros [X|[]]. congruence. }
  assert (U : forall m, m <> "provision.mode" -> m <> "tls.server" -> ~ In m (map fst derived_from) -> text_of m c = text_of m b) by (intros m A B C; apply text_member; auto).
  assert (PP : text_of "provision.provision_path" d1 = text_of "provision.provision_path" b).
  { rewrite (text_member _ _ _ (S1 "provision.provision_path" eq_refl ltac:(discriminate))). apply U; [discriminate|discriminate|apply not_member; reflexivity]. }
  assert (UP : text_of "tls.server_url_path" d1 = text_of "tls.server_url_path" b).
  { rewrite (text_member _ _ _ (S1 "tls.server_url_path" eq_refl ltac:(discriminate))). apply U; [discriminate|discriminate|apply not_member; reflexivity]. }
  assert (MODE : member "provision.mode" d = member "provision.mode" c).
  { pose proof (S1 "provision.mode" eq_refl ltac:(discriminate)) as Q. rewrite <- Q. apply M1'. rewrite (text_member _ _ _ Q).
    destruct (String.eqb_spec (text_of "provision.mode" b) "Default") as [E1|E1].
    - unfold text_of at 1. destruct (String.eqb_spec (text_of "provision.provision_path" b) "") as [E2|E2]; [rewrite (M2 E1 E2)|rewrite (M3 E1 E2)]; discriminate.
    - rewrite (text_member _ _ _ (M1 E1)). exact E1. }
  assert (TLS : member "tls.server" d = member "tls.server" c).
  { pose proof (S1 "tls.server" eq_refl ltac:(discriminate)) as Q. pose proof (text_member _ _ _ Q) as QT. destruct (String.eqb_spec (text_of "tls.server" c) "") as [E0|E0].
    - assert (EB : text_of "tls.server" b = "").
      { destruct (String.eqb_spec (text_of "tls.server" b) "") as [|N]; [assumption|]. rewrite (text_member _ _ _ (T1 N)) in E0. contradiction. }
      rewrite <- QT in E0. destruct (String.eqb_spec (text_of "tls.server_url_path" b) "") as [E2|E2].
      + destruct (String.eqb_spec (text_of "provision.provision_path" b) "") as [E3|E3].
        * rewrite T4' by (rewrite ?UP, ?PP; auto). exact Q.
        * destruct (archive E (text_of "provision.provision_path" b)) as [u|] eqn:A.
          -- rewrite (T3' u) by (rewrite ?UP, ?PP; auto). now rewrite (T3 u EB E2 E3 eq_refl).
          -- rewrite T4' by (rewrite ?UP, ?PP; auto). exact Q.
      + rewrite T2' by (rewrite ?UP; auto). rewrite UP. now rewrite (T2 EB E2).
    - rewrite T1' by (rewrite QT; exact E0). exact Q. }
  assert (STEP : forall m from suf, In (m, (from, suf)) derived_from -> member from d = member from c -> member m d = member m c).
  { intros m from suf I FR. destruct (derived_kind m from suf I) as (_ & MM & _ & _ & _ & N1 & N2).
    assert (NP : m <> "p11.tls_cacert_id") by (intros ->; vm_compute in MM; clear - I; apply (in_map fst) in I; revert I; apply not_member; reflexivity).
    pose proof (S1 m MM NP) as Q. pose proof (text_member _ _ _ Q) as QT. destruct (DF m from suf I) as [A B]. destruct (DF' m from suf I) as [A' B'].
    destruct (String.eqb_spec (text_of m c) "") as [E0|E0].
    - assert (EF : text_of from c = "").
      { destruct (String.eqb_spec (text_of from c) "") as [|N]; [assumption|]. exfalso. destruct (String.eqb_spec (text_of m b) "") as [E1|E1].
        - unfold text_of in E0 at 1. rewrite (B E1 N) in E0. destruct (text_of from c); [contradiction|discriminate].
        - rewrite (text_member _ _ _ (A (or_introl E1))) in E0. contradiction. }
      rewrite A'; [exact Q|]. right. rewrite (text_member _ _ _ FR). exact EF.
    - rewrite A'; [exact Q|]. left. rewrite QT. exact E0. }
  assert (DIR : member "uptane.director_server" d = member "uptane.director_server" c) by (apply (STEP _ "tls.server" "/director"); [exact dir_derived|exact TLS]).
  split.
  - intros s r I N. destruct (String.eqb_spec (r_mem r) "provision.mode") as [->|N1]; [exact MODE|]. destruct (String.eqb_spec (r_mem r) "tls.server") as [->|N2]; [exact TLS|].
    destruct (in_dec string_dec (r_mem r) (map fst derived_from)) as [J|J].
    + apply in_map_iff in J. destruct J as ([m [from suf]] & EM & J). cbn [fst] in EM. subst m. apply (STEP _ from suf J).
      cbn [derived_from In] in J. destruct J as [K|[K|[K|[K|[K|[]]]]]]; injection K as _ <- _; assumption.
    + rewrite (D' _ N1 N2 J). exact (SM s r I N).
  - intros k. rewrite EX'. apply SX.
Qed.
Theorem reload E dirs o c : plain_inputs E o -> load E dirs o = Ok c -> based_plain c -> exists d, load_file E (write_cfg c) = Ok d /\ same_but ["p11.tls_cacert_id"] d c.
Proof.
  intros P H BP. destruct (load_post E dirs o c H) as (b & -> & G). specialize (G P). pose proof (good_post E o b P G) as GC. set (c := post_update E b) in *.
  unfold load_file. rewrite (read_written c (good_proper c GC)). eexists. split; [reflexivity|].
  apply (derive_again E b c (update_tree false (tree_of (map (show_section c) write_table)) cfg0)); [apply post_derived|apply post_derived|].
  apply round_trip; [exact (good_proper c GC)|exact (good_kept c GC BP)|reflexivity|discriminate].
Qed.
(** ** Documents *)
Lemma document_render l : document l = render l.
Proof. reflexivity. Qed.
Lemma well_formed_clean l : well_formed l -> Forall clean_section l /\ NoDup (map fst l).
Proof.
  intros [N H]. split; [|exact N]. apply Forall_forall. intros [n kv] I. destruct (H n kv I) as ((U1 & U2 & U3 & U4) & B & NE & ND & K). split; [split; [repeat split; assumption|split; assumption]|].
  split; [exact NE|]. split; [|exact ND]. apply Forall_forall. intros [k v] J. destruct (K k v J) as ((P1 & P2 & P3 & P4 & P5 & P6) & V1 & V2 & V3 & V4). cbn [fst snd]. split; [split; [repeat split; assumption|auto]|].
  split; [repeat split; assumption|exact V4].
Qed.
Lemma fits_reads k v w : kind_ok k = true -> toml_plain v -> fits k v w -> (k = KPath -> forall s, v = TStr s -> without amp s) -> read_value k (toml_text v) = Some w.
Proof.
  intros KO P F A. destruct k; destruct v; cbn [fits toml_plain toml_text] in *; try contradiction.
  - subst w. cbn [read_value]. change (String dq (append s (String dq ""))) with (quoted s). rewrite strip_quoted by tauto. reflexivity.
  - subst w. cbn [read_value]. destruct P as (P1 & P2 & P3). rewrite <- (escape_id s P1 (A eq_refl s eq_refl)) at 1. change (String dq (append (escape s) (String dq ""))) with (quoted (escape s)). now rewrite read_path_quoted.
  - subst w. cbn [read_value]. change (String dq (append s (String dq ""))) with (quoted s). rewrite strip_quoted by tauto. reflexivity.
  - destruct F as [F ->]. cbn [read_value]. now rewrite read_int_dec.
  - destruct F as [F ->]. cbn [read_value]. now rewrite read_uint_dec.
  - subst w. destruct b; reflexivity.
  - destruct F as [F ->]. change (String dq (append s (String dq ""))) with (show_value (KEnum names other) (VS s)). apply read_show; [exact KO|exact F|exact Logic.I].
Qed.
Lemma derived_keeps E b c s r w : derived E b c -> In (s, r) options -> (r_kd r = KStr -> exists x, w = VS x) -> member (r_mem r) b = Some w -> w <> VS "" -> w <> VS "Default" -> member (r_mem r) c = Some w.
Proof.
  intros (_ & D & M1 & _ & _ & T1 & _ & _ & _ & DF) I TY M N1 N2.
  assert (ST : kind_is_str (r_mem r) = true -> text_of (r_mem r) b <> "").
  { intros K. destruct (TY (str_kind _ s r K I eq_refl)) as [x ->]. unfold text_of. rewrite M. congruence. }
  destruct (String.eqb_spec (r_mem r) "provision.mode") as [E1|E1].
  - rewrite E1 in *. rewrite M1; [exact M|]. unfold text_of. rewrite M. destruct w; congruence.
  - destruct (String.eqb_spec (r_mem r) "tls.server") as [E2|E2]; [rewrite E2 in *; rewrite T1; [exact M|apply ST; reflexivity]|].
    destruct (in_dec string_dec (r_mem r) (map fst derived_from)) as [J|J]; [|rewrite D; auto].
    apply in_map_iff in J. destruct J as ([m [from suf]] & EM & J). cbn [fst] in EM. subst m. destruct (derived_kind _ _ _ J) as (K & _). rewrite (proj1 (DF _ _ _ J)); [exact M|]. left. exact (ST K).
Qed.
Theorem document_takes_effect E l s kv r v w : well_formed l -> In (s, kv) l -> In (s, r) options -> In (r_key r, toml_text v) kv -> toml_plain v -> fits (r_kd r) v w ->
  (r_kd r = KPath -> forall x, v = TStr x -> without amp x) -> w <> VS "" -> w <> VS "Default" -> exists c, load_file E (document l) = Ok c /\ member (r_mem r) c = Some w.
Proof.
  intros W I O K P F A N1 N2. destruct (well_formed_clean l W) as [C ND]. unfold load_file. rewrite document_render, (read_render l C ND). eexists. split; [reflexivity|].
  apply (derived_keeps E (update_tree false (tree_of l) cfg0) _ s r w); [apply post_derived|exact O|intros KS; rewrite KS in F; destruct v; cbn [fits] in F; try contradiction; eauto| |exact N1|exact N2].
  rewrite (update_member false (tree_of l) s r cfg0 O). unfold option_value. rewrite (subtree_of s l kv ND I).
  destruct W as [_ W]. destruct (W s kv I) as (_ & _ & _ & NK & _). rewrite (aget_in _ _ _ NK K). now rewrite (fits_reads _ _ _ (options_kind s r O) P F A).
Qed.

(** ** A configuration that was loaded *)
Lemma load_ok E dirs o files c : effective (searched dirs o) files -> load E dirs o = Ok c ->
  o_secfile o = None /\ starts_well dirs o files /\ exists b, settings o files b /\ derived E b c.
Proof.
  intros EF H. pose proof H as H'. rewrite (load_steps E dirs o files EF) in H.
  destruct (match o_config o with Some l => existsb _ l | None => false end) eqn:X; [discriminate|].
  destruct (update_files (from_cmd o) files (start o)) as [c1|e] eqn:F; [|discriminate]. cbn [bind] in H. destruct (update_cmd o c1) as [c2|] eqn:U; [|discriminate].
  pose proof (proj1 (cmd_member o c1 c2 U)) as SF. split; [exact SF|].
  assert (SW : starts_well dirs o files).
  { split.
    - intros NO p I Q. unfold searched in I. destruct (o_config o) as [l|]; [|congruence]. apply not_true_iff_false in X. apply X. apply existsb_exists. exists p. rewrite Q. auto.
    - apply (files_readable (from_cmd o) files (start o)). eauto. }
  split; [exact SW|]. destruct (proj1 (load_settings E dirs o files SF EF) SW) as (b & c' & L & S & D). rewrite H' in L. inversion L; subst c'. eauto.
Qed.
Lemma explicit_kept E dirs o files c s r v : effective (searched dirs o) files -> load E dirs o = Ok c -> In (s, r) options -> set_to o files (r_mem r) v ->
  v <> VS "" -> v <> VS "Default" -> member (r_mem r) c = Some v.
Proof.
  intros EF L I ST N1 N2. destruct (load_ok E dirs o files c EF L) as (SF & _ & b & S & D). destruct (S s r I) as [A B].
  apply (derived_keeps E b c s r v D I); [| |exact N1|exact N2].
  - intros K. destruct ST as [ST|[_ (l1 & n & text & l2 & _ & (t & s' & r' & w & _ & I' & E' & _ & V) & _)]].
    + unfold on_command_line, cmd_options in ST. rewrite SF in ST. cbn [In] in ST. destruct ST as [Q|[Q|[Q|[Q|[Q|[Q|[Q|[]]]]]]]]; injection Q as Q1 Q2.
      * exfalso. assert (X : (s, r) = ("logger", Row "logger.loglevel" "loglevel" int32)) by (apply option_unique; [exact I|now left|symmetry; exact Q1]). inversion X; subst. discriminate.
      * destruct (o_tls o); inversion Q2; eauto.
      * destruct (o_repo o); inversion Q2; eauto.
      * destruct (o_director o); inversion Q2; eauto.
      * destruct (o_serial o); inversion Q2; eauto.
      * destruct (o_hwid o); inversion Q2; eauto.
      * discriminate.
    + pose proof (option_unique _ _ _ _ I' I E') as X. inversion X; subst. rewrite K in V. cbn [read_value] in V. inversion V. eauto.
  - destruct ST as [ST|[ST1 ST2]]; [exact (A v ST)|exact (proj1 (B ST1) v ST2)].
Qed.
Lemma left_out_empty o files b m : settings o files b -> mem_str m members = true -> member m cfg0 = Some (VS "") -> left_out o files m -> text_of m b = "".
Proof.
  intros S MM M0 LO. destruct (member_option m MM) as (s & r & I & <-). destruct (S s r I) as [A B]. unfold text_of. destruct LO as [[ST|[ST1 ST2]]|[N1 N2]].
  - now rewrite (A _ ST).
  - now rewrite (proj1 (B ST1) _ ST2).
  - rewrite (proj2 (B N1) N2), M0. reflexivity.
Qed.
Lemma derived_gateway E dirs o files c g : effective (searched dirs o) files -> load E dirs o = Ok c -> member "tls.server" c = Some (VS g) -> g <> "" ->
  forall m suf, In (m, ("tls.server", suf)) derived_from -> left_out o files m -> member m c = Some (VS (append g suf)).
Proof.
  intros EF L G N m suf I LO. destruct (load_ok E dirs o files c EF L) as (_ & _ & b & S & D). destruct D as (_ & _ & _ & _ & _ & _ & _ & _ & _ & DF).
  destruct (derived_kind _ _ _ I) as (_ & MM & _). assert (TG : text_of "tls.server" c = g) by (unfold text_of; now rewrite G). destruct (DF m "tls.server" suf I) as [_ B]. rewrite TG in B. apply B; [|exact N].
  apply (left_out_empty o files b m S MM); [|exact LO]. cbn [derived_from In] in I. destruct I as [I|[I|[I|[I|[I|[]]]]]]; injection I as <- _; reflexivity.
Qed.
