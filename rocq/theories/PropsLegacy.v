(** Property C188: Root metadata that an old version stored without its version number is found again. *)
From Verif Require Import Base Json TufModel MetaStore LegacyModel Toy.

(** ** Specification *)
(** The version that a document gives itself. *)
Definition says_version (E : Env) (text : string) (v : Z) : Prop :=
  exists top body, parse E text = JObj top /\ aget "signed" top = Some (JObj body) /\ aget "version" body = Some (JInt v).
Definition max_int32 : Z := 2147483647.
(** The table's UNIQUE constraint. *)
Definition unique_rows (d : db) : Prop := NoDup (map (fun r => (w_repo r, w_type r, w_ver r)) (d_meta d)).
Definition root_row (rp : repo) (v : Z) (data : string) : row := {| w_data := data; w_repo := rp; w_type := RRoot; w_ver := v |}.
(** A text without NUL characters, and not empty. *)
Fixpoint no_nul (s : string) : Prop := match s with EmptyString => True | String c s' => c <> "000"%char /\ no_nul s' end.
Definition readable (s : string) : Prop := s <> "" /\ no_nul s.

Definition C188_statement (cond : Env -> db -> repo -> Prop) : Prop :=
  forall E d rp text v, unique_rows d -> In (root_row rp (-1) text) (d_meta d) -> readable text -> says_version E text v -> 0 <= v <= max_int32 ->
  cond E d rp ->
  let d' := open_storage E false d in
  (* it is found under its version, and there is no other row for it *)
  load_root rp v d' = Ok (Some text) /\
  (forall data, ~ In (root_row rp (-1) data) (d_meta d')) /\
  (* it is the latest unless there is one with a greater version, which then stays the latest *)
  ((forall w data, In (root_row rp w data) (d_meta d) -> w <= v) -> load_latest_root rp d' = Ok (Some text)) /\
  ((exists w data, In (root_row rp w data) (d_meta d) /\ v < w) -> load_latest_root rp d' = load_latest_root rp d).

Lemma repo_eqb_eq a b : repo_eqb a b = true <-> a = b. Proof. destruct a, b; simpl; split; congruence. Qed.
Lemma rkind_eqb_eq a b : rkind_eqb a b = true <-> a = b. Proof. destruct a, b; simpl; split; congruence. Qed.
Lemma is_row_iff rp ty r : is_row rp ty r = true <-> w_repo r = rp /\ w_type r = ty.
Proof. unfold is_row. rewrite andb_true_iff, repo_eqb_eq, rkind_eqb_eq. reflexivity. Qed.
Lemma is_row_v_iff rp ty v r : is_row_v rp ty v r = true <-> (w_repo r = rp /\ w_type r = ty) /\ w_ver r = v.
Proof. unfold is_row_v. rewrite andb_true_iff, is_row_iff, Z.eqb_eq. reflexivity. Qed.
Lemma row_eta r rp v : w_repo r = rp -> w_type r = RRoot -> w_ver r = v -> r = root_row rp v (w_data r).
Proof. destruct r; simpl; intros -> -> ->; reflexivity. Qed.
Lemma nodup_map_inj {A B} (f : A -> B) : forall l a b, NoDup (map f l) -> In a l -> In b l -> f a = f b -> a = b.
Proof.
  induction l as [|x l IH]; intros a b N Ia Ib E; [destruct Ia|]. inversion N as [|y ys N1 N2]; subst.
  destruct Ia as [<-|Ia], Ib as [<-|Ib]; [reflexivity| | |exact (IH a b N2 Ia Ib E)].
  - elim N1. rewrite E. apply in_map, Ib.
  - elim N1. rewrite <- E. apply in_map, Ia.
Qed.
Lemma unique_row d rp ty v a b : unique_rows d -> In a (d_meta d) -> In b (d_meta d) -> is_row_v rp ty v a = true -> is_row_v rp ty v b = true -> a = b.
Proof.
  intros U Ia Ib Ha Hb. apply is_row_v_iff in Ha, Hb. destruct Ha as ((A1 & A2) & A3), Hb as ((B1 & B2) & B3).
  apply (nodup_map_inj _ _ _ _ U Ia Ib). congruence.
Qed.
Lemma find_unique d rp ty v r : unique_rows d -> In r (d_meta d) -> is_row_v rp ty v r = true -> find (is_row_v rp ty v) (d_meta d) = Some r.
Proof.
  intros U I1 H. destruct (find (is_row_v rp ty v) (d_meta d)) as [x|] eqn:F.
  - destruct (find_some _ _ F) as (Ix & Hx). rewrite (unique_row d rp ty v x r U Ix I1 Hx H). reflexivity.
  - rewrite (find_none _ _ F r I1) in H. discriminate.
Qed.
Lemma cut_no_nul : forall s, no_nul s -> cut_nul s = s.
Proof. induction s as [|c s IH]; intros H; [reflexivity|]. destruct H as (N & H). cbn [cut_nul]. destruct (Ascii.eqb_spec c "000"); [contradiction|]. rewrite IH by exact H. reflexivity. Qed.
Lemma blob_readable s : readable s -> blob_to_string s = Ok s.
Proof. intros (N & H). unfold blob_to_string. rewrite (cut_no_nul s H). destruct s; [congruence|reflexivity]. Qed.
Lemma extract_says E text v : says_version E text v -> 0 <= v <= max_int32 -> extract_version_untrusted E text = Ok v.
Proof.
  intros (top & body & P & Q & R) L. unfold extract_version_untrusted. rewrite P. cbn [jget bind]. rewrite Q. cbn [jget bind]. rewrite R. cbn [bind jis_integral negb].
  unfold jas_int, jas_range, in_range. unfold max_int32 in L. change min_int with (-2147483648). change max_int with 2147483647.
  destruct (Z.leb_spec (-2147483648) v), (Z.leb_spec v 2147483647); try lia; reflexivity.
Qed.

(** What cleaning does to a table with a legacy row. *)
Definition cleaned (rp : repo) (v : Z) (d : db) : db :=
  {| d_meta := map (fun x => if is_row_v rp RRoot (-1) x then with_version v x else x) (filter (fun x => negb (is_row_v rp RRoot v x)) (d_meta d)); d_deleg := d_deleg d |}.
Lemma clean_legacy E rp d text v : unique_rows d -> In (root_row rp (-1) text) (d_meta d) -> readable text -> says_version E text v -> 0 <= v <= max_int32 ->
  clean_meta_version E rp d = Ok (cleaned rp v d).
Proof.
  intros U I1 Rd Sv L. unfold clean_meta_version. rewrite (find_unique d rp RRoot (-1) (root_row rp (-1) text) U I1); [|apply is_row_v_iff; auto].
  cbn [w_data root_row]. rewrite (blob_readable text Rd). cbn [bind]. rewrite (extract_says E text v Sv L). cbn [bind].
  destruct (Z.ltb_spec v 0); [lia|]. reflexivity.
Qed.
(** Membership after cleaning. *)
Lemma cleaned_in rp v d x : In x (d_meta (cleaned rp v d)) <->
  (In x (d_meta d) /\ is_row_v rp RRoot v x = false /\ is_row_v rp RRoot (-1) x = false) \/
  (exists y, In y (d_meta d) /\ is_row_v rp RRoot v y = false /\ is_row_v rp RRoot (-1) y = true /\ x = with_version v y).
Proof.
  unfold cleaned. cbn [d_meta]. rewrite in_map_iff. split.
  - intros (y & E & I1). apply filter_In in I1. destruct I1 as (I1 & N). apply negb_true_iff in N.
    destruct (is_row_v rp RRoot (-1) y) eqn:Q; [right; exists y; auto|left; subst x; auto].
  - intros [(I1 & A & B)|(y & I1 & A & B & ->)].
    + exists x. rewrite B. split; [reflexivity|]. apply filter_In. rewrite A. auto.
    + exists y. rewrite B. split; [reflexivity|]. apply filter_In. rewrite A. auto.
Qed.
Lemma cleaned_unique rp v d : unique_rows d -> unique_rows (cleaned rp v d).
Proof.
  unfold unique_rows, cleaned. cbn [d_meta]. intros U. rewrite map_map.
  set (key := fun r => (w_repo r, w_type r, w_ver r)) in *. 
  assert (G : forall l, NoDup (map key l) -> NoDup (map (fun x => key (if is_row_v rp RRoot (-1) x then with_version v x else x)) (filter (fun x => negb (is_row_v rp RRoot v x)) l))).
  { induction l as [|a l IH]; intros N; [constructor|]. cbn [map] in N. inversion N as [|y ys N1 N2]; subst. cbn [filter].
    destruct (is_row_v rp RRoot v a) eqn:A; cbn [negb]; [exact (IH N2)|]. cbn [map]. constructor; [|exact (IH N2)].
    intros I1. apply in_map_iff in I1. destruct I1 as (b & E & I1). apply filter_In in I1. destruct I1 as (I1 & B). apply negb_true_iff in B.
    apply N1. apply in_map_iff. exists b. split; [|exact I1]. clear N IH N1 N2 I1.
    destruct (is_row_v rp RRoot (-1) a) eqn:A1, (is_row_v rp RRoot (-1) b) eqn:B1.
    - apply is_row_v_iff in A1, B1. unfold key. destruct A1 as ((-> & ->) & ->), B1 as ((-> & ->) & ->). reflexivity.
    - exfalso. apply is_row_v_iff in A1. destruct A1 as ((X1 & X2) & X3). unfold key in E. cbn in E. injection E as E1 E2 E3.
      assert (C : is_row_v rp RRoot v b = true) by (apply is_row_v_iff; split; [split; congruence|exact E3]). congruence.
    - exfalso. apply is_row_v_iff in B1. destruct B1 as ((X1 & X2) & X3). unfold key in E. cbn in E. injection E as E1 E2 E3.
      assert (C : is_row_v rp RRoot v a = true) by (apply is_row_v_iff; split; [split; congruence|symmetry; exact E3]). congruence.
    - exact E. }
  exact (G _ U).
Qed.
(** The latest row, by its property. *)
Lemma max_row_spec : forall l best b, max_row l best = Some b ->
  (In b l \/ best = Some b) /\ (forall x, In x l -> w_ver x <= w_ver b) /\ (forall x, best = Some x -> w_ver x <= w_ver b).
Proof.
  induction l as [|r l IH]; intros best b H; cbn [max_row] in H.
  - split; [right; exact H|]. split; [intros x []|]. intros x Q. rewrite Q in H. injection H as ->. lia.
  - destruct (IH _ _ H) as (A & B & C). clear IH H. destruct best as [p|].
    + destruct (Z.ltb_spec (w_ver p) (w_ver r)) as [L|L].
      * split; [destruct A as [A|A]; [left; right; exact A|injection A as <-; left; left; reflexivity]|]. specialize (C r eq_refl).
        split; [intros x [<-|I1]; [exact C|exact (B x I1)]|]. intros x Q. injection Q as <-. lia.
      * split; [destruct A as [A|A]; [left; right; exact A|right; exact A]|]. specialize (C p eq_refl).
        split; [intros x [<-|I1]; [lia|exact (B x I1)]|]. intros x Q. injection Q as <-. exact C.
    + split; [destruct A as [A|A]; [left; right; exact A|injection A as <-; left; left; reflexivity]|]. specialize (C r eq_refl).
      split; [intros x [<-|I1]; [exact C|exact (B x I1)]|]. intros x Q. discriminate.
Qed.
Lemma max_row_some : forall l best, (l <> [] \/ best <> None) -> exists b, max_row l best = Some b.
Proof.
  induction l as [|r l IH]; intros best H; cbn [max_row].
  - destruct best as [b|]; [exists b; reflexivity|destruct H; congruence].
  - apply IH. right. destruct best as [p|]; [destruct (w_ver p <? w_ver r)|]; discriminate.
Qed.
Lemma latest_is d rp r : unique_rows d -> In r (d_meta d) -> is_row rp RRoot r = true ->
  (forall x, In x (d_meta d) -> is_row rp RRoot x = true -> w_ver x <= w_ver r) -> latest_row rp RRoot d = Some r.
Proof.
  intros U I1 H M. unfold latest_row. assert (F : In r (filter (is_row rp RRoot) (d_meta d))) by (apply filter_In; auto).
  destruct (max_row_some (filter (is_row rp RRoot) (d_meta d)) None) as (b & B); [left; intros Q; rewrite Q in F; exact F|].
  rewrite B. destruct (max_row_spec _ _ _ B) as ([Ib|Q] & Mb & _); [|discriminate]. pose proof (Mb r F) as L1. apply filter_In in Ib. destruct Ib as (Ib & Hb).
  pose proof (M b Ib Hb) as L2. f_equal. apply is_row_iff in H, Hb. apply (nodup_map_inj _ _ _ _ U Ib I1). destruct H, Hb. f_equal; [f_equal; congruence|lia].
Qed.

(** Rows of the other repository are not touched. *)
Lemma other_rows rp rp' v d x : rp <> rp' -> w_repo x = rp' -> (In x (d_meta (cleaned rp v d)) <-> In x (d_meta d)).
Proof.
  intros N W. rewrite cleaned_in. assert (F : forall u, is_row_v rp RRoot u x = false).
  { intros u. destruct (is_row_v rp RRoot u x) eqn:Q; [|reflexivity]. apply is_row_v_iff in Q. destruct Q as ((Q & _) & _). congruence. }
  split; [intros [(I1 & _)|(y & _ & _ & Hy & ->)]; [exact I1|]|intros I1; left; auto].
  apply is_row_v_iff in Hy. destruct Hy as ((Hy & _) & _). cbn in W. congruence.
Qed.
(** The four claims after the cleaning of the document's own repository. *)
Lemma cleaned_ok rp v d text : unique_rows d -> In (root_row rp (-1) text) (d_meta d) -> readable text -> 0 <= v ->
  load_root rp v (cleaned rp v d) = Ok (Some text) /\ (forall data, ~ In (root_row rp (-1) data) (d_meta (cleaned rp v d))) /\
  ((forall w data, In (root_row rp w data) (d_meta d) -> w <= v) -> load_latest_root rp (cleaned rp v d) = Ok (Some text)) /\
  ((exists w data, In (root_row rp w data) (d_meta d) /\ v < w) -> load_latest_root rp (cleaned rp v d) = load_latest_root rp d).
Proof.
  intros U I1 Rd L. pose proof (cleaned_unique rp v d U) as U'.
  assert (I' : In (root_row rp v text) (d_meta (cleaned rp v d))).
  { apply cleaned_in. right. exists (root_row rp (-1) text). split; [exact I1|]. split; [|split; [apply is_row_v_iff; auto|reflexivity]].
    destruct (is_row_v rp RRoot v (root_row rp (-1) text)) eqn:Q; [|reflexivity]. apply is_row_v_iff in Q. cbn in Q. lia. }
  assert (RI : is_row_v rp RRoot v (root_row rp v text) = true) by (apply is_row_v_iff; auto).
  split; [|split; [|split]].
  - unfold load_root. destruct (Z.ltb_spec v 0); [lia|]. rewrite (find_unique _ rp RRoot v _ U' I' RI). cbn [w_data root_row].
    destruct Rd as (Ne & Nn). rewrite (cut_no_nul text Nn). destruct text; [congruence|reflexivity].
  - intros data Q. apply cleaned_in in Q. destruct Q as [(_ & _ & Q)|(y & _ & _ & _ & Q)].
    + assert (X : is_row_v rp RRoot (-1) (root_row rp (-1) data) = true) by (apply is_row_v_iff; auto). congruence.
    + unfold with_version, root_row in Q. injection Q as _ _ _ Q. lia.
  - intros M. unfold load_latest_root. rewrite (latest_is _ rp (root_row rp v text) U' I'); [cbn; rewrite (blob_readable text Rd); reflexivity|apply is_row_iff; auto|].
    intros x Ix Hx. apply is_row_iff in Hx. destruct Hx as (X1 & X2). cbn [w_ver root_row]. apply cleaned_in in Ix. destruct Ix as [(Ix & _)|(y & _ & _ & _ & ->)]; [|cbn; lia].
    rewrite (row_eta x rp (w_ver x) X1 X2 eq_refl) in Ix. exact (M _ _ Ix).
  - intros (w & data & Iw & Lw). unfold load_latest_root.
    assert (Fd : In (root_row rp w data) (filter (is_row rp RRoot) (d_meta d))) by (apply filter_In; split; [exact Iw|apply is_row_iff; auto]).
    destruct (max_row_some (filter (is_row rp RRoot) (d_meta d)) None) as (b & B); [left; intros Q; rewrite Q in Fd; exact Fd|].
    destruct (max_row_spec _ _ _ B) as ([Ib|Q] & Mb & _); [|discriminate]. pose proof (Mb _ Fd) as L1. cbn in L1. apply filter_In in Ib. destruct Ib as (Ib & Hb).
    assert (LD : latest_row rp RRoot d = Some b) by exact B. rewrite LD. f_equal.
    apply latest_is; [exact U'| |exact Hb|].
    + apply cleaned_in. left. split; [exact Ib|]. split; [destruct (is_row_v rp RRoot v b) eqn:Q|destruct (is_row_v rp RRoot (-1) b) eqn:Q]; try reflexivity;
        apply is_row_v_iff in Q; lia.
    + intros x Ix Hx. apply cleaned_in in Ix. destruct Ix as [(Ix & _)|(y & _ & _ & _ & ->)]; [apply Mb; apply filter_In; auto|cbn; lia].
Qed.
(** The claims on one repository depend on its own Root rows only. *)
Definition same_roots (rp : repo) (d d' : db) : Prop := filter (is_row rp RRoot) (d_meta d') = filter (is_row rp RRoot) (d_meta d).
Lemma same_in rp d d' x : same_roots rp d d' -> is_row rp RRoot x = true -> (In x (d_meta d') <-> In x (d_meta d)).
Proof. intros S0 H. pose proof (filter_In (is_row rp RRoot) x (d_meta d)) as A. pose proof (filter_In (is_row rp RRoot) x (d_meta d')) as B. rewrite S0 in B. tauto. Qed.
Lemma find_filter rp v : forall l, find (is_row_v rp RRoot v) l = find (is_row_v rp RRoot v) (filter (is_row rp RRoot) l).
Proof.
  induction l as [|a l IH]; [reflexivity|]. cbn [find filter]. unfold is_row_v at 1. destruct (is_row rp RRoot a) eqn:Q; cbn [andb]; [|exact IH].
  cbn [find]. unfold is_row_v at 2. rewrite Q. cbn [andb]. rewrite IH. reflexivity.
Qed.
Lemma same_latest rp d d' : same_roots rp d d' -> load_latest_root rp d' = load_latest_root rp d.
Proof. intros S0. unfold load_latest_root, latest_row. rewrite S0. reflexivity. Qed.
Lemma same_load rp v d d' : same_roots rp d d' -> load_root rp v d' = load_root rp v d.
Proof. intros S0. unfold load_root. rewrite (same_latest rp d d' S0), find_filter, S0, <- find_filter. reflexivity. Qed.
Lemma cleaned_same rp rp' v d : rp <> rp' -> same_roots rp d (cleaned rp' v d).
Proof.
  intros N. unfold same_roots, cleaned. cbn [d_meta]. induction (d_meta d) as [|a l IH]; [reflexivity|]. cbn [filter].
  destruct (is_row rp RRoot a) eqn:A.
  - assert (F : forall u, is_row_v rp' RRoot u a = false).
    { intros u. destruct (is_row_v rp' RRoot u a) eqn:Q; [|reflexivity]. apply is_row_v_iff in Q. apply is_row_iff in A. destruct Q as ((Q & _) & _), A. congruence. }
    rewrite F. cbn [negb map filter]. rewrite F, A, IH. reflexivity.
  - destruct (is_row_v rp' RRoot v a) eqn:Q; cbn [negb]; [exact IH|]. cbn [map filter].
    destruct (is_row_v rp' RRoot (-1) a); [|rewrite A; exact IH]. unfold is_row in *. cbn [with_version w_repo w_type]. rewrite A. exact IH.
Qed.
Lemma clean_cases E rp d d' : clean_meta_version E rp d = Ok d' -> d' = d \/ exists v, d' = cleaned rp v d.
Proof.
  unfold clean_meta_version. destruct (find _ _) as [r|]; [|intros Q; injection Q as <-; left; reflexivity].
  destruct (blob_to_string (w_data r)) as [m|]; [|discriminate]. cbn [bind]. destruct (extract_version_untrusted E m) as [v|]; [|discriminate]. cbn [bind].
  destruct (v <? 0); intros Q; injection Q as <-; [left; reflexivity|right; exists v; reflexivity].
Qed.
Lemma clean_other E rp rp' d d' : rp <> rp' -> clean_meta_version E rp' d = Ok d' -> unique_rows d -> same_roots rp d d' /\ unique_rows d'.
Proof.
  intros N C U. destruct (clean_cases _ _ _ _ C) as [->|(v & ->)]; [split; [reflexivity|exact U]|]. split; [apply cleaned_same, N|apply cleaned_unique, U].
Qed.

(** The Director's stored Root, if it is one without its number, can be read and has a version. *)
Definition director_first (E : Env) (d : db) (rp : repo) : Prop :=
  rp = Director \/ (forall data, In (root_row Director (-1) data) (d_meta d) -> readable data /\ exists u, says_version E data u /\ 0 <= u <= max_int32).
Theorem C188_partial : C188_statement director_first.
Proof.
  intros E d rp text v U I1 Rd Sv L Cd. cbv zeta. unfold open_storage.
  destruct rp.
  - (* Director *)
    rewrite (clean_legacy E Director d text v U I1 Rd Sv L). destruct (cleaned_ok Director v d text U I1 Rd (proj1 L)) as (A & B & C & D).
    assert (G : forall d2, same_roots Director (cleaned Director v d) d2 ->
      load_root Director v d2 = Ok (Some text) /\ (forall data, ~ In (root_row Director (-1) data) (d_meta d2)) /\
      ((forall w data, In (root_row Director w data) (d_meta d) -> w <= v) -> load_latest_root Director d2 = Ok (Some text)) /\
      ((exists w data, In (root_row Director w data) (d_meta d) /\ v < w) -> load_latest_root Director d2 = load_latest_root Director d)).
    { intros d2 S0. rewrite (same_load _ _ _ _ S0), (same_latest _ _ _ S0). split; [exact A|]. split; [|split; assumption].
      intros data Q. apply (B data). apply (same_in Director _ _ _ S0); [reflexivity|exact Q]. }
    destruct (clean_meta_version E Image (cleaned Director v d)) as [d2|] eqn:CI; [|apply G; reflexivity].
    apply G. apply (clean_other E Director Image _ _ ltac:(discriminate) CI). apply cleaned_unique, U.
  - (* Image *)
    assert (H1 : exists d1, clean_meta_version E Director d = Ok d1).
    { destruct Cd as [Q|Cd]; [discriminate|]. unfold clean_meta_version at 1. destruct (find (is_row_v Director RRoot (-1)) (d_meta d)) as [r|] eqn:F; [|eexists; reflexivity].
      destruct (find_some _ _ F) as (Ir & Hr). apply is_row_v_iff in Hr. destruct Hr as ((R1 & R2) & R3). rewrite (row_eta r Director (-1) R1 R2 R3) in Ir.
      destruct (Cd _ Ir) as (Rr & u & Su & Lu). rewrite (blob_readable _ Rr). cbn [bind]. rewrite (extract_says E _ u Su Lu). cbn [bind]. destruct (u <? 0); eexists; reflexivity. }
    destruct H1 as (d1 & C1). rewrite C1. destruct (clean_other E Image Director d d1 ltac:(discriminate) C1 U) as (S1 & U1).
    assert (I2 : In (root_row Image (-1) text) (d_meta d1)) by (apply (same_in Image _ _ _ S1); [reflexivity|exact I1]).
    rewrite (clean_legacy E Image d1 text v U1 I2 Rd Sv L). destruct (cleaned_ok Image v d1 text U1 I2 Rd (proj1 L)) as (A & B & C & D).
    split; [exact A|]. split; [exact B|]. split.
    + intros M. apply C. intros w data Iw. apply (M w data). apply (same_in Image _ _ _ S1); [reflexivity|exact Iw].
    + intros (w & data & Iw & Lw). rewrite D; [apply same_latest, S1|]. exists w, data. split; [|exact Lw]. apply (same_in Image _ _ _ S1); [reflexivity|exact Iw].
Qed.
Print Assumptions C188_partial.

(** Nothing else changes: a row that is no Root row without number, and whose number no such document claims, stays; and every row of the new table
    is an old one or such a document under its own number. *)
Theorem C188_nothing_else E killed d : unique_rows d -> let d' := open_storage E killed d in
  (forall x, In x (d_meta d) -> w_type x <> RRoot -> In x (d_meta d')) /\
  (forall x, In x (d_meta d) -> (forall data, ~ In (root_row (w_repo x) (-1) data) (d_meta d)) -> In x (d_meta d')) /\
  (forall x, In x (d_meta d') -> In x (d_meta d) \/
     exists rp v data, x = root_row rp v data /\ In (root_row rp (-1) data) (d_meta d) /\ 0 <= v) /\
  d_deleg d' = d_deleg d.
Proof.
  intros U. 
  assert (ST : forall rp d0 d1, clean_meta_version E rp d0 = Ok d1 -> unique_rows d0 ->
    (forall x, In x (d_meta d0) -> w_type x <> RRoot -> In x (d_meta d1)) /\
    (forall x, In x (d_meta d0) -> (forall data, ~ In (root_row (w_repo x) (-1) data) (d_meta d0)) -> In x (d_meta d1)) /\
    (forall x, In x (d_meta d1) -> In x (d_meta d0) \/ exists v data, x = root_row rp v data /\ In (root_row rp (-1) data) (d_meta d0) /\ 0 <= v) /\
    d_deleg d1 = d_deleg d0).
  { intros rp d0 d1 C U0. unfold clean_meta_version in C. destruct (find (is_row_v rp RRoot (-1)) (d_meta d0)) as [r|] eqn:F; [|injection C as <-; auto 8].
    destruct (blob_to_string (w_data r)) as [m|]; [|discriminate C]. cbn [bind] in C. destruct (extract_version_untrusted E m) as [v|]; [|discriminate C]. cbn [bind] in C.
    destruct (Z.ltb_spec v 0) as [L|L]; injection C as <-; [auto 8|]. destruct (find_some _ _ F) as (Ir & Hr). apply is_row_v_iff in Hr. destruct Hr as ((R1 & R2) & R3).
    split; [|split; [|split; [|reflexivity]]].
    - intros x Ix Nx. apply (cleaned_in rp v d0 x). left. split; [exact Ix|]. split; [destruct (is_row_v rp RRoot v x) eqn:Q|destruct (is_row_v rp RRoot (-1) x) eqn:Q]; try reflexivity;
        apply is_row_v_iff in Q; destruct Q as ((_ & Q) & _); contradiction.
    - intros x Ix Nx. apply (cleaned_in rp v d0 x). left. split; [exact Ix|].
      assert (NR : w_repo x <> rp). { intros Q. apply (Nx (w_data r)). rewrite Q, <- (row_eta r rp (-1) R1 R2 R3). exact Ir. }
      split; [destruct (is_row_v rp RRoot v x) eqn:Q|destruct (is_row_v rp RRoot (-1) x) eqn:Q]; try reflexivity; apply is_row_v_iff in Q; destruct Q as ((Q & _) & _); contradiction.
    - intros x Ix. apply (cleaned_in rp v d0 x) in Ix. destruct Ix as [(Ix & _)|(y & Iy & _ & Hy & ->)]; [left; exact Ix|]. right. exists v, (w_data y).
      apply is_row_v_iff in Hy. destruct Hy as ((Y1 & Y2) & Y3). split; [rewrite (row_eta y rp (-1) Y1 Y2 Y3); reflexivity|]. split; [rewrite <- (row_eta y rp (-1) Y1 Y2 Y3); exact Iy|exact L]. }
  cbv zeta. unfold open_storage. destruct (clean_meta_version E Director d) as [d1|] eqn:C1; [|repeat split; auto].
  destruct (ST _ _ _ C1 U) as (A1 & A2 & A3 & A4).
  assert (U1 : unique_rows d1) by (destruct (clean_cases _ _ _ _ C1) as [->|(v & ->)]; [exact U|apply cleaned_unique, U]).
  assert (ONE : (forall x, In x (d_meta d1) -> In x (d_meta d) \/ exists rp v data, x = root_row rp v data /\ In (root_row rp (-1) data) (d_meta d) /\ 0 <= v)).
  { intros x Ix. destruct (A3 x Ix) as [I1|(v & data & Q)]; [left; exact I1|right; exists Director, v, data; exact Q]. }
  destruct killed; [split; [exact A1|split; [exact A2|split; [exact ONE|exact A4]]]|].
  destruct (clean_meta_version E Image d1) as [d2|] eqn:C2; [|split; [exact A1|split; [exact A2|split; [exact ONE|exact A4]]]].
  destruct (ST _ _ _ C2 U1) as (B1 & B2 & B3 & B4).
  split; [intros x Ix Nx; apply B1; [apply A1; assumption|assumption]|]. split; [|split; [|congruence]].
  - intros x Ix Nx. apply B2; [apply A2; assumption|]. intros data Q. destruct (A3 _ Q) as [Q1|(v & dd & Q1 & _ & L)]; [exact (Nx data Q1)|].
    injection Q1. intros. lia.
  - intros x Ix. destruct (B3 x Ix) as [I1|(v & data & -> & I1 & L)]; [exact (ONE x I1)|]. destruct (A3 _ I1) as [I2|(v' & dd & Q1 & _ & L')].
    + right. exists Image, v, data. auto.
    + injection Q1. intros. lia.
Qed.
Print Assumptions C188_nothing_else.

(** Opening again, also after a kill, gives what one opening gives. *)
Lemma clean_again E rp d d1 : unique_rows d -> clean_meta_version E rp d = Ok d1 -> clean_meta_version E rp d1 = Ok d1.
Proof.
  intros U C. unfold clean_meta_version in C. destruct (find (is_row_v rp RRoot (-1)) (d_meta d)) as [r|] eqn:F.
  2: { injection C as <-. unfold clean_meta_version. rewrite F. reflexivity. }
  destruct (blob_to_string (w_data r)) as [m|] eqn:Bm; [|discriminate C]. cbn [bind] in C. destruct (extract_version_untrusted E m) as [v|] eqn:Ev; [|discriminate C]. cbn [bind] in C.
  destruct (Z.ltb_spec v 0) as [L|L]; injection C as <-.
  - unfold clean_meta_version. rewrite F, Bm. cbn [bind]. rewrite Ev. cbn [bind]. destruct (Z.ltb_spec v 0); [reflexivity|lia].
  - unfold clean_meta_version. match goal with |- context [find ?f ?l] => destruct (find f l) as [y|] eqn:F2 end; [|reflexivity].
    exfalso. destruct (find_some _ _ F2) as (Iy & Hy). apply (cleaned_in rp v d y) in Iy. destruct Iy as [(_ & _ & Q)|(z & _ & _ & _ & ->)]; [congruence|].
    apply is_row_v_iff in Hy. cbn in Hy. lia.
Qed.
Lemma same_clean E rp d d' d1 : same_roots rp d d' -> clean_meta_version E rp d = Ok d1 -> d1 = d -> clean_meta_version E rp d' = Ok d'.
Proof.
  intros S0 C ->. unfold clean_meta_version in *. rewrite find_filter, S0, <- find_filter. destruct (find (is_row_v rp RRoot (-1)) (d_meta d)) as [r|] eqn:F; [|reflexivity].
  destruct (blob_to_string (w_data r)) as [m|]; [|discriminate C]. cbn [bind] in *. destruct (extract_version_untrusted E m) as [v|]; [|discriminate C]. cbn [bind] in *.
  destruct (Z.ltb_spec v 0) as [L|L]; [reflexivity|]. exfalso. injection C as C. apply (f_equal d_meta) in C. cbn [d_meta] in C. destruct (find_some _ _ F) as (Ir & Hr).
  rewrite <- C in Ir. apply in_map_iff in Ir. destruct Ir as (y & Q & _). destruct (is_row_v rp RRoot (-1) y) eqn:Y.
  - apply is_row_v_iff in Hr. destruct Hr as (_ & Hr). rewrite <- Q in Hr. cbn in Hr. lia.
  - congruence.
Qed.
Theorem C188_again E killed d : unique_rows d -> open_storage E false (open_storage E killed d) = open_storage E false d.
Proof.
  intros U. unfold open_storage at 2 3. destruct (clean_meta_version E Director d) as [d1|] eqn:C1; [|unfold open_storage; rewrite C1; reflexivity].
  pose proof (clean_again E Director d d1 U C1) as A1.
  assert (U1 : unique_rows d1) by (destruct (clean_cases _ _ _ _ C1) as [->|(v & ->)]; [exact U|apply cleaned_unique, U]).
  assert (K : open_storage E false d1 = match clean_meta_version E Image d1 with Throw _ => d1 | Ok d2 => d2 end) by (unfold open_storage; rewrite A1; reflexivity).
  destruct killed; [exact K|]. destruct (clean_meta_version E Image d1) as [d2|] eqn:C2; [|exact K].
  destruct (clean_other E Director Image d1 d2 ltac:(discriminate) C2 U1) as (S2 & _).
  unfold open_storage. rewrite (same_clean E Director d1 d2 d1 S2 A1 eq_refl), (clean_again E Image d1 d2 U1 C2). reflexivity.
Qed.
Print Assumptions C188_again.

(** False in general: a Root of the Director that is no JSON object, or whose number is too large, stops the Image repository's part. *)
Definition legacy_env : Env := toy [("img", JObj [("signed", JObj [("version", JInt 3)])]); ("dir", JArr [])].
Definition legacy_db : db := {| d_meta := [root_row Director (-1) "dir"; root_row Image (-1) "img"]; d_deleg := [] |}.
Theorem C188_refuted : ~ C188_statement (fun _ _ _ => True).
Proof.
  intros H. destruct (H legacy_env legacy_db Image "img" 3) as (A & _).
  - unfold unique_rows. cbn. repeat constructor; cbn; intuition discriminate.
  - right. left. reflexivity.
  - split; [discriminate|]. cbn. repeat split; discriminate.
  - eexists. eexists. split; [reflexivity|]. split; reflexivity.
  - unfold max_int32. lia.
  - exact I.
  - vm_compute in A. discriminate A.
Qed.
Print Assumptions C188_refuted.
Definition legacy_env2 : Env := toy [("img", JObj [("signed", JObj [("version", JInt 3)])]); ("dir", JObj [("signed", JObj [("version", JInt 7)])])].
Example C188_example : let d := {| d_meta := [root_row Director 7 "other"; root_row Director (-1) "dir"; root_row Image 4 "newer"; root_row Image (-1) "img"]; d_deleg := [] |} in
  unique_rows d /\ director_first legacy_env2 d Image /\
  d_meta (open_storage legacy_env2 false d) = [root_row Director 7 "dir"; root_row Image 4 "newer"; root_row Image 3 "img"] /\
  load_latest_root Image (open_storage legacy_env2 false d) = Ok (Some "newer").
Proof.
  cbv zeta. split; [unfold unique_rows; cbn; repeat constructor; cbn; intuition discriminate|]. split; [|split; reflexivity].
  right. intros data [Q|[Q|[Q|[Q|[]]]]]; try discriminate. injection Q as <-. split; [split; [discriminate|cbn; repeat split; discriminate]|].
  exists 7. split; [|unfold max_int32; lia]. eexists. eexists. split; [reflexivity|]. split; reflexivity.
Qed.
