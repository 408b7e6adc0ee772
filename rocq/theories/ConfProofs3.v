(** Proofs about configurations: which files count, the command line, derived values, what is loaded. *)
From Verif Require Import Base TufModel TufProofs GenProofs DeployModel DeploySpec DeployProofs ConfModel ConfSpec ConfProofs ConfProofs2.

(** ** Which files *)
Definition put_all (m xs : list (string * option string)) := fold_left (fun m x => mput (fst x) (snd x) m) xs m.
Lemma chosen_found l : forall m, fold_left add_path l m = put_all m (found l).
Proof.
  induction l as [|p l IH]; intros m; [reflexivity|]. cbn [fold_left found flat_map]. unfold put_all. rewrite fold_left_app. fold (put_all m). rewrite IH. unfold put_all. f_equal.
  unfold add_path. destruct (cp_what p) as [[t|es]|]; reflexivity.
Qed.
Lemma put_all_spec xs : ascending (put_all [] xs) /\ forall n t, aget n (put_all [] xs) = Some t <-> last_of xs n t.
Proof.
  induction xs as [|[k v] xs IH] using rev_ind.
  - split; [exact Logic.I|]. intros n t. split; [discriminate|]. intros (l1 & l2 & E & _). destruct l1; discriminate.
  - destruct IH as [A B]. unfold put_all in *. rewrite fold_left_app. cbn [fold_left fst snd]. split; [now apply mput_ascending|].
    intros n t. rewrite aget_mput. destruct (String.eqb_spec n k) as [->|N].
    + split.
      * intros H. inversion H; subst. exists xs, []. split; [reflexivity|]. intros u [].
      * intros (l1 & l2 & E & F). destruct l2 as [|y l2] using rev_ind.
        -- apply app_inj_tail in E. destruct E as [_ E]. now inversion E.
        -- exfalso. clear IHl2. rewrite app_comm_cons, List.app_assoc in E. apply app_inj_tail in E. destruct E as [_ E]. subst y. apply (F v). apply in_app_iff. right. now left.
    + rewrite B. split.
      * intros (l1 & l2 & E & F). exists l1, (l2 ++ [(k, v)]). split; [rewrite E, <- List.app_assoc; reflexivity|]. intros u I. apply in_app_iff in I. destruct I as [I|[I|[]]]; [exact (F u I)|inversion I; congruence].
      * intros (l1 & l2 & E & F). destruct l2 as [|y l2] using rev_ind.
        -- apply app_inj_tail in E. destruct E as [_ E]. inversion E; congruence.
        -- clear IHl2. rewrite app_comm_cons, List.app_assoc in E. apply app_inj_tail in E. destruct E as [E _]. exists l1, l2. split; [exact E|]. intros u I. apply (F u). apply in_app_iff. now left.
Qed.
Theorem chosen_effective l : effective l (chosen l).
Proof.
  unfold chosen. rewrite chosen_found. destruct (put_all_spec (found l)) as [A B]. split; [exact A|]. intros n t. rewrite <- B. split; [|exact (aget_some n t _)].
  intros I. apply aget_in; [now apply ascending_nodup|exact I].
Qed.
Lemma ascending_same {A} (l1 l2 : list (string * A)) : ascending l1 -> ascending l2 -> (forall x, In x l1 <-> In x l2) -> l1 = l2.
Proof.
  revert l2. induction l1 as [|x l1 IH]; intros l2 HA HB E.
  - destruct l2 as [|y l2]; [reflexivity|]. exfalso. apply (E y). now left.
  - destruct l2 as [|y l2]; [exfalso; apply (E x); now left|]. destruct HA as [A1 A2]. destruct HB as [B1 B2].
    assert (XY : x = y).
    { destruct (proj1 (E x) (or_introl eq_refl)) as [->|I]; [reflexivity|]. destruct (proj2 (E y) (or_introl eq_refl)) as [->|J]; [reflexivity|].
      specialize (A1 y J). specialize (B1 x I). pose proof (str_ltb_trans _ _ _ A1 B1) as Z. rewrite str_ltb_irr in Z. discriminate. }
    subst y. f_equal. apply IH; auto. intros z. split; intros I.
    + destruct (proj1 (E z) (or_intror I)) as [->|]; [|assumption]. specialize (A1 z I). rewrite str_ltb_irr in A1. discriminate.
    + destruct (proj2 (E z) (or_intror I)) as [->|]; [|assumption]. specialize (B1 z I). rewrite str_ltb_irr in B1. discriminate.
Qed.
Lemma effective_unique l f1 f2 : effective l f1 -> effective l f2 -> f1 = f2.
Proof. intros [A1 B1] [A2 B2]. apply ascending_same; auto. intros [n t]. now rewrite B1, B2. Qed.

(** ** What the files say *)
Lemma option_unique s r s' r' : In (s, r) options -> In (s', r') options -> r_mem r = r_mem r' -> (s, r) = (s', r').
Proof.
  pose proof options_members as N. induction options as [|x l IH]; intros A B E; [destruct A|]. cbn [map] in N. inversion N as [|? ? N1 N2]; subst.
  destruct A as [A|A], B as [B|B]; subst.
  - exact B.
  - exfalso. apply N1. cbn [snd]. rewrite E. apply (in_map (fun x => r_mem (snd x))) in B. exact B.
  - exfalso. apply N1. cbn [snd]. rewrite <- E. apply (in_map (fun x => r_mem (snd x))) in A. exact A.
  - auto.
Qed.
Lemma says_value text t s r v : read_ini text = Some t -> In (s, r) options -> (says text (r_mem r) v <-> option_value t s r = Some v).
Proof.
  intros R I. unfold option_value. split.
  - intros (t' & s' & r' & w & R' & I' & E & G & V). rewrite R in R'. inversion R'; subst t'. pose proof (option_unique _ _ _ _ I' I E) as X. inversion X; subst. now rewrite G.
  - destruct (aget (r_key r) (subtree s t)) as [w|] eqn:G; [|discriminate]. intros V. exists t, s, r, w. auto.
Qed.
Lemma opts_in lg s r : In (s, r) (opts lg) -> In (s, r) options.
Proof. destruct lg; [|auto]. unfold opts, options. cbn [app map tl log_rows]. intros I. now right. Qed.
Lemma files_member lg l s r : In (s, r) (opts lg) -> forall c d, update_files lg l c = Ok d ->
  (exists v, last_says l (r_mem r) v /\ member (r_mem r) d = Some v) \/ (none_says l (r_mem r) /\ member (r_mem r) d = member (r_mem r) c).
Proof.
  intros I. pose proof (opts_in _ _ _ I) as IO. induction l as [|[n [text|]] l IH]; intros c d H; cbn [update_files] in H.
  - inversion H; subst. right. split; [intros ? ? ? []|reflexivity].
  - destruct (read_ini text) as [t|] eqn:R; [|discriminate]. destruct (IH _ _ H) as [(v & (l1 & n1 & x & l2 & E & A & B) & M)|[N M]].
    + left. exists v. split; [|exact M]. exists ((n, Some text) :: l1), n1, x, l2. split; [now rewrite E|auto].
    + rewrite M, (update_member lg t s r c I). destruct (option_value t s r) as [v|] eqn:O.
      * left. exists v. split; [|reflexivity]. exists [], n, text, l. split; [reflexivity|]. split; [now apply (says_value text t s r v R IO)|exact N].
      * right. split; [|reflexivity]. intros n' text' v' [J|J]; [|exact (N _ _ _ J)]. inversion J; subst. intros Z. apply (says_value text' t s r v' R IO) in Z. congruence.
  - discriminate.
Qed.
Lemma files_other lg l m : ~ In m (map (fun x => r_mem (snd x)) (opts lg)) -> forall c d, update_files lg l c = Ok d -> member m d = member m c.
Proof.
  intros N. induction l as [|[n [text|]] l IH]; intros c d H; cbn [update_files] in H; [now inversion H| |discriminate].
  destruct (read_ini text) as [t|]; [|discriminate]. rewrite (IH _ _ H). now apply update_other.
Qed.
Lemma files_readable lg l : forall c, (exists d, update_files lg l c = Ok d) <-> forall x, In x l -> readable x.
Proof.
  induction l as [|[n [text|]] l IH]; intros c; cbn [update_files].
  - split; [intros _ x []|eauto].
  - destruct (read_ini text) as [t|] eqn:R.
    + rewrite IH. split.
      * intros H x [<-|I]; [exists text; split; [reflexivity|congruence]|auto].
      * intros H x I. apply H. now right.
    + split; [intros [d H]; discriminate|]. intros H. destruct (H _ (or_introl eq_refl)) as (x & E & N). cbn in E. inversion E; subst. congruence.
  - split; [intros [d H]; discriminate|]. intros H. destruct (H _ (or_introl eq_refl)) as (x & E & _). discriminate.
Qed.
Lemma says_one text m v v' : says text m v -> says text m v' -> v = v'.
Proof.
  intros (t & s & r & w & R & I & E & G & V) (t' & s' & r' & w' & R' & I' & E' & G' & V'). rewrite R in R'. inversion R'; subst t'.
  assert (X : (s, r) = (s', r')) by (apply option_unique; congruence). inversion X; subst. congruence.
Qed.
Lemma last_says_one l m v v' : last_says l m v -> last_says l m v' -> v = v'.
Proof.
  intros (a & n & x & b & E & S & N) (a' & n' & x' & b' & E' & S' & N'). subst l. revert a' E'. induction a as [|y a IH]; intros a' E'.
  - destruct a' as [|y' a']; cbn in E'; inversion E'; subst; [exact (says_one _ _ _ _ S S')|]. exfalso. apply (N n' x' v'); [apply in_app_iff; right; now left|exact S'].
  - destruct a' as [|y' a']; cbn in E'; inversion E'; subst; [|now apply (IH a')]. exfalso. apply (N' n x v); [apply in_app_iff; right; now left|exact S].
Qed.
Lemma last_none l m v : last_says l m v -> none_says l m -> False.
Proof. intros (a & n & x & b & E & S & _) N. apply (N n x v); [rewrite E; apply in_app_iff; right; now left|exact S]. Qed.

(** ** The command line *)
Lemma member_with m v m' c : member m' (with_member m v c) = if String.eqb m' m then Some v else member m' c.
Proof. reflexivity. Qed.
Lemma member_set m o m' c : member m' (set_opt m o c) = if String.eqb m' m then match o with Some s => Some (VS s) | None => member m' c end else member m' c.
Proof. destruct o; [reflexivity|]. cbn. destruct (String.eqb m' m); reflexivity. Qed.
Lemma cmd_member o c d : update_cmd o c = Ok d -> o_secfile o = None /\ c_extra d = c_extra c /\ forall m,
  (forall v, on_command_line o m v -> member m d = Some v) /\ ((forall v, ~ on_command_line o m v) -> member m d = member m c).
Proof.
  unfold update_cmd. cbn zeta. intros H. destruct (o_secfile o) as [x|] eqn:SF; [discriminate|]. split; [reflexivity|]. injection H as <-. split.
  { unfold set_opt. destruct (o_hwid o), (o_serial o), (o_director o), (o_repo o), (o_tls o), (o_loglevel o); reflexivity. }
  intros m. unfold on_command_line, cmd_options. rewrite SF. cbn [In]. split.
  - intros v H. rewrite !member_set.
    destruct H as [H|[H|[H|[H|[H|[H|[H|[]]]]]]]]; injection H as <- H; cbn [String.eqb Ascii.eqb Bool.eqb].
    + destruct (o_loglevel o); [|discriminate]. rewrite member_with. cbn. congruence.
    + destruct (o_tls o); [congruence|discriminate].
    + destruct (o_repo o); [congruence|discriminate].
    + destruct (o_director o); [congruence|discriminate].
    + destruct (o_serial o); [congruence|discriminate].
    + destruct (o_hwid o); [congruence|discriminate].
    + discriminate.
  - intros H. rewrite !member_set.
    destruct (String.eqb_spec m "provision.primary_ecu_hardware_id") as [->|]; [destruct (o_hwid o) as [x|] eqn:EX; [exfalso; apply (H (VS x)); tauto|]|].
    all: repeat match goal with |- context [String.eqb (String ?p ?q) ?b] => let x := eval vm_compute in (String.eqb (String p q) b) in change (String.eqb (String p q) b) with x; cbv iota end.
    1: { destruct (o_loglevel o); reflexivity. }
    destruct (String.eqb_spec m "provision.primary_ecu_serial") as [->|]; [destruct (o_serial o) as [x|] eqn:EX; [exfalso; apply (H (VS x)); tauto|]|].
    all: repeat match goal with |- context [String.eqb (String ?p ?q) ?b] => let x := eval vm_compute in (String.eqb (String p q) b) in change (String.eqb (String p q) b) with x; cbv iota end.
    1: { destruct (o_loglevel o); reflexivity. }
    destruct (String.eqb_spec m "uptane.director_server") as [->|]; [destruct (o_director o) as [x|] eqn:EX; [exfalso; apply (H (VS x)); tauto|]|].
    all: repeat match goal with |- context [String.eqb (String ?p ?q) ?b] => let x := eval vm_compute in (String.eqb (String p q) b) in change (String.eqb (String p q) b) with x; cbv iota end.
    1: { destruct (o_loglevel o); reflexivity. }
    destruct (String.eqb_spec m "uptane.repo_server") as [->|]; [destruct (o_repo o) as [x|] eqn:EX; [exfalso; apply (H (VS x)); tauto|]|].
    all: repeat match goal with |- context [String.eqb (String ?p ?q) ?b] => let x := eval vm_compute in (String.eqb (String p q) b) in change (String.eqb (String p q) b) with x; cbv iota end.
    1: { destruct (o_loglevel o); reflexivity. }
    destruct (String.eqb_spec m "tls.server") as [->|]; [destruct (o_tls o) as [x|] eqn:EX; [exfalso; apply (H (VS x)); tauto|]|].
    all: repeat match goal with |- context [String.eqb (String ?p ?q) ?b] => let x := eval vm_compute in (String.eqb (String p q) b) in change (String.eqb (String p q) b) with x; cbv iota end.
    1: { destruct (o_loglevel o); reflexivity. }
    destruct (o_loglevel o) as [z|]; [|reflexivity]. rewrite member_with. destruct (String.eqb_spec m "logger.loglevel") as [->|]; [|reflexivity]. exfalso. apply (H (VZ z)). tauto.
Qed.
