(** Proofs about configurations: what a loaded configuration looks like, reloading it, documents. *)
From Verif Require Import Base TufModel TufProofs GenProofs DeployModel DeploySpec DeployProofs ConfModel ConfSpec ConfProofs ConfProofs2 ConfProofs3 ConfProofs4.

(** ** What the parser delivers *)
Lemma split_without s x : In x (split_nl s) -> without nlc x.
Proof.
  revert x. induction s as [|c s IH]; intros x I; cbn [split_nl] in I; [destruct I as [<-|[]]; exact Logic.I|].
  destruct (Ascii.eqb_spec c nlc) as [->|N].
  - destruct I as [<-|I]; [exact Logic.I|exact (IH x I)].
  - destruct (split_nl s) as [|p l]; [destruct I as [<-|[]]; split; [exact N|exact Logic.I]|]. destruct I as [<-|I]; [split; [exact N|apply (IH p); now left]|apply (IH x); now right].
Qed.
Lemma trim_left_without c s : without c s -> without c (trim_left s).
Proof. induction s as [|a s IH]; intros H; [exact H|]. cbn [trim_left]. destruct (is_space a); [apply IH; exact (proj2 H)|exact H]. Qed.
Lemma trim_right_without c s : without c s -> without c (trim_right s).
Proof.
  induction s as [|a s IH]; intros H; [exact H|]. cbn [trim_right]. destruct (String.eqb (trim_right s) "" && is_space a); [exact Logic.I|split; [exact (proj1 H)|exact (IH (proj2 H))]].
Qed.
Lemma trim_without c s : without c s -> without c (trim s).
Proof. intros H. apply trim_left_without, trim_right_without, H. Qed.
Lemma cut_without c d s x y : cut c s = Some (x, y) -> without c x /\ (without d s -> without d x /\ without d y).
Proof.
  revert x y. induction s as [|a s IH]; intros x y H; [discriminate|]. cbn [cut] in H. destruct (Ascii.eqb_spec a c) as [->|N].
  - inversion H; subst. split; [exact Logic.I|]. intros W. split; [exact Logic.I|exact (proj2 W)].
  - destruct (cut c s) as [[x' y']|]; [|discriminate]. inversion H; subst. destruct (IH x' y eq_refl) as [A B]. split; [split; [exact N|exact A]|].
    intros W. destruct (B (proj2 W)) as [B1 B2]. split; [split; [exact (proj1 W)|exact B1]|exact B2].
Qed.
Lemma trim_right_idem s : trim_right (trim_right s) = trim_right s.
Proof.
  induction s as [|a s IH]; [reflexivity|]. cbn [trim_right]. destruct (String.eqb (trim_right s) "" && is_space a) eqn:E; [reflexivity|]. cbn [trim_right]. rewrite IH, E. reflexivity.
Qed.
Lemma trim_left_head s c r : trim_left s = String c r -> is_space c = false.
Proof. induction s as [|a s IH]; [discriminate|]. cbn [trim_left]. destruct (is_space a) eqn:E; [exact IH|]. intros H. inversion H; subst. exact E. Qed.
Lemma trim_key c k : is_space c = false -> trim (String c k) = String c (trim_right k).
Proof. intros H. unfold trim. cbn [trim_right]. rewrite H, andb_false_r. cbn [trim_left]. now rewrite H. Qed.
Definition kv_ok (l : list (string * string)) : Prop := NoDup (map fst l) /\ forall k w, In (k, w) l -> plain_name k /\ without nlc w.
Definition tree_ok (t : tree) : Prop := forall n l, In (n, Sect l) t -> kv_ok l.
Definition ini_ok (i : ini) : Prop := tree_ok (i_done i) /\ match i_cur i with Some (_, l) => kv_ok l | None => True end.
Lemma close_ok i : ini_ok i -> tree_ok (ini_close i).
Proof.
  intros [A B]. unfold ini_close. destruct (i_cur i) as [[n [|x l]]|]; [exact A| |exact A]. intros n' l' I. apply in_app_iff in I. destruct I as [I|[I|[]]]; [exact (A n' l' I)|]. inversion I; subst. exact B.
Qed.
Lemma has_false {A} k (l : list (string * A)) : has k l = false -> ~ In k (map fst l).
Proof.
  intros H I. apply in_map_iff in I. destruct I as (x & E & I). assert (X : has k l = true) by (apply existsb_exists; exists x; split; [exact I|subst; apply String.eqb_refl]). congruence.
Qed.
Lemma line_ok i raw i' : without nlc raw -> ini_ok i -> ini_line i raw = Some i' -> ini_ok i'.
Proof.
  intros W I H. unfold ini_line in H. pose proof (trim_without nlc raw W) as WT. destruct (trim raw) as [|c rest] eqn:T; [inversion H; subst; exact I|].
  destruct (Ascii.eqb_spec c ";") as [|N1]; [inversion H; subst; exact I|]. destruct (Ascii.eqb_spec c "#") as [|N2]; [inversion H; subst; exact I|]. cbn [orb] in H.
  destruct (Ascii.eqb_spec c "[") as [|N3].
  { cbn zeta in H. destruct (cut "]" rest) as [[n y]|]; [|discriminate]. destruct (has (trim n) (ini_close i)); [discriminate|]. inversion H; subst. split; [now apply close_ok|]. split; [constructor|intros k w []]. }
  destruct (cut "=" (String c rest)) as [[k v]|] eqn:C; [|discriminate]. destruct k as [|kc k]; [discriminate|].
  assert (KC : kc = c).
  { cbn [cut] in C. destruct (Ascii.eqb c "="); [discriminate|]. destruct (cut "=" rest) as [[x y]|]; [|discriminate]. inversion C; reflexivity. }
  subst kc. assert (SP : is_space c = false) by exact (trim_left_head _ _ _ T).
  destruct (cut_without _ nlc _ _ _ C) as [QE QN]. destruct (QN WT) as [QK QV].
  assert (P : plain_name (trim (String c k))).
  { pose proof (trim_without nlc _ QK) as X1. pose proof (trim_without "=" _ QE) as X2. rewrite (trim_key c k SP) in *. split; [discriminate|]. split; [cbn [trim_left]; now rewrite SP|].
    split; [cbn [trim_right]; rewrite trim_right_idem, SP, andb_false_r; reflexivity|]. split; [exact X1|]. split; [exact X2|]. auto. }
  destruct I as [ID IC]. destruct (i_cur i) as [[n l]|] eqn:CU.
  - destruct (has (trim (String c k)) l) eqn:HS; [discriminate|]. inversion H; subst. split; [exact ID|]. cbn [i_cur]. destruct IC as [IN IK]. split.
    + rewrite map_app. cbn [map fst]. apply NoDup_app'; [exact IN|constructor; [intros []|constructor]|]. intros x A [B|[]]. subst x. exact (has_false _ _ HS A).
    + intros k' w A. apply in_app_iff in A. destruct A as [A|[A|[]]]; [exact (IK k' w A)|]. inversion A; subst. split; [exact P|now apply trim_without].
  - destruct (has (trim (String c k)) (i_done i)); [discriminate|]. inversion H; subst. split; [|exact Logic.I]. cbn [i_done]. intros n l A. apply in_app_iff in A. destruct A as [A|[A|[]]]; [exact (ID n l A)|discriminate].
Qed.
Lemma read_ok text t : read_ini text = Some t -> tree_ok t.
Proof.
  unfold read_ini. intros H. destruct (ini_lines _ (split_nl text)) as [i|] eqn:L; [|discriminate]. inversion H; subst. apply close_ok.
  assert (G : forall l i0, (forall x, In x l -> without nlc x) -> ini_ok i0 -> ini_lines i0 l = Some i -> ini_ok i).
  { clear. induction l as [|x l IH]; intros i0 W O H; cbn [ini_lines] in H; [inversion H; subst; exact O|]. destruct (ini_line i0 x) as [i1|] eqn:E; [|discriminate].
    apply (IH i1); [intros y J; apply W; now right| |exact H]. exact (line_ok i0 x i1 (W x (or_introl eq_refl)) O E). }
  apply (G _ _ (split_without text)) in L; [exact L|]. split; [intros n l []|exact Logic.I].
Qed.
Lemma subtree_ok t n : tree_ok t -> kv_ok (subtree n t).
Proof.
  intros T. unfold subtree. destruct (aget n t) as [[s|l]|] eqn:E; [split; [constructor|intros ? ? []]| |split; [constructor|intros ? ? []]]. apply aget_some in E. exact (T n l E).
Qed.

(** ** Values that are read *)
Definition noquote (k : kind) (v : cval) : Prop := match k, v with KStr, VS s | KBased, VS s => without dq s | _, _ => True end.
Lemma strip_dq s : without dq (strip_quotes s).
Proof. induction s as [|c s IH]; [exact Logic.I|]. cbn [strip_quotes]. destruct (Ascii.eqb_spec c dq); [exact IH|split; assumption]. Qed.
Lemma strip_without c s : without c s -> without c (strip_quotes s).
Proof. induction s as [|a s IH]; intros H; [exact H|]. cbn [strip_quotes]. destruct (Ascii.eqb a dq); [exact (IH (proj2 H))|split; [exact (proj1 H)|exact (IH (proj2 H))]]. Qed.
Lemma unquote_without c : forall n s x r, (String.length s < n)%nat -> unquote s = Some (x, r) -> without c s -> without c x.
Proof.
  induction n as [|n IH]; intros s x r L H W; [lia|]. destruct s as [|a s]; [discriminate|]. cbn [unquote] in H. cbn [String.length] in L. destruct (Ascii.eqb a amp).
  - destruct s as [|d s]; [discriminate|]. destruct (unquote s) as [[x' r']|] eqn:U; [|discriminate]. inversion H; subst. destruct W as [_ [W1 W2]]. split; [exact W1|]. apply (IH s x' r); [cbn [String.length] in L; lia|exact U|exact W2].
  - destruct (Ascii.eqb a dq); [inversion H; exact Logic.I|]. destruct (unquote s) as [[x' r']|] eqn:U; [|discriminate]. inversion H; subst. split; [exact (proj1 W)|]. apply (IH s x' r); [lia|exact U|exact (proj2 W)].
Qed.
Lemma word_without c s x r : word s = (x, r) -> without c s -> without c x.
Proof.
  revert x r. induction s as [|a s IH]; intros x r H W; cbn [word] in H; [inversion H; exact Logic.I|]. destruct (is_space a); [inversion H; exact Logic.I|].
  destruct (word s) as [x' r'] eqn:E. inversion H; subst. split; [exact (proj1 W)|]. exact (IH x' r eq_refl (proj2 W)).
Qed.
Lemma read_path_without c s p : read_path s = Some p -> without c s -> without c p.
Proof.
  unfold read_path. intros H W. apply trim_left_without in W. destruct (trim_left s) as [|a s']; [discriminate|]. cbn zeta in H. destruct (Ascii.eqb a dq).
  - destruct (unquote s') as [[x r]|] eqn:U; [|discriminate]. destruct (blank_str r); [|discriminate]. inversion H; subst. exact (unquote_without c _ s' p r (Nat.lt_succ_diag_r _) U (proj2 W)).
  - destruct (word (String a s')) as [x r] eqn:E. destruct (blank_str r); [|discriminate]. inversion H; subst. exact (word_without c _ p r E W).
Qed.
Lemma digits_nonneg s : forall acc z, 0 <= acc -> digits s acc = Some z -> 0 <= z.
Proof.
  induction s as [|c s IH]; intros acc z A H; cbn [digits] in H; [inversion H; subst; exact A|]. destruct (digitv c) as [d|] eqn:D; [|discriminate]. apply (IH (10 * acc + d)); [|exact H].
  unfold digitv in D. cbn zeta in D. destruct (48 <=? acode c) eqn:X; [|discriminate]. apply Z.leb_le in X. cbn [andb] in D. destruct (acode c <=? 57); [|discriminate]. assert (d = acode c - 48) by congruence. lia.
Qed.
Lemma number_nonneg s z : number s = Some z -> 0 <= z.
Proof. unfold number. destruct s; [discriminate|]. apply digits_nonneg. lia. Qed.
Lemma uint_range s z : read_uint s = Some z -> 0 <= z < 2 ^ 64.
Proof.
  assert (G : forall n x, match n with Some y => if y <? two64 then Some y else None | None => None end = Some x -> (forall y, n = Some y -> 0 <= y) -> 0 <= x < 2 ^ 64).
  { intros n x H N. destruct n as [y|]; [|discriminate]. destruct (y <? two64) eqn:L; [|discriminate]. inversion H; subst. apply Z.ltb_lt in L. unfold two64 in L. specialize (N x eq_refl). lia. }
  assert (GM : forall n x, match n with Some y => if y <? two64 then Some ((- y) mod two64) else None | None => None end = Some x -> 0 <= x < 2 ^ 64).
  { intros n x H. destruct n as [y|]; [|discriminate]. destruct (y <? two64); [|discriminate]. assert (x = (- y) mod two64) by congruence. subst. change (2 ^ 64) with two64. apply Z.mod_pos_bound. reflexivity. }
  unfold read_uint. destruct s as [|c s]; [discriminate|].
  destruct c as [[] [] [] [] [] [] [] []]; cbv beta iota; intros H; first [discriminate H|exact (GM _ _ H)|apply (G _ _ H); intros y; apply number_nonneg].
Qed.
Lemma read_typed k w v : read_value k w = Some v -> without nlc w -> typed k v /\ noquote k v.
Proof.
  intros H W. destruct k; cbn [read_value] in H.
  - inversion H; subst. split; [now apply strip_without|apply strip_dq].
  - destruct (read_path w) as [p|] eqn:E; [|discriminate]. inversion H; subst. split; [exact (read_path_without nlc w p E W)|exact Logic.I].
  - inversion H; subst. split; [now apply strip_without|apply strip_dq].
  - destruct (read_int lo hi w) as [z|] eqn:E; [|discriminate]. inversion H; subst. split; [|exact Logic.I]. cbn [typed]. unfold read_int in E. cbn zeta in E.
    match type of E with match ?x with _ => _ end = _ => destruct x as [y|]; [|discriminate] end. destruct (lo <=? y) eqn:A; [|discriminate]. destruct (y <=? hi) eqn:B; [|discriminate]. cbn [andb] in E.
    assert (y = z) by congruence. subst. apply Z.leb_le in A, B. lia.
  - destruct (read_uint w) as [z|] eqn:E; [|discriminate]. inversion H; subst. split; [exact (uint_range w z E)|exact Logic.I].
  - destruct (read_bool w) as [b|]; [|discriminate]. inversion H; subst. split; exact Logic.I.
  - inversion H; subst. split; [|exact Logic.I]. cbn [typed]. destruct (mem_str (strip_quotes w) names) eqn:M; [left|right; reflexivity]. apply existsb_exists in M. destruct M as (y & A & B). apply String.eqb_eq in B. now rewrite B.
Qed.

(** ** A loaded configuration is proper *)
Definition good (c : cfg) : Prop :=
  (forall s r, In (s, r) options -> exists v, member (r_mem r) c = Some v /\ typed (r_kd r) v /\ noquote (r_kd r) v) /\
  (forall k v, aget k (c_extra c) = Some v -> plain_name k /\ without nlc v /\ without dq v /\ forall r, In r pacman_rows -> r_key r <> k).
Lemma good_proper c : good c -> proper c.
Proof. intros [A B]. split; [intros s r I; destruct (A s r I) as (v & X & Y & _); eauto|]. intros k v E. destruct (B k v E) as (X & Y & _ & Z). auto. Qed.
Lemma good_kept c : good c -> based_plain c -> all_kept c.
Proof.
  intros [A B] P. split.
  - intros s r v I E. destruct (A s r I) as (v' & X & _ & Q). rewrite E in X. inversion X; subst v'. pose proof (P s r) as PP. destruct (r_kd r); try exact Logic.I; destruct v; try exact Logic.I; cbn [kept noquote] in *; [exact Q|].
    split; [exact Q|]. exact (PP s0 I eq_refl E).
  - intros k v E. exact (proj1 (proj2 (proj2 (B k v E)))).
Qed.
Lemma good_update lg t c : tree_ok t -> good c -> good (update_tree lg t c).
Proof.
  intros T [A B]. split.
  - intros s r I. destruct (A s r I) as (v & M & TY & Q). destruct (opts_cases lg s r I) as [J|[-> J]].
    + rewrite (update_member lg t s r c J). unfold option_value. destruct (aget (r_key r) (subtree s t)) as [w|] eqn:G; [|eauto]. destruct (read_value (r_kd r) w) as [v'|] eqn:R; [|eauto].
      exists v'. split; [reflexivity|]. apply (read_typed (r_kd r) w v' R). apply aget_some in G. exact (proj2 (proj2 (subtree_ok t s T) _ _ G)).
    + exists v. split; [|auto]. rewrite J in *. rewrite update_other; [exact M|exact not_in_opts].
  - intros k v. rewrite update_opts. destruct (subtree_ok t "pacman" T) as [N K]. rewrite (copy_extra_get k _ N), copy_opts_extra. destruct (known k) eqn:KN; [apply B|].
    destruct (aget k (subtree "pacman" t)) as [w|] eqn:G; [|apply B]. intros H. inversion H; subst. apply aget_some in G. destruct (K k w G) as [P W].
    split; [exact P|]. split; [now apply strip_without|]. split; [apply strip_dq|]. intros r I E. assert (X : known k = true) by (apply known_spec; eauto). congruence.
Qed.
Lemma good_files lg l : forall c d, update_files lg l c = Ok d -> good c -> good d.
Proof.
  induction l as [|[n [text|]] l IH]; intros c d H G; cbn [update_files] in H; [inversion H; subst; exact G| |discriminate].
  destruct (read_ini text) as [t|] eqn:R; [|discriminate]. apply (IH _ _ H). apply good_update; [exact (read_ok text t R)|exact G].
Qed.
Definition goodb (c : cfg) : bool :=
  forallb (fun x => match r_kd (snd x), member (r_mem (snd x)) c with
    | KStr, Some (VS s) | KPath, Some (VS s) | KBased, Some (VS s) => nocharb nlc s && nocharb dq s
    | KInt lo hi, Some (VZ z) => (lo <=? z) && (z <=? hi)
    | KUInt, Some (VZ z) => (0 <=? z) && (z <? 2 ^ 64)
    | KBool, Some (VB _) => true
    | KEnum names other, Some (VS s) => mem_str s names || String.eqb s other
    | _, _ => false end) options.
Lemma goodb_ok c : goodb c = true -> c_extra c = [] -> good c.
Proof.
  intros H E. split; [|rewrite E; discriminate]. unfold goodb in H. rewrite forallb_forall in H. intros s r I. specialize (H (s, r) I). cbn [snd] in H.
  destruct (member (r_mem r) c) as [v|]; [|destruct (r_kd r); discriminate]. exists v. split; [reflexivity|].
  destruct (r_kd r); destruct v; try discriminate; cbn [typed noquote]; rewrite ?andb_true_iff, ?orb_true_iff in H.
  - destruct H as [X Y]. split; now apply nocharb_ok.
  - destruct H as [X Y]. split; [now apply nocharb_ok|exact Logic.I].
  - destruct H as [X Y]. split; now apply nocharb_ok.
  - destruct H as [X Y]. apply Z.leb_le in X, Y. lia.
  - destruct H as [X Y]. apply Z.leb_le in X. apply Z.ltb_lt in Y. split; [lia|exact Logic.I].
  - auto.
  - split; [|exact Logic.I]. destruct H as [H|H]; [left|right; now apply String.eqb_eq]. apply existsb_exists in H. destruct H as (y & A & B). apply String.eqb_eq in B. now subst.
Qed.
Lemma good0 : good cfg0.
Proof. apply goodb_ok; [vm_compute; reflexivity|reflexivity]. Qed.
(** Members of a type. *)
Definition kind_is_str (m : string) : bool := existsb (fun x => String.eqb m (r_mem (snd x)) && match r_kd (snd x) with KStr => true | _ => false end) options.
Lemma str_kind m s r : kind_is_str m = true -> In (s, r) options -> r_mem r = m -> r_kd r = KStr.
Proof.
  intros H I E. apply existsb_exists in H. destruct H as ([s' r'] & I' & H). cbn [snd] in H. apply andb_true_iff in H. destruct H as [A B]. apply String.eqb_eq in A.
  assert (X : (s, r) = (s', r')) by (apply option_unique; [exact I|exact I'|congruence]). inversion X; subst. destruct (r_kd r'); try discriminate. reflexivity.
Qed.
(** A configuration whose members are those of a good one, or plain strings where strings are expected. *)
Lemma good_change c d : good c -> c_extra d = c_extra c ->
  (forall s r, In (s, r) options -> member (r_mem r) d = member (r_mem r) c \/ exists v, member (r_mem r) d = Some v /\ typed (r_kd r) v /\ noquote (r_kd r) v) -> good d.
Proof.
  intros [A B] E H. split; [|rewrite E; exact B]. intros s r I. destruct (H s r I) as [Q|Q]; [|exact Q]. destruct (A s r I) as (v & X & Y). exists v. rewrite Q. auto.
Qed.
Lemma str_value m s r x : kind_is_str m = true -> In (s, r) options -> r_mem r = m -> one_line x -> typed (r_kd r) (VS x) /\ noquote (r_kd r) (VS x).
Proof. intros K I E [O1 O2]. rewrite (str_kind m s r K I E). split; [exact O1|exact O2]. Qed.
Lemma good_cmd E o c d : plain_inputs E o -> update_cmd o c = Ok d -> good c -> good d.
Proof.
  intros (_ & _ & P & PZ) U G. destruct (cmd_member o c d U) as (SF & EX & CM). apply (good_change c d G EX). intros s r I. destruct (CM (r_mem r)) as [A B].
  assert (D : (exists v, on_command_line o (r_mem r) v) \/ forall v, ~ on_command_line o (r_mem r) v).
  { unfold on_command_line, cmd_options. generalize (r_mem r) as m. intros m. induction (_ :: _) as [|[m' [v|]] l IH]; [right; intros v []| |].
    - destruct (String.eqb_spec m m') as [->|N]; [left; exists v; now left|]. destruct IH as [[w J]|J]; [left; exists w; now right|right; intros w [Q|Q]; [inversion Q; congruence|exact (J w Q)]].
    - destruct IH as [[w J]|J]; [left; exists w; now right|right; intros w [Q|Q]; [inversion Q; congruence|exact (J w Q)]]. }
  destruct D as [[v D]|D]; [|left; now apply B]. right. exists v. split; [exact (A v D)|].
  pose proof D as D'. unfold on_command_line, cmd_options in D. rewrite SF in D. cbn [In] in D.
  assert (ST : forall m x, r_mem r = m -> kind_is_str m = true -> v = VS x -> typed (r_kd r) v /\ noquote (r_kd r) v).
  { intros m x E1 E2 ->. apply (str_value m s r x E2 I E1). exact (P _ _ D'). }
  destruct D as [D|[D|[D|[D|[D|[D|[D|[]]]]]]]]; injection D as D1 D2.
  - destruct (o_loglevel o) as [z|]; [|discriminate]. injection D2 as <-. pose proof (PZ _ _ D') as R. assert (X : (s, r) = ("logger", Row "logger.loglevel" "loglevel" int32)) by (apply option_unique; [exact I|now left|symmetry; exact D1]).
    inversion X; subst. split; [exact R|exact Logic.I].
  - destruct (o_tls o) as [x|]; [|discriminate]. injection D2 as <-. apply (ST "tls.server" x); auto.
  - destruct (o_repo o) as [x|]; [|discriminate]. injection D2 as <-. apply (ST "uptane.repo_server" x); auto.
  - destruct (o_director o) as [x|]; [|discriminate]. injection D2 as <-. apply (ST "uptane.director_server" x); auto.
  - destruct (o_serial o) as [x|]; [|discriminate]. injection D2 as <-. apply (ST "provision.primary_ecu_serial" x); auto.
  - destruct (o_hwid o) as [x|]; [|discriminate]. injection D2 as <-. apply (ST "provision.primary_ecu_hardware_id" x); auto.
  - discriminate.
Qed.
