(** Properties C189 and C190: a fetched OSTree target is in the repository; the list of installed packages is the file's. *)
From Verif Require Import Base Json CodecModel OsModel.

(** ** C189 *)
(** A commit id. *)
Definition full_id (h : string) : Prop := String.length h = 64%nat.
(** Calls one after the other: fetching targets, in whatever environments. *)
Fixpoint fetches (l : list (osenv * string)) (r : commits) : commits :=
  match l with [] => r | (e, h) :: l' => fetches l' (fst (os_fetch e h r)) end.
(** The commits come from pulls or were there before. [known h]: the texts that targets may have as SHA-256. *)
Definition C189_statement (known : string -> Prop) : Prop :=
  forall before e h r, Forall full_id r -> Forall (fun x => known (snd x)) before -> known h ->
  let now := fetches before r in
  (* success: the commit is there, and stays whatever is fetched later *)
  (snd (os_fetch e h now) = Some true -> In h (fst (os_fetch e h now)) /\
     forall after, In h (fetches after (fst (os_fetch e h now)))) /\
  (* verification says good exactly if it is there, when the repository can be read *)
  (os_verify e h now = Some true -> In h now) /\
  (In h now -> o_sysroot e = true -> o_repo e = true -> o_list e = true -> os_verify e h now = Some true).

Lemma prefix_refl : forall s, String.prefix s s = true.
Proof. induction s as [|c s IH]; [reflexivity|]. cbn. destruct (ascii_dec c c); [exact IH|congruence]. Qed.
Lemma prefix_full : forall a b, String.prefix a b = true -> String.length a = String.length b -> a = b.
Proof.
  induction a as [|c a IH]; intros [|d b] H L; cbn in *; try reflexivity; try discriminate.
  destruct (ascii_dec c d) as [->|]; [|discriminate]. f_equal. apply IH; [exact H|lia].
Qed.
Lemma match_in e h r : full_id h -> Forall full_id r -> some_match (list_starting e h r) = true -> In h r.
Proof.
  intros F Fr. unfold list_starting. destruct (o_list e); [|discriminate]. cbn. destruct (filter (String.prefix h) r) as [|x l] eqn:Q; [discriminate|]. intros _.
  assert (I1 : In x (filter (String.prefix h) r)) by (rewrite Q; left; reflexivity). apply filter_In in I1. destruct I1 as (I1 & P).
  rewrite (prefix_full h x P); [exact I1|]. rewrite Forall_forall in Fr. rewrite (Fr x I1). exact F.
Qed.
Lemma in_match e h r : In h r -> o_list e = true -> some_match (list_starting e h r) = true.
Proof.
  intros I1 L. unfold list_starting. rewrite L. cbn. destruct (filter (String.prefix h) r) as [|x l] eqn:Q; [|reflexivity].
  assert (I2 : In h (filter (String.prefix h) r)) by (apply filter_In; split; [exact I1|apply prefix_refl]). rewrite Q in I2. destruct I2.
Qed.
Lemma fetch_grows e h r x : In x r -> In x (fst (os_fetch e h r)).
Proof.
  intros I1. unfold os_fetch, os_pull. destruct (o_sysroot e), (o_repo e); cbn [negb fst]; try exact I1.
  destruct (some_match _); [exact I1|]. destruct (o_remote e); cbn [negb fst]; [|exact I1]. destruct (o_pull e h); [apply in_or_app; left|]; exact I1.
Qed.
Lemma fetches_grow : forall l r x, In x r -> In x (fetches l r).
Proof. induction l as [|(e, h) l IH]; intros r x I1; [exact I1|]. cbn [fetches]. apply IH, fetch_grows, I1. Qed.
Lemma fetch_full e h r : full_id h -> Forall full_id r -> Forall full_id (fst (os_fetch e h r)).
Proof.
  intros F Fr. unfold os_fetch, os_pull. destruct (o_sysroot e), (o_repo e); cbn [negb fst]; try exact Fr.
  destruct (some_match _); [exact Fr|]. destruct (o_remote e); cbn [negb fst]; [|exact Fr]. destruct (o_pull e h); [|exact Fr].
  apply Forall_app. split; [exact Fr|constructor; [exact F|constructor]].
Qed.
Lemma fetches_full : forall l r, Forall (fun x => full_id (snd x)) l -> Forall full_id r -> Forall full_id (fetches l r).
Proof.
  induction l as [|(e, h) l IH]; intros r Fl Fr; [exact Fr|]. inversion Fl as [|a b F1 F2]; subst. cbn [fetches]. apply IH; [exact F2|]. apply fetch_full; assumption.
Qed.
Theorem C189_partial : C189_statement full_id.
Proof.
  intros before e h r Fr Fb Fh now. assert (Fn : Forall full_id now) by (apply fetches_full; assumption). clearbody now. clear Fb Fr.
  assert (G : snd (os_fetch e h now) = Some true -> In h (fst (os_fetch e h now))).
  { unfold os_fetch, os_pull. destruct (o_sysroot e), (o_repo e); cbn [negb fst snd]; try discriminate.
    destruct (some_match (list_starting e h now)) eqn:M; cbn [fst snd]; [intros _; exact (match_in e h now Fh Fn M)|].
    destruct (o_remote e); cbn [negb fst snd]; [|discriminate]. destruct (o_pull e h); cbn [fst snd]; [intros _; apply in_or_app; right; left; reflexivity|discriminate]. }
  split; [intros H; split; [exact (G H)|intros after; apply fetches_grow, (G H)]|]. unfold os_verify. split.
  - destruct (o_sysroot e), (o_repo e); cbn [negb]; try discriminate. intros H. apply (match_in e h now Fh Fn). injection H as H. exact H.
  - intros I1 -> -> L. cbn [negb]. rewrite (in_match e h now I1 L). reflexivity.
Qed.
Print Assumptions C189_partial.
(** A commit that is there is not pulled again: no network is needed. *)
Theorem C189_no_network e h r : In h r -> o_sysroot e = true -> o_repo e = true -> o_list e = true -> os_fetch e h r = (r, Some true).
Proof. intros I1 A B C. unfold os_fetch, os_pull. rewrite A, B. cbn [negb]. rewrite (in_match e h r I1 C). reflexivity. Qed.
Print Assumptions C189_no_network.
(** Fetching works again after failures: as soon as everything works once. *)
Theorem C189_retry e h r before : o_sysroot e = true -> o_repo e = true -> o_remote e = true -> o_pull e h = true ->
  snd (os_fetch e h (fetches before r)) = Some true.
Proof.
  intros A B C D. unfold os_fetch, os_pull. rewrite A, B. cbn [negb]. destruct (some_match _); [reflexivity|]. rewrite C, D. reflexivity.
Qed.
Print Assumptions C189_retry.
(** False for other texts: a target without SHA-256 (it may have a SHA-512 only) is "already pulled" as soon as there is any commit. *)
Theorem C189_refuted : ~ C189_statement (fun _ => True).
Proof.
  set (c := "0123456789abcdef0123456789abcdef0123456789abcdef0123456789abcdef").
  intros H. destruct (H [] {| o_sysroot := true; o_repo := true; o_list := true; o_remote := true; o_pull := fun _ => false |} "" [c]
                        (Forall_cons c eq_refl (Forall_nil _)) (Forall_nil _) I) as (A & _).
  destruct (A eq_refl) as ([Q|[]] & _). discriminate Q.
Qed.
Print Assumptions C189_refuted.
Example C189_example : let c := "0123456789abcdef0123456789abcdef0123456789abcdef0123456789abcdef" in
  let d := "ffff456789abcdef0123456789abcdef0123456789abcdef0123456789abcdef" in
  let e := {| o_sysroot := true; o_repo := true; o_list := true; o_remote := true; o_pull := fun _ => true |} in
  full_id c /\ full_id d /\ os_fetch e d [c] = ([c; d], Some true) /\ os_verify e d [c; d] = Some true /\ os_verify e d [c] = Some false.
Proof. repeat split; reflexivity. Qed.

(** ** C190 *)
(** The lines of a file: texts without line feed, each followed by one except perhaps the last. *)
Definition lf : ascii := ascii_of_nat 10.
Fixpoint lacks (c : ascii) (s : string) : Prop := match s with EmptyString => True | String x s' => x <> c /\ lacks c s' end.
Fixpoint file_of (lines : list string) : string :=
  match lines with [] => "" | [x] => x | x :: l => append x (String lf (file_of l)) end.
(** What a line says: nothing, or a package. *)
Definition line_of (p : option (string * string)) : string := match p with None => "" | Some (n, v) => append n (String " " v) end.
Definition good_entry (p : option (string * string)) : Prop := match p with None => True | Some (n, v) => lacks " " n /\ lacks lf n /\ lacks lf v end.
Fixpoint entries (l : list (option (string * string))) : list (string * string) :=
  match l with [] => [] | None :: l' => entries l' | Some p :: l' => p :: entries l' end.
(** The packages that are reported are those of the file, in order, whatever empty lines there are; and a line that is not empty and has no space
    makes the whole call fail. *)
Definition C190_statement : Prop :=
  (forall l, Forall good_entry l -> installed_packages (file_of (map line_of l)) = Ok (entries l)) /\
  (forall lines x, Forall (lacks lf) lines -> In x lines -> x <> "" -> lacks " " x -> installed_packages (file_of lines) = Throw EStd) /\
  (forall text ps, installed_packages text = Ok ps -> exists l, Forall good_entry l /\ text = file_of (map line_of l) /\ ps = entries l).

Lemma split_file : forall lines, Forall (lacks lf) lines -> lines <> [] -> split_all lf (file_of lines) = lines.
Proof.
  assert (P : forall x, lacks lf x -> split_all lf x = [x]).
  { induction x as [|c x IH]; intros H; [reflexivity|]. destruct H as (N & H). cbn [split_all]. destruct (Ascii.eqb_spec c lf); [contradiction|]. rewrite (IH H). reflexivity. }
  assert (A : forall x t, lacks lf x -> split_all lf (append x (String lf t)) = x :: split_all lf t).
  { induction x as [|c x IH]; intros t H; cbn [append split_all]; [rewrite Ascii.eqb_refl; reflexivity|]. destruct H as (N & H). destruct (Ascii.eqb_spec c lf); [contradiction|].
    rewrite (IH t H). reflexivity. }
  induction lines as [|x l IH]; intros F N; [congruence|]. inversion F as [|a b F1 F2]; subst. destruct l as [|y l]; [exact (P x F1)|].
  change (file_of (x :: y :: l)) with (append x (String lf (file_of (y :: l)))). rewrite (A x _ F1), IH by (try exact F2; discriminate). reflexivity.
Qed.
Lemma file_split : forall s, file_of (split_all lf s) = s /\ Forall (lacks lf) (split_all lf s) /\ split_all lf s <> [].
Proof.
  induction s as [|c s (E & F & N)]; [split; [reflexivity|split; [repeat constructor|discriminate]]|]. cbn [split_all].
  destruct (Ascii.eqb_spec c lf) as [->|Nc].
  - destruct (split_all lf s) as [|x l] eqn:Q; [congruence|]. split; [|split; [constructor; [exact I|exact F]|discriminate]].
    change (file_of (EmptyString :: x :: l)) with (String lf (file_of (x :: l))). rewrite E. reflexivity.
  - destruct (split_all lf s) as [|x l] eqn:Q; [congruence|]. inversion F as [|a b F1 F2]; subst. split; [|split; [constructor; [split; assumption|exact F2]|discriminate]].
    destruct l as [|y l]; reflexivity.
Qed.
Lemma cut_space_some n v : lacks " " n -> cut_space (append n (String " " v)) = Some (n, v).
Proof.
  induction n as [|c n IH]; intros H; [reflexivity|]. destruct H as (N & H). cbn [append cut_space]. destruct (Ascii.eqb_spec c " "); [contradiction|]. rewrite (IH H). reflexivity.
Qed.
Lemma cut_space_none s : lacks " " s -> cut_space s = None.
Proof.
  induction s as [|c s IH]; intros H; [reflexivity|]. destruct H as (N & H). cbn [cut_space]. destruct (Ascii.eqb_spec c " "); [contradiction|]. rewrite (IH H). reflexivity.
Qed.
Lemma cut_space_inv : forall s n v, cut_space s = Some (n, v) -> s = append n (String " " v) /\ lacks " " n.
Proof.
  induction s as [|c s IH]; intros n v H; [discriminate|]. cbn [cut_space] in H. destruct (Ascii.eqb_spec c " ") as [->|N].
  - injection H as <- <-. split; [reflexivity|exact I].
  - destruct (cut_space s) as [(n', v')|]; [|discriminate]. injection H as <- <-. destruct (IH n' v' eq_refl) as (-> & L). split; [reflexivity|split; assumption].
Qed.
Lemma lacks_app c : forall a b, lacks c (append a b) <-> lacks c a /\ lacks c b.
Proof. induction a as [|x a IH]; intros b; cbn [append lacks]; [tauto|]. rewrite IH. tauto. Qed.
Lemma line_lacks p : good_entry p -> lacks lf (line_of p).
Proof. destruct p as [(n, v)|]; [|intros _; exact I]. intros (_ & A & B). cbn [line_of]. apply lacks_app. split; [exact A|]. split; [discriminate|exact B]. Qed.
Lemma lines_ok : forall l, Forall good_entry l -> package_lines (map line_of l) = Ok (entries l).
Proof.
  induction l as [|p l IH]; intros F; [reflexivity|]. inversion F as [|a b F1 F2]; subst. cbn [map package_lines entries].
  destruct p as [(n, v)|]; cbn [line_of]; [|exact (IH F2)]. destruct F1 as (A & _ & _).
  pose proof (cut_space_some n v A) as C. destruct (append n (String " " v)) as [|c s]; [discriminate C|]. rewrite C, (IH F2). reflexivity.
Qed.
Lemma lines_inv : forall lines ps, Forall (lacks lf) lines -> package_lines lines = Ok ps ->
  exists l, Forall good_entry l /\ lines = map line_of l /\ ps = entries l.
Proof.
  induction lines as [|x l IH]; intros ps F H; [exists []; injection H as <-; split; [constructor|split; reflexivity]|].
  inversion F as [|a b F1 F2]; subst. cbn [package_lines] in H. destruct x as [|c x].
  - destruct (IH ps F2 H) as (l0 & G & -> & ->). exists (None :: l0). split; [constructor; [exact I|exact G]|split; reflexivity].
  - destruct (cut_space (String c x)) as [(n, v)|] eqn:C; [|discriminate]. destruct (package_lines l) as [ps'|] eqn:Q; [|discriminate]. injection H as <-.
    destruct (IH ps' F2 eq_refl) as (l0 & G & -> & ->). destruct (cut_space_inv _ n v C) as (E & L). rewrite E in F1. apply lacks_app in F1. destruct F1 as (A & _ & B).
    exists (Some (n, v) :: l0). split; [constructor; [split; [exact L|split; assumption]|exact G]|]. split; [cbn [map line_of]; rewrite E; reflexivity|reflexivity].
Qed.
Theorem C190 : C190_statement.
Proof.
  split; [|split].
  - intros l F. unfold installed_packages. fold lf. destruct l as [|p l]; [reflexivity|]. rewrite split_file; [exact (lines_ok _ F)| |discriminate].
    apply Forall_forall. intros x I1. apply in_map_iff in I1. destruct I1 as (q & <- & I1). rewrite Forall_forall in F. exact (line_lacks q (F q I1)).
  - intros lines x F I1 N L. unfold installed_packages. fold lf. rewrite split_file; [|exact F|intros Q; rewrite Q in I1; destruct I1]. clear F.
    induction lines as [|y l IH]; [destruct I1|]. cbn [package_lines]. destruct I1 as [->|I1].
    + rewrite (cut_space_none x L). destruct x; [congruence|reflexivity].
    + specialize (IH I1). destruct y as [|c y]; [exact IH|]. destruct (cut_space (String c y)) as [p|]; [|reflexivity]. rewrite IH. reflexivity.
  - intros text ps H. unfold installed_packages in H. fold lf in H. destruct (file_split text) as (E & F & _). rewrite <- E. clear E. revert ps H.
    intros ps H. destruct (lines_inv _ ps F H) as (l & G & E & P). exists l. rewrite E. split; [exact G|split; [reflexivity|exact P]].
Qed.
Print Assumptions C190.
Example C190_example : installed_packages (append "vim 1.0" (String lf (String lf "libc6 2.31-0 amd64"))) = Ok [("vim", "1.0"); ("libc6", "2.31-0 amd64")] /\
  installed_packages (append "vim 1.0" (String lf "broken")) = Throw EStd /\ installed_packages "" = Ok [].
Proof. repeat split; reflexivity. Qed.
