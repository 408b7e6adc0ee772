(** Property C80: the recheck that precedes downloading and installing confirms what the update check found. *)
From Verif Require Import Base Json TufModel TufSpec TufProofs TufProofs2 MetaStore RepoModel RepoSpec RepoProofs4 Toy
  ClientModel ClientSpec ClientProofs ClientProofs2 RechkSpec RechkProofs RechkProofs2 RechkProofs3 PropsClient.

(** A state that update checks can lead to, from an empty database, with any servers, clocks and vehicles. *)
Inductive checked (E : Env) (fnm : string -> string -> bool) : ust -> Prop :=
| ck_start s : u_db s = db_empty -> checked E fnm s
| ck_step srv clkd clki now v s s' r : checked E fnm s -> check_updates E fnm srv clkd clki now v s = (s', r) -> checked E fnm s'.

(** Updates were reported; nothing has happened since, the clocks included. Then the recheck confirms them. *)
Definition C80_statement : Prop :=
  forall E fnm srv clkd clki now v s s' l n,
    checked E fnm s -> check_updates E fnm srv clkd clki now v s = (s', Ok (UcUpdates l n)) -> v_pending v = false ->
    snd (check_updates_offline E fnm srv clkd clki now v l s') = Ok OcAvailable.
(** The Director replaces its Targets by an empty list: the targets of the stored document, expired meanwhile, are kept and reported,
    but the recheck verifies the expiry of the stored document. *)
Definition srv_first : server := serve [(1, "R1")] [("targets", "D5x"); ("timestamp", "TS5"); ("snapshot", "SN5")].
Definition srv_second : server := fun rp rn v => match rp with
  | Director => serve [(1, "R1")] [("targets", "D6e")] rp rn v
  | Image => serve [(1, "R1")] [("timestamp", "TS5"); ("snapshot", "SN5"); ("targets", "TG5")] rp rn v end.
Definition st_first := fst (check_updates W eqfnm srv_first clk2000 clk2000 now1 vehicle1 (mem0 db_empty)).
Lemma recheck_fails (E : Env) fnm srv clkd clki now v s :
  match check_updates E fnm srv clkd clki now v s with
  | (s', Ok (UcUpdates l n)) => match snd (check_updates_offline E fnm srv clkd clki now v l s') with Ok OcAvailable => False | _ => True end
  | _ => False end -> checked E fnm s -> v_pending v = false -> ~ C80_statement.
Proof.
  intros H C P S. destruct (check_updates E fnm srv clkd clki now v s) as (s', [[| |l n]|]) eqn:R; try contradiction.
  specialize (S _ _ _ _ _ _ _ _ _ _ _ C R P). rewrite S in H. exact H.
Qed.
Theorem C80_refuted : ~ C80_statement.
Proof.
  apply (recheck_fails W eqfnm srv_second now2020 now2020 now1 vehicle1 st_first); [vm_compute; exact Logic.I| |reflexivity].
  apply (ck_step _ _ srv_first clk2000 clk2000 now1 vehicle1 (mem0 db_empty) _ (snd (check_updates W eqfnm srv_first clk2000 clk2000 now1 vehicle1 (mem0 db_empty)))); [now apply ck_start|].
  unfold st_first. destruct (check_updates W eqfnm srv_first clk2000 clk2000 now1 vehicle1 (mem0 db_empty)); reflexivity.
Qed.
Print Assumptions C80_refuted.

(** Proved: the recheck confirms all that was reported, from every state, if the served documents declare versions, no served document
    contradicts the stored one of the same version, the Roots are stored under numbers that do not exceed the versions they declare, the
    newest Targets of the Director are not empty and no reported target lists two values for one type of hash.  The recheck changes
    nothing that is stored. *)
Theorem C80_partial E fnm srv srv2 clkd clki now v s s' l n :
  check_updates E fnm srv clkd clki now v s = (s', Ok (UcUpdates l n)) -> v_pending v = false ->
  clean_server srv -> versioned_server E srv ->
  roots_numbered E srv Director (u_db s) -> roots_numbered E srv Image (u_db s) ->
  no_equivocation E srv Director "targets" RTargets (u_db s) -> no_equivocation E srv Image "timestamp" RTimestamp (u_db s) ->
  director_lists_targets E srv -> Forall hashes_agree l ->
  exists s2, check_updates_offline E fnm srv2 clkd clki now v l s' = (s2, Ok OcAvailable) /\ u_db s2 = u_db s'.
Proof. exact (recheck_confirms E fnm srv srv2 clkd clki now v s s' l n). Qed.
Print Assumptions C80_partial.

(** All hypotheses hold of the second check against a server whose target is listed by a delegation; the recheck is made without a server. *)
Definition srv80 := serve2 [("targets", "DIR")] img_dev.
Definition st80 := fst (check_updates DW eqfnm srv80 now2020 now2020 now1 vehicle1 (mem0 db_empty)).
Lemma serve2_in dir img rp rn v raw : serve2 dir img rp rn v = Ok raw -> (rn = "root" /\ v = 1 /\ raw = "R1") \/ (rn <> "root" /\ In (rn, raw) (match rp with Director => dir | Image => img end)).
Proof.
  unfold serve2. destruct (String.eqb_spec rn "root") as [->|N]; [destruct (Z.eqb_spec v 1); [|discriminate]; intros H; injection H as <-; auto|].
  set (docs := match rp with Director => dir | Image => img end). intros H. right. split; [exact N|]. induction docs as [|(k, d) docs IH]; cbn [aget] in H; [discriminate|].
  destruct (String.eqb_spec rn k) as [->|K]; [injection H as <-; now left|right; auto].
Qed.
Lemma srv80_in rp rn v raw : srv80 rp rn v = Ok raw -> (rn = "root" /\ v = 1 /\ raw = "R1") \/ (rn <> "root" /\ In raw ["DIR"; "TS"; "SN"; "TG"; "DEV"]).
Proof.
  intros H. apply serve2_in in H. destruct H as [H | (N & H)]; [now left|right; split; [exact N|]].
  destruct rp; apply (in_map snd) in H; cbn in H; cbn; tauto.
Qed.
Lemma clean80 : clean_server srv80.
Proof.
  intros rp rn v raw H. apply srv80_in in H. destruct H as [(_ & _ & ->) | (_ & H)]; [split; [discriminate|reflexivity]|].
  cbn in H. destruct H as [<-|[<-|[<-|[<-|[<-|[]]]]]]; (split; [discriminate|reflexivity]).
Qed.
Lemma versioned80 : versioned_server DW srv80.
Proof.
  intros rp rn raw H. apply srv80_in in H. destruct H as [(_ & H & _) | (_ & H)]; [discriminate|].
  cbn in H. destruct H as [<-|[<-|[<-|[<-|[<-|[]]]]]]; [exists 5|exists 5|exists 5|exists 5|exists 3]; (split; [vm_compute; reflexivity|lia]).
Qed.
Definition row_numbered (E : Env) (w : row) : bool :=
  match blob_to_string (w_data w) with Ok raw => match root_of_json E (parse E raw) with Ok R => w_ver w <=? rt_version R | _ => true end | _ => true end.
Lemma numbered_rows E srv rp d : forallb (row_numbered E) (filter (fun w => rkind_eqb (w_type w) RRoot) (d_meta d)) = true ->
  (forall raw R, srv rp "root" 1 = Ok raw -> root_of_json E (parse E raw) = Ok R -> 1 <= rt_version R) -> roots_numbered E srv rp d.
Proof.
  intros H N. split; [|exact N]. intros w raw R Hw _ HT HB J. rewrite forallb_forall in H. specialize (H w). unfold row_numbered in H. rewrite HB, J in H.
  apply Z.leb_le. apply H. apply filter_In. split; [exact Hw|]. rewrite HT. reflexivity.
Qed.
Lemma first80 rp raw R : srv80 rp "root" 1 = Ok raw -> root_of_json DW (parse DW raw) = Ok R -> 1 <= rt_version R.
Proof.
  intros H. apply srv80_in in H. destruct H as [(_ & _ & ->) | (H & _)]; [|contradiction].
  assert (X : match root_of_json DW (parse DW "R1") with Ok R => 1 <=? rt_version R | _ => false end = true) by (vm_compute; reflexivity).
  intros J. rewrite J in X. now apply Z.leb_le.
Qed.
Lemma numbered80 rp : roots_numbered DW srv80 rp (u_db st80).
Proof. apply numbered_rows; [vm_compute; reflexivity|apply first80]. Qed.
Lemma same_document E srv rp rn ty d x : load_nonroot rp ty d = Ok (Some x) -> srv rp rn (-1) = Ok x -> no_equivocation E srv rp rn ty d.
Proof. intros A B raw sraw C D _. congruence. Qed.
Lemma lists80 : director_lists_targets DW srv80.
Proof.
  intros raw t H (D1 & D2). apply serve2_in in H. destruct H as [(H & _) | (_ & [H|[]])]; [discriminate|]. injection H as <-.
  assert (X : match base_init (parse DW "DIR") with Ok b => match targets_init DW b "targets" (parse DW "DIR") with Ok t => negb (nilb (tg_targets t)) | _ => false end | _ => false end = true) by (vm_compute; reflexivity).
  rewrite D1, D2 in X. destruct (tg_targets t); discriminate.
Qed.
Lemma reports_one (E : Env) fnm srv clkd clki now v s : match check_updates E fnm srv clkd clki now v s with
    | (s', Ok (UcUpdates [t] n)) => n = 1 /\ t_filename t = "app" /\ List.length (t_hashes t) = 1%nat | _ => False end ->
  exists s' l, check_updates E fnm srv clkd clki now v s = (s', Ok (UcUpdates l 1)) /\ map t_filename l = ["app"] /\ Forall hashes_agree l.
Proof.
  intros X. destruct (check_updates E fnm srv clkd clki now v s) as (s', [[| |[|t [|? ?]] n]|]); try contradiction.
  destruct X as (-> & A & B). exists s', [t]. split; [reflexivity|]. split; [cbn; now rewrite A|]. constructor; [|constructor].
  destruct (t_hashes t) as [|h [|? ?]] eqn:Q; try discriminate. intros h1 h2. rewrite Q. intros [<-|[]] [<-|[]] _; reflexivity.
Qed.
Example C80_case :
  (exists s' l, check_updates DW eqfnm srv80 now2020 now2020 now1 vehicle1 st80 = (s', Ok (UcUpdates l 1)) /\ map t_filename l = ["app"] /\ Forall hashes_agree l) /\
  v_pending vehicle1 = false /\ clean_server srv80 /\ versioned_server DW srv80 /\
  roots_numbered DW srv80 Director (u_db st80) /\ roots_numbered DW srv80 Image (u_db st80) /\
  no_equivocation DW srv80 Director "targets" RTargets (u_db st80) /\ no_equivocation DW srv80 Image "timestamp" RTimestamp (u_db st80) /\
  director_lists_targets DW srv80.
Proof.
  split; [apply reports_one; vm_compute; auto|]. split; [reflexivity|]. split; [exact clean80|]. split; [exact versioned80|].
  split; [apply numbered80|]. split; [apply numbered80|].
  split; [apply same_document with (x := "DIR"); vm_compute; reflexivity|]. split; [apply same_document with (x := "TS"); vm_compute; reflexivity|exact lists80].
Qed.
