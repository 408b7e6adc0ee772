(** C111-C117: garage-push, garage-deploy, garage-check. *)
From Verif Require Import Base Json TufModel PushModel PushSpec PushProofs8 PropsPush DeployModel DeploySpec DeployProofs DeployProofs2.

(** Concrete cases: the commit 0 with the tree 1 and the file 2, and the text of its hash. *)
Definition hex0 : string := "00112233445566778899aabbccddeeff00112233445566778899aabbccddeeff".
Definition hex0_up : string := "00112233445566778899AABBCCDDEEFF00112233445566778899AABBCCDDEEFF".
Definition args0 (dry walk : bool) : push_args :=
  {| pa_ref := "main"; pa_dry := dry; pa_walk := walk; pa_jobs := 30; pa_cacert_ok := true; pa_manifest := true |}.
Definition env0 (l : list round) (ref_ans man_ans : option Z) : push_env :=
  {| pe_valid := true; pe_refs := fun n => if String.eqb n "main" then Some (append hex0 (String "010" "")) else None; pe_repo := chain; pe_oid := fun _ => 0%nat;
     pe_cred := CredOk; pe_auth := Some true; pe_rounds := l; pe_ref_ans := ref_ans; pe_xml := Some "{}"; pe_man_ans := man_ans |}.
(** A server that has nothing of it, and is only asked. *)
Definition nothing_there : list round := [(1, [(0%nat, 404, true, 2)]); (3, [(1%nat, 404, true, 4)]); (5, [(2%nat, 404, true, 6)]); (7, []); (9, []); (11, [])].

(** C111: a dry run changes nothing on any server and runs no command. *)
Definition C111_statement : Prop :=
  (forall A E evs out, pa_dry A = true -> garage_push A E = (evs, out) -> forall e, In e evs -> ~ changes e) /\
  (forall A E evs out, da_dry A = true -> garage_deploy A E = (evs, out) -> forall e, In e evs -> ~ changes e).
(** With --walk-tree as well, the ref is pushed and the manifest sent. *)
Lemma dry_walk : garage_push (args0 true true) (env0 nothing_there (Some 200) (Some 200)) =
  (map EObj [THead 0%nat; THeadAns 0%nat 404 true; THead 1%nat; THeadAns 1%nat 404 true; THead 2%nat; THeadAns 2%nat 404 true] ++
   [ERef "main" hex0; ERefAns (Some 200); EManifest hex0 "{}"; EManAns (Some 200)], Exit true).
Proof. vm_compute. reflexivity. Qed.
Theorem C111_refuted : ~ C111_statement.
Proof. intros [H _]. apply (H (args0 true true) (env0 nothing_there (Some 200) (Some 200)) _ _ eq_refl dry_walk (ERef "main" hex0)); [vm_compute; tauto|exact Logic.I]. Qed.
(** What holds: garage-push without --walk-tree, and garage-deploy; with --walk-tree at least no object is uploaded. *)
Theorem C111_push_partial : forall A E evs out, pa_dry A = true -> pa_walk A = false -> garage_push A E = (evs, out) -> forall e, In e evs -> ~ changes e.
Proof. intros A E evs out D W H. exact (proj2 (push_dry A E evs out D H) W). Qed.
Theorem C111_walk_partial : forall A E evs out, pa_dry A = true -> garage_push A E = (evs, out) -> forall o, ~ In (EObj (TPost o)) evs.
Proof. intros A E evs out D H. exact (proj1 (push_dry A E evs out D H)). Qed.
Theorem C111_deploy : forall A E evs out, da_dry A = true -> garage_deploy A E = (evs, out) -> forall e, In e evs -> ~ changes e.
Proof.
  intros A E evs out D H. apply deploy_split in H. destruct H as [[-> _]|(h & m & _ & M & _ & H)]; [intros e []|]. rewrite D in M. subst m. cbn zeta in H.
  destruct H as [[-> _]|(N & _)]; [|congruence]. intros e. apply up_dry. now left.
Qed.
Example C111_case : garage_push (args0 true false) (env0 nothing_there None None) =
  (map EObj [THead 0%nat; THeadAns 0%nat 404 true; THead 1%nat; THeadAns 1%nat 404 true; THead 2%nat; THeadAns 2%nat 404 true], Exit true).
Proof. vm_compute. reflexivity. Qed.

(** C112: a ref is pushed only when the server has reported all that the commit it points to needs; it is the ref that was asked for, and its content is that of the source repository. *)
Definition ref_after_commit (A : push_args) (E : push_env) (evs : list ev) : Prop :=
  forall name c, In (ERef name c) evs ->
    exists l1 l2 file h, evs = l1 ++ ERef name c :: l2 /\ objects l2 = [] /\ (forall n d, ~ In (ERef n d) (l1 ++ l2)) /\
      name = pa_ref A /\ pe_refs E name = Some file /\ (forall s w, file = append s w -> every hex_digit s -> every blank w -> c = s) /\
      parse_hash c = Some h /\ have (pe_repo E) (pe_oid E h) = true /\ commit_reported (pe_repo E) (pe_oid E h) l1.
Definition C112_statement : Prop := forall A E evs out, garage_push A E = (evs, out) -> ref_after_commit A E evs.
Theorem C112_refuted : ~ C112_statement.
Proof.
  intros H. destruct (H (args0 true true) (env0 nothing_there (Some 200) (Some 200)) _ _ dry_walk "main" hex0 ltac:(vm_compute; tauto)) as (l1 & l2 & file & h & E & _ & U & _ & _ & _ & _ & _ & R).
  specialize (R 0%nat (need_root _ _ _)).
  assert (K : forall t, In t (objects l1) -> In (EObj t) (l1 ++ ERef "main" hex0 :: l2)).
  { intros t I. apply in_flat_map in I. destruct I as (e & I & J). destruct e; try contradiction J. destruct J as [<-|[]]. apply in_or_app. now left. }
  rewrite <- E in K. destruct R as [R|[R|R]]; apply K in R; vm_compute in R; intuition discriminate.
Qed.
Theorem C112_partial : forall A E evs out, pa_dry A = false -> garage_push A E = (evs, out) -> ref_after_commit A E evs.
Proof.
  intros A E evs out D H name c I. destruct (push_ref A E evs out name c D H I) as (l1 & l2 & file & h & X1 & X2 & X3 & X4 & X5 & X6 & X7 & X8 & X9).
  exists l1, l2, file, h. split; [exact X1|]. split; [exact X2|]. split; [exact X3|]. split; [exact X4|]. split; [exact X5|]. split; [|auto].
  intros s w -> B C. rewrite X6. now apply ref_of_file.
Qed.
(** A real push. *)
Lemma real_push : garage_push (args0 false false) (env0 good_rounds (Some 200) (Some 500)) =
  (map EObj (trace (fst (push_run chain MDefault 30 0%nat good_rounds))) ++ [ERef "main" hex0; ERefAns (Some 200); EManifest hex0 "{}"; EManAns (Some 500)], Exit true).
Proof. vm_compute. reflexivity. Qed.
Example C112_case : exists l1 l2, fst (garage_push (args0 false false) (env0 good_rounds (Some 200) (Some 500))) = l1 ++ ERef "main" hex0 :: l2 /\
  In (EObj (TPostAns 0%nat 204 true)) l1 /\ In (EObj (TPost 2%nat)) l1.
Proof.
  rewrite real_push. exists (map EObj (trace (fst (push_run chain MDefault 30 0%nat good_rounds)))), [ERefAns (Some 200); EManifest hex0 "{}"; EManAns (Some 500)].
  split; [reflexivity|]. vm_compute. tauto.
Qed.

(** C113: when garage-push reports success, everything it was asked for is on the server: the commit, the ref and the manifest. *)
Definition accepted (code : Z) : Prop := 200 <= code < 300.
Definition C113_statement : Prop := forall A E evs, pa_dry A = false -> garage_push A E = (evs, Exit true) ->
  exists h, commit_reported (pe_repo E) (pe_oid E h) evs /\ have (pe_repo E) (pe_oid E h) = true /\
    match pe_refs E (pa_ref A) with
    | Some file => exists c code, parse_hash c = Some h /\ In (ERef (pa_ref A) c) evs /\ In (ERefAns (Some code)) evs /\ accepted code
    | None => parse_hash (pa_ref A) = Some h
    end /\
    (pa_manifest A = true -> exists body code, In (EManifest (show_hash h) body) evs /\ In (EManAns (Some code)) evs /\ accepted code).
(** An answer 500 to the manifest is not even looked at. *)
Theorem C113_refuted : ~ C113_statement.
Proof.
  intros H. destruct (H (args0 false false) (env0 good_rounds (Some 200) (Some 500)) _ eq_refl real_push) as (h & _ & _ & _ & M). destruct (M eq_refl) as (body & code & _ & I & A).
  unfold accepted in A. vm_compute in I. repeat (destruct I as [I|I]; [try discriminate I; injection I as <-; lia|]). destruct I.
Qed.
(** And a ref that was only redirected counts as pushed. *)
Theorem C113_redirect_refuted : exists A E evs, pa_dry A = false /\ garage_push A E = (evs, Exit true) /\ In (ERef (pa_ref A) hex0) evs /\ forall code, In (ERefAns (Some code)) evs -> ~ accepted code.
Proof.
  exists (args0 false false), (env0 good_rounds (Some 302) None). eexists. split; [reflexivity|]. split; [vm_compute; reflexivity|]. split; [vm_compute; tauto|].
  unfold accepted. intros code I. vm_compute in I. repeat (destruct I as [I|I]; [try discriminate I; injection I as <-; lia|]). destruct I.
Qed.
Theorem C113_partial : forall A E evs, pa_dry A = false -> garage_push A E = (evs, Exit true) ->
  exists h, commit_reported (pe_repo E) (pe_oid E h) evs /\ have (pe_repo E) (pe_oid E h) = true /\
    match pe_refs E (pa_ref A) with
    | Some file => exists c code, parse_hash c = Some h /\ In (ERef (pa_ref A) c) evs /\ In (ERefAns (Some code)) evs /\ 200 <= code < 400
    | None => parse_hash (pa_ref A) = Some h
    end.
Proof.
  intros A E evs D H. destruct (push_success A E evs D H) as (h & _ & C & V & R). exists h. split; [exact C|]. split; [exact V|].
  destruct (pe_refs E (pa_ref A)) as [file|]; [|exact R]. destruct R as (R1 & R2 & code & R3 & R4). exists (ref_content file), code. auto.
Qed.
(** A push from a complete repository to a server that does its part ends in success, and the ref is then on the server. *)
Theorem C113_works : forall A E U name hex w h, pa_dry A = false -> pa_walk A = false -> pa_cacert_ok A = true -> 1 <= pa_jobs A -> pe_valid E = true ->
  pe_cred E = CredOk -> pe_auth E = Some true -> pa_ref A = name -> hex64 hex -> every blank w -> pe_refs E name = Some (append hex w) -> parse_hash hex = Some h ->
  complete (pe_repo E) (pe_oid E h) U -> well_behaved (trace (fst (push_run (pe_repo E) MDefault (pa_jobs A) (pe_oid E h) (pe_rounds E)))) ->
  (push (pe_repo E) MDefault (pa_jobs A) (pe_oid E h) (pe_rounds E) = None ->
     List.length (pe_rounds E) <= answers (trace (fst (push_run (pe_repo E) MDefault (pa_jobs A) (pe_oid E h) (pe_rounds E)))))%nat ->
  (2 * List.length U < List.length (pe_rounds E))%nat -> (exists code, pe_ref_ans E = Some code /\ 200 <= code < 300) ->
  exists evs, garage_push A E = (evs, Exit true) /\ In (ERef name hex) evs.
Proof. exact push_works. Qed.
(** A case of its hypotheses. *)
Example C113_case : hex64 hex0 /\ (exists h, parse_hash hex0 = Some h) /\ complete chain 0%nat [0%nat; 1%nat; 2%nat] /\
  well_behaved (trace (fst (push_run chain MDefault 30 0%nat (good_rounds ++ [(13, [])])))) /\ push chain MDefault 30 0%nat (good_rounds ++ [(13, [])]) = Some true.
Proof.
  split; [split; [reflexivity|cbn [every hex0]; unfold hex_digit; vm_compute; intuition discriminate]|].
  split; [eexists; vm_compute; reflexivity|]. split; [|split; [|reflexivity]].
  - split; [reflexivity|]. split; [left; auto|]. intros [|[|[|o]]] c I K; cbn in K; try contradiction; destruct K as [<-|[]]; split; cbn; auto.
  - split; intros o c u X; vm_compute in X; repeat destruct X as [X|X]; try discriminate X; try contradiction X; inversion X; auto.
Qed.
(** A ref file that holds no hash ends the program by an exception that is not caught. *)
Example C113_crash : exists E, garage_push (args0 false false) E = ([], Crash) /\ pe_refs E "main" = Some "" /\ pe_valid E = true.
Proof. exists {| pe_valid := true; pe_refs := fun _ => Some ""; pe_repo := chain; pe_oid := fun _ => 0%nat; pe_cred := CredOk; pe_auth := Some true; pe_rounds := []; pe_ref_ans := None; pe_xml := None; pe_man_ans := None |}. vm_compute. auto. Qed.

(** C114: when garage-check reports success, the commit is on the server and named by valid Targets metadata (with --walk-tree another object is enough); with --walk-tree every object of it is there. *)
Definition C114_statement : Prop := forall E auth ref walk jobs, garage_check E auth ref walk jobs = Exit true ->
  (deployed E ref \/ (walk = true /\ exists h, parse_hash ref = Some h /\ have (ce_repo E) (ce_oid E h) = true)) /\
  (walk = true -> exists h, parse_hash ref = Some h /\ forall o, reachable (ce_repo E) (ce_oid E h) o -> have (ce_repo E) o = true).
Definition good_targets (hex : string) : json :=
  JObj [("signed", JObj [("expires", JStr "2038-01-01T00:00:00Z"); ("targets", JObj [("img-1", JObj [("hashes", JObj [("sha256", JStr hex)])])])])].
Definition chk0 (R : repo) (l : list round) : chk_env :=
  {| ce_head := fun p => if String.eqb p (commit_file hex0) then Some 200 else Some 404; ce_repo := R; ce_oid := fun _ => 0%nat; ce_rounds := l;
     ce_targets := Some (200, good_targets hex0); ce_now := "2026-11-15T16:00:00Z" |}.
(** The tree is not on the server, and that is only written to the log. *)
Lemma check_broken : garage_check (chk0 broken [(1, [(0%nat, 200, true, 2)])]) (Some true) hex0 true 30 = Exit true.
Proof. vm_compute. reflexivity. Qed.
Theorem C114_refuted : ~ C114_statement.
Proof.
  intros H. destruct (H (chk0 broken [(1, [(0%nat, 200, true, 2)])]) (Some true) hex0 true 30 check_broken) as [_ W]. destruct (W eq_refl) as (h & _ & K).
  assert (X : have broken 1%nat = true) by (apply K; eapply rch_kid; [apply rch_root|left; reflexivity]). discriminate X.
Qed.
Theorem C114_partial : forall E auth ref walk jobs, garage_check E auth ref walk jobs = Exit true ->
  (deployed E ref \/ (walk = true /\ exists h, parse_hash ref = Some h /\ have (ce_repo E) (ce_oid E h) = true)) /\
  (walk = true -> exists h s, parse_hash ref = Some h /\ push_run (ce_repo E) MWalkTree jobs (ce_oid E h) (ce_rounds E) = (s, true) /\
     (stopped s = true \/ forall o, reachable (ce_repo E) (ce_oid E h) o ->
        have (ce_repo E) o = true /\ (In (THeadAns o 200 true) (trace s) \/ In (THeadAns o 404 true) (trace s)))).
Proof.
  intros E auth ref walk jobs H. unfold garage_check in H. destruct (jobs <? 1); [discriminate|]. destruct auth as [[|]|]; try discriminate.
  destruct (check_ref E ref walk jobs) as [|b|] eqn:C; try discriminate. injection H as ->. destruct (check_spec E ref walk jobs C) as [A B]. split.
  - destruct A as [A|[A _]]; [now left|right]. split; [exact A|]. destruct (B A) as (h & P & V & _). eauto.
  - intros W. destruct (B W) as (h & P & V & S0). destruct (push_run (ce_repo E) MWalkTree jobs (ce_oid E h) (ce_rounds E)) as [s b] eqn:R. cbn [snd] in S0. subst b.
    exists h, s. split; [exact P|]. split; [exact R|]. destruct (stopped s) eqn:St; [now left|right].
    intros o RC. destruct (walked _ _ _ _ _ _ (or_introl eq_refl) R St o RC) as [[-> |X] Y]; split; auto.
Qed.
(** It never ends by an exception. *)
Theorem C114_no_crash : forall E auth ref walk jobs, garage_check E auth ref walk jobs <> Crash.
Proof.
  intros E auth ref walk jobs. unfold garage_check. destruct (jobs <? 1); [discriminate|]. destruct auth as [[|]|]; try discriminate.
  destruct (check_ref E ref walk jobs); discriminate.
Qed.
Definition all_there : list round := [(1, [(0%nat, 200, true, 2)]); (3, [(1%nat, 200, true, 4)]); (5, [(2%nat, 200, true, 6)])].
Example C114_case : garage_check (chk0 chain all_there) (Some true) hex0 true 30 = Exit true /\ stopped (fst (push_run chain MWalkTree 30 0%nat all_there)) = false /\
  garage_check (chk0 chain []) (Some true) hex0 false 30 = Exit true /\ garage_check (chk0 chain []) (Some true) hex0_up false 30 = Exit false.
Proof. vm_compute. auto. Qed.

(** C115: garage-deploy.  Success means: all that the commit needs is on the target server, the signing commands were run after that, in order, and without
    errors, and in the end the server has the commit and names it. *)
Theorem C115_success : forall A E evs, da_dry A = false -> garage_deploy A E = (evs, Exit true) ->
  exists h up, parse_hash (da_commit A) = Some h /\ commit_reported (de_repo E) (de_oid E h) up /\ have (de_repo E) (de_oid E h) = true /\
    evs = up ++ map ESys (sign_cmds (da_cred_path A) (da_name A) h (da_hwids A)) /\
    (forall c, In (ESys c) evs -> de_sys E c = 0) /\ deployed (de_chk E) (da_commit A).
Proof.
  intros A E evs D H. apply deploy_split in H. destruct H as [[_ X]|(h & m & P & M & J & H)]; [congruence|]. rewrite D in M. subst m. cbn zeta in H.
  destruct H as [[_ [X|X]]|(_ & PU & cs & ok & R & -> & K)]; [congruence|congruence|]. destruct (K eq_refl) as [-> C]. apply run_cmds_ok in R. destruct R as [-> Z0].
  exists h, (upload_events (de_repo E) MDefault (da_jobs A) (de_oid E h) (de_rounds E)). split; [exact P|].
  split; [apply push_reported; auto|]. split; [unfold push in PU; destruct (have (de_repo E) (de_oid E h)); [reflexivity|discriminate]|]. split; [reflexivity|].
  split.
  - intros c I. apply in_app_or in I. destruct I as [I|I]; [apply up_obj in I; destruct I as (t & X & _); discriminate X|].
    apply in_map_iff in I. destruct I as (d & X & I). injection X as ->. now apply Z0.
  - destruct (check_spec _ _ _ _ C) as [[X|[X _]] _]; [exact X|discriminate X].
Qed.
(** Whatever happens: nothing is signed before the server has reported the whole commit. *)
Theorem C115_order : forall A E evs out l1 c l2, garage_deploy A E = (evs, out) -> evs = l1 ++ ESys c :: l2 ->
  exists h, parse_hash (da_commit A) = Some h /\ commit_reported (de_repo E) (de_oid E h) l1 /\ objects l2 = [].
Proof.
  intros A E evs out l1 c l2 H Ev. apply deploy_split in H. destruct H as [[X _]|(h & m & P & M & J & H)]; [rewrite X in Ev; destruct l1; discriminate Ev|]. cbn zeta in H.
  set (up := upload_events (de_repo E) m (da_jobs A) (de_oid E h) (de_rounds E)) in *.
  assert (UP : forall d, ~ In (ESys d) up) by (intros d I; apply up_obj in I; destruct I as (t & X & _); discriminate X).
  destruct H as [[X _]|(D & PU & cs & ok & R & X & _)]; [exfalso; apply (UP c); rewrite <- X, Ev; apply in_or_app; right; now left|].
  rewrite D in M. assert (CR : commit_reported (de_repo E) (de_oid E h) up) by (subst m; apply push_reported; auto).
  assert (CS : forall e, In e cs -> exists d, e = ESys d) by (intros e I; destruct (run_cmds_in _ _ _ _ _ R I) as (d & -> & _); eauto).
  assert (OC : forall l, (forall e, In e l -> exists d, e = ESys d) -> objects l = []).
  { intros l. induction l as [|e l IH]; intros K; [reflexivity|]. destruct (K e (or_introl eq_refl)) as [d ->]. cbn [objects flat_map app]. apply IH. intros x I. apply K. now right. }
  rewrite X in Ev. exists h. split; [exact P|].
  assert (SP : exists k1, l1 = up ++ k1 /\ cs = k1 ++ ESys c :: l2).
  { clear - Ev UP. revert l1 Ev. induction up as [|u up IH]; intros l1 Ev; [exists l1; auto|]. destruct l1 as [|x l1].
    - exfalso. cbn in Ev. injection Ev as -> _. apply (UP c). now left.
    - cbn in Ev. injection Ev as <- Ev. destruct (IH (fun d I => UP d (or_intror I)) l1 Ev) as (k1 & -> & K). exists k1. auto. }
  destruct SP as (k1 & -> & ->). split.
  - unfold commit_reported. rewrite objects_app, (OC k1), List.app_nil_r; [exact CR|]. intros e I. apply CS. apply in_or_app. now left.
  - apply OC. intros e I. apply CS. apply in_or_app. right. now right.
Qed.
(** The other direction: with a commit that is valid for the program, a complete upload, working commands and a server that shows what was published, the run succeeds. *)
Definition shows (E : chk_env) (h : ohash) : Prop :=
  ce_head E (commit_file (show_hash h)) = Some 200 /\ ce_targets E = Some (200, good_targets (show_hash h)) /\ ce_now E <> "" /\ str_ltb "2038-01-01T00:00:00Z" (ce_now E) = false.
Definition deployable (A : deploy_args) (E : deploy_env) (h : ohash) : Prop :=
  da_dry A = false /\ 1 <= da_jobs A /\ de_fetch_auth E = Some true /\ de_push_auth E = Some true /\ parse_hash (da_commit A) = Some h /\
  push (de_repo E) MDefault (da_jobs A) (de_oid E h) (de_rounds E) = Some true /\ de_can_sign E = true /\ (forall c, de_sys E c = 0) /\ shows (de_chk E) h.
Definition C115_statement : Prop := forall A E h, deployable A E h -> exists evs, garage_deploy A E = (evs, Exit true).
Definition dargs (commit name : string) : deploy_args :=
  {| da_commit := commit; da_name := name; da_hwids := "hw1,hw2"; da_cred_path := "/c.zip"; da_dry := false; da_jobs := 30 |}.
Definition denv : deploy_env :=
  {| de_fetch_auth := Some true; de_push_auth := Some true; de_repo := chain; de_oid := fun _ => 0%nat; de_rounds := good_rounds;
     de_can_sign := true; de_sys := fun _ => 0; de_chk := chk0 chain [] |}.
Lemma upper_deployable : exists h, deployable (dargs hex0_up "img") denv h.
Proof.
  eexists. unfold deployable, shows. split; [reflexivity|]. split; [discriminate|]. split; [reflexivity|]. split; [reflexivity|]. split; [vm_compute; reflexivity|].
  split; [vm_compute; reflexivity|]. split; [reflexivity|]. split; [reflexivity|]. split; [vm_compute; reflexivity|]. split; [vm_compute; reflexivity|].
  split; [discriminate|vm_compute; reflexivity].
Qed.
(** The hash in capital letters is uploaded and signed, but then looked for as it was typed. *)
Theorem C115_refuted : ~ C115_statement.
Proof.
  intros H. destruct upper_deployable as [h D]. destruct (H _ _ h D) as [evs X]. clear D. apply (f_equal snd) in X. vm_compute in X. discriminate X.
Qed.
Theorem C115_works_partial : forall A E h, deployable A E h -> da_commit A = show_hash h -> exists evs, garage_deploy A E = (evs, Exit true).
Proof.
  intros A E h (D & J & FA & PA & P & PU & CS & SY & S1 & S2 & S3 & S4) C. unfold garage_deploy.
  replace (da_jobs A <? 1) with false by (symmetry; apply Z.ltb_ge; lia). rewrite FA, PA, P, D. cbn zeta. rewrite PU. cbn [is_dry]. rewrite CS. cbn [negb].
  assert (R : forall l, run_cmds (de_sys E) l = (map ESys l, true)).
  { induction l as [|c l IH]; [reflexivity|]. cbn [run_cmds map]. rewrite SY. cbn [Z.eqb]. now rewrite IH. }
  rewrite R. cbn [negb]. pose proof (parse_hash_ok _ _ P) as [H32 _]. destruct (show_hex64 h H32) as [L _].
  assert (CK : check_ref (de_chk E) (da_commit A) false (da_jobs A) = CDone true).
  { rewrite C. unfold check_ref. replace (Nat.ltb (String.length (show_hash h)) 2) with false by (rewrite L; reflexivity). rewrite path_file by lia. rewrite S1.
    cbn [Z.eqb Pos.eqb andb negb]. unfold targets_check. rewrite S2. unfold good_targets.
    cbn [Z.eqb Pos.eqb negb jget aget String.eqb Ascii.eqb Bool.eqb bind jas_string timestamp_of_string].
    change (timestamp_of_string "2038-01-01T00:00:00Z") with (@Ok string "2038-01-01T00:00:00Z"). cbn [bind].
    unfold ts_expired_at, ts_valid, ts_lt, ts_valid. change (String.eqb "2038-01-01T00:00:00Z" "") with false. cbn [negb].
    rewrite (proj2 (String.eqb_neq (ce_now (de_chk E)) "") S3). cbn [negb andb]. rewrite S4.
    cbn [jiter lists_ref jget aget String.eqb Ascii.eqb Bool.eqb bind jas_string]. now rewrite String.eqb_refl. }
  rewrite CK. eauto.
Qed.
Example C115_case : snd (garage_deploy (dargs hex0 "img") denv) = Exit true /\ List.length (fst (garage_deploy (dargs hex0 "img") denv)) = 17%nat /\
  snd (garage_deploy (dargs hex0_up "img") denv) = Exit false.
Proof. vm_compute. auto. Qed.

(** C116: the arguments reach the signing tool as given: each command that is run is, for a shell, one of the five with exactly these words. *)
Definition C116_statement : Prop := forall A E evs out c, garage_deploy A E = (evs, out) -> In (ESys c) evs ->
  exists h ws, parse_hash (da_commit A) = Some h /\ shell c = Some ws /\ In ws (sign_words (da_cred_path A) (da_name A) (show_hash h) (da_hwids A)).
Definition danger : string := "img;reboot".
Definition two_words : string := "my image".
Lemma sys_in A E h cs : parse_hash (da_commit A) = Some h -> In (ESys cs) (fst (garage_deploy A E)) -> In cs (sign_cmds (da_cred_path A) (da_name A) h (da_hwids A)).
Proof.
  intros P I. destruct (garage_deploy A E) as [evs out] eqn:G. cbn [fst] in I. apply deploy_split in G.
  destruct G as [[-> _]|(h' & m & P' & M & J & H)]; [destruct I|]. rewrite P in P'. injection P' as <-. cbn zeta in H.
  destruct H as [[-> _]|(_ & _ & l & ok & R & -> & _)]; [apply up_obj in I; destruct I as (t & X & _); discriminate X|].
  apply in_app_or in I. destruct I as [I|I]; [apply up_obj in I; destruct I as (t & X & _); discriminate X|].
  destruct (run_cmds_in _ _ _ _ _ R I) as (d & X & K). injection X as ->. exact K.
Qed.
Theorem C116_refuted : ~ C116_statement.
Proof.
  intros H. destruct (garage_deploy (dargs hex0 danger) denv) as [evs out] eqn:G.
  assert (I : In (ESys (cat ["garage-sign targets add --repo aktualizr --format OSTREE --length 0 --name img;reboot --version "; hex0; " --sha256 "; hex0; " --hardwareids hw1,hw2"])) evs).
  { pose proof (f_equal fst G) as X. cbn [fst] in X. rewrite <- X. vm_compute. tauto. }
  destruct (H _ _ _ _ _ G I) as (h & ws & _ & S0 & _). vm_compute in S0. discriminate S0.
Qed.
(** A name with a space becomes two words. *)
Theorem C116_space_refuted : exists c ws, In (ESys c) (fst (garage_deploy (dargs hex0 two_words) denv)) /\ shell c = Some ws /\ In "--name" ws /\ ~ In two_words ws /\ In "image" ws.
Proof.
  eexists (cat ["garage-sign targets add --repo aktualizr --format OSTREE --length 0 --name my image --version "; hex0; " --sha256 "; hex0; " --hardwareids hw1,hw2"]), _.
  split; [vm_compute; tauto|]. split; [vm_compute; reflexivity|]. split; [vm_compute; tauto|]. split; [|vm_compute; tauto].
  vm_compute. intuition discriminate.
Qed.
Theorem C116_partial : forall A E evs out c, all_chars plain (da_cred_path A) = true -> da_cred_path A <> "" ->
  all_chars plain (da_name A) = true -> da_name A <> "" -> all_chars plain (da_hwids A) = true -> da_hwids A <> "" ->
  garage_deploy A E = (evs, out) -> In (ESys c) evs ->
  exists h ws, parse_hash (da_commit A) = Some h /\ shell c = Some ws /\ In ws (sign_words (da_cred_path A) (da_name A) (show_hash h) (da_hwids A)).
Proof.
  intros A E evs out c C1 C2 N1 N2 W1 W2 G I.
  assert (P : exists h, parse_hash (da_commit A) = Some h).
  { pose proof G as G'. apply deploy_split in G'. destruct G' as [[-> _]|(h & m & P & _)]; [destruct I|eauto]. }
  destruct P as [h P]. pose proof (parse_hash_ok _ _ P) as [H32 _].
  assert (K : In c (sign_cmds (da_cred_path A) (da_name A) h (da_hwids A))) by (apply (sys_in A E h c P); rewrite G; exact I).
  pose proof (sign_shell _ _ h _ H32 C1 C2 N1 N2 W1 W2) as SS. apply (in_map shell) in K. rewrite SS in K. apply in_map_iff in K. destruct K as (ws & X & K).
  exists h, ws. auto.
Qed.
Example C116_case : all_chars plain "img-1.2_x" = true /\ exists c, In (ESys c) (fst (garage_deploy (dargs hex0 "img-1.2_x") denv)) /\
  shell c = Some ["garage-sign"; "targets"; "add"; "--repo"; "aktualizr"; "--format"; "OSTREE"; "--length"; "0"; "--name"; "img-1.2_x"; "--version"; hex0; "--sha256"; hex0; "--hardwareids"; "hw1,hw2"].
Proof.
  split; [reflexivity|]. exists (cat ["garage-sign targets add --repo aktualizr --format OSTREE --length 0 --name img-1.2_x --version "; hex0; " --sha256 "; hex0; " --hardwareids hw1,hw2"]).
  split; [vm_compute; tauto|vm_compute; reflexivity].
Qed.

(** C117: hashes.  What is shown can be read back; every text of 64 hexadecimal digits is read, and shown in small letters; white space at the end does not matter;
    nothing else is read. *)
Theorem C117_round_trip : forall h, hash32 h -> hex64 (show_hash h) /\ parse_hash (show_hash h) = Some h.
Proof. intros h H. split; [now apply show_hex64|now apply parse_show]. Qed.
Theorem C117_reads : forall s w, hex64 s -> every blank w -> exists h, hash32 h /\ parse_hash (append s w) = Some h /\ show_hash h = to_lower s.
Proof.
  intros s w H B. destruct (parse_hex s H) as (h & P & S0). exists h. split; [exact (proj1 (parse_hash_ok s h P))|]. split; [|exact S0]. now rewrite parse_trailing.
Qed.
Theorem C117_distinct : forall h h', hash32 h -> hash32 h' -> show_hash h = show_hash h' -> h = h'.
Proof. intros h h' H H' E. pose proof (parse_show h H) as A. rewrite E, (parse_show h' H') in A. congruence. Qed.
Definition C117_statement : Prop := forall s h, parse_hash s = Some h -> exists t w, s = append t w /\ hex64 t /\ every blank w.
(** A minus sign before a digit, for one, is read as well: "-1" is the byte 255. *)
Definition signed_hash : string := "-1112233445566778899aabbccddeeff00112233445566778899aabbccddeeff".
Lemma signed_read : exists h, parse_hash signed_hash = Some (255 :: h).
Proof. eexists. vm_compute. reflexivity. Qed.
Theorem C117_refuted : ~ C117_statement.
Proof.
  intros H. destruct signed_read as [h P]. destruct (H _ _ P) as (t & w & E & [L A] & _). destruct t as [|c t]; [discriminate L|].
  destruct A as [A _]. cbn [append] in E. injection E as <- _. unfold hex_digit in A. vm_compute in A. intuition congruence.
Qed.
(** So two texts of 64 characters that differ in more than the case of letters can mean the same commit. *)
Theorem C117_same_refuted : exists s t h, s <> t /\ to_lower s <> to_lower t /\ String.length s = 64%nat /\ String.length t = 64%nat /\ parse_hash s = Some h /\ parse_hash t = Some h.
Proof.
  exists signed_hash, "ff112233445566778899aabbccddeeff00112233445566778899aabbccddeeff". eexists.
  split; [discriminate|]. split; [vm_compute; discriminate|]. split; [reflexivity|]. split; [reflexivity|]. split; vm_compute; reflexivity.
Qed.
Theorem C117_partial : forall s h, parse_hash s = Some h -> hash32 h /\ exists t w, s = append t w /\ String.length t = 64%nat /\ every blank w.
Proof.
  intros s h P. destruct (parse_hash_ok s h P) as [H L]. split; [exact H|].
  assert (T : exists w, s = append (trim_right s) w /\ every blank w).
  { clear. induction s as [|c s IH]; [exists ""; split; [reflexivity|exact Logic.I]|]. destruct IH as (w & E & B). cbn [trim_right].
    destruct (String.eqb_spec (trim_right s) "") as [Z0|Z0]; cbn [andb].
    - destruct (is_space c) eqn:Sp.
      + exists (String c s). split; [reflexivity|]. split; [now apply is_space_blank|]. rewrite Z0 in E. cbn [append] in E. now rewrite E.
      + exists w. split; [cbn [append]; now rewrite <- E|exact B].
    - exists w. split; [cbn [append]; now rewrite <- E|exact B]. }
  destruct T as (w & E & B). exists (trim_right s), w. auto.
Qed.
Example C117_case : hex64 hex0_up /\ exists h, parse_hash (append hex0_up (String "010" "")) = Some h /\ show_hash h = hex0.
Proof.
  split; [split; [reflexivity|cbn [every hex0_up]; unfold hex_digit; vm_compute; intuition discriminate]|]. eexists. split; vm_compute; reflexivity.
Qed.

(** C118: the address of a request is the address of the server and the path with exactly one slash in between, however the address was written. *)
Definition C118_statement : Prop := forall b w s, b <> "" -> s <> "" -> no_trim b -> every (fun c => is_trim c = true) w -> inject (set_url (append b w)) s = Url (joined b s).
(** A line feed at the end of the address stays in the middle of it. *)
Theorem C118_refuted : ~ C118_statement.
Proof.
  intros H. specialize (H "https://x" (String "010" "") "objects/a" ltac:(discriminate) ltac:(discriminate)).
  assert (X : inject (set_url (append "https://x" (String "010" ""))) "objects/a" = Url (joined "https://x" "objects/a")).
  { apply H; [unfold no_trim; cbn [every]; vm_compute; auto 20|cbn [every]; split; [reflexivity|exact Logic.I]]. }
  vm_compute in X. discriminate X.
Qed.
(** An empty address is undefined behaviour. *)
Theorem C118_empty_refuted : forall s, inject (set_url "") s = UrlUB.
Proof. reflexivity. Qed.
Theorem C118_partial : forall b s, b <> "" -> s <> "" -> no_trim b -> inject (set_url b) s = Url (joined b s).
Proof. exact inject_ok. Qed.
(** White space after the address, as from a file, does no harm to paths that begin with a slash. *)
Theorem C118_blank_partial : forall b w s, b <> "" -> no_trim b -> last_is slash b = false -> every (fun c => is_trim c = true) w -> first_is slash s = true ->
  inject (set_url (append b w)) s = Url (joined b s).
Proof.
  intros b w s B T L W F. rewrite (inject_blank b w s B T L W F). unfold joined, no_end_slash. rewrite L. destruct s as [|c s]; [discriminate F|].
  cbn [first_is] in F. cbn [no_first_slash]. rewrite F. apply Ascii.eqb_eq in F. now subst c.
Qed.
Example C118_case : inject (set_url "https://x/api") "objects/a" = Url "https://x/api/objects/a" /\ inject (set_url "https://x/api/") "/api/v1" = Url "https://x/api/api/v1" /\
  inject (set_url (append "https://x" (String "010" ""))) "/api/v1/user_repo/targets.json" = Url "https://x/api/v1/user_repo/targets.json".
Proof. vm_compute. auto. Qed.

Print Assumptions C111_refuted.
Print Assumptions C111_push_partial.
Print Assumptions C111_walk_partial.
Print Assumptions C111_deploy.
Print Assumptions C112_refuted.
Print Assumptions C112_partial.
Print Assumptions C113_refuted.
Print Assumptions C113_redirect_refuted.
Print Assumptions C113_partial.
Print Assumptions C113_works.
Print Assumptions C114_refuted.
Print Assumptions C114_partial.
Print Assumptions C114_no_crash.
Print Assumptions C115_success.
Print Assumptions C115_order.
Print Assumptions C115_refuted.
Print Assumptions C115_works_partial.
Print Assumptions C116_refuted.
Print Assumptions C116_space_refuted.
Print Assumptions C116_partial.
Print Assumptions C117_round_trip.
Print Assumptions C117_reads.
Print Assumptions C117_distinct.
Print Assumptions C117_refuted.
Print Assumptions C117_same_refuted.
Print Assumptions C117_partial.
Print Assumptions C118_refuted.
Print Assumptions C118_empty_refuted.
Print Assumptions C118_partial.
Print Assumptions C118_blank_partial.
