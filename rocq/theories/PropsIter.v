(** Enumerating all targets of the Image repository (C87, C88). *)
From Verif Require Import Base Json TufModel TufSpec TufProofs TufProofs2 MetaStore RepoModel RepoSpec RepoProofs4 Toy
  ClientModel ClientSpec ClientProofs ClientProofs2 PropsClient IterModel IterSpec IterProofs IterProofs2.

(** ** A small world *)
Definition file_t (name : string) : list (string * json) := [(name, target_j 7 "aa" (hw_custom "hw1"))].
Definition iworld : list (string * json) := [
  ("R1", root_j "r1" 1 far 1 k1 k1);
  (* "targets" lists "a" and delegates to "dev" (lists "b", delegates to "sub", which lists "c") and "ops" (lists "app") *)
  ("TS", timestamp_j "ts" 5 far 5 "SN" k1);
  ("SN", doc_j "sn" "Snapshot" 5 far [("meta", JObj [meta_j "targets" 5 "TG"; meta_j "dev" 3 "DEV"; meta_j "sub" 2 "SUB"; meta_j "ops" 4 "OPS"])] k1);
  ("TG", dtargets_j "tg" 5 far (file_t "a") [drole_j "dev" "b" false; drole_j "ops" "app" false] k1);
  ("DEV", dtargets_j "dev" 3 far (file_t "b") [drole_j "sub" "c" false] k1);
  ("SUB", dtargets_j "sub" 2 far (file_t "c") [] k1);
  ("OPS", dtargets_j "ops" 4 far app_t [] k1);
  (* the same, but "dev" is terminating and delegates no further *)
  ("TSt", timestamp_j "tst" 5 far 5 "SNT" k1);
  ("SNt", doc_j "snt" "Snapshot" 5 far [("meta", JObj [meta_j "targets" 5 "TGT"; meta_j "dev" 3 "DEVT"; meta_j "ops" 4 "OPS"])] k1);
  ("TGt", dtargets_j "tgt" 5 far (file_t "a") [drole_j "dev" "b" true; drole_j "ops" "app" false] k1);
  ("DEVt", dtargets_j "devt" 3 far (file_t "b") [] k1);
  (* "dev" lists "app", but may only vouch for "b" *)
  ("TSp", timestamp_j "tsp" 5 far 5 "SNP" k1);
  ("SNp", doc_j "snp" "Snapshot" 5 far [("meta", JObj [meta_j "targets" 5 "TGP"; meta_j "dev" 3 "DEVP"])] k1);
  ("TGp", dtargets_j "tgp" 5 far (file_t "a") [drole_j "dev" "b" false] k1);
  ("DEVp", dtargets_j "devp" 3 far app_t [] k1)].
Definition IW : Env := toy iworld.
Definition isrv (img : list (string * string)) : server := serve2 [] img.
Definition img_tree : list (string * string) :=
  [("timestamp", "TS"); ("snapshot", "SN"); ("targets", "TG"); ("delegations/dev", "DEV"); ("delegations/sub", "SUB"); ("delegations/ops", "OPS")].
Definition img_t : list (string * string) :=
  [("timestamp", "TSt"); ("snapshot", "SNt"); ("targets", "TGt"); ("delegations/dev", "DEVt"); ("delegations/ops", "OPS")].
Definition img_p : list (string * string) := [("timestamp", "TSp"); ("snapshot", "SNp"); ("targets", "TGp"); ("delegations/dev", "DEVp")].
Definition ist (img : list (string * string)) : ust := fst (image_update IW (isrv img) now2020 (mem0 db_empty)).
Definition names_of (r : res walked) : option (list string) := match r with Ok (Finished l) => Some (map t_filename l) | _ => None end.

(** ** C87: the enumeration leaves out no target *)
(** A tree of delegations whose terminating roles delegate no further. *)
Inductive term_leaves : dtree -> Prop :=
| tl_node t kids : (forall name d, In (name, d) kids -> (aget name (tg_term t) = Some true -> d_kids d = []) /\ term_leaves d) ->
    term_leaves (Node t kids).
Definition C87_statement : Prop :=
  forall E srv docs root s,
    authentic_tree E (u_isnap s) docs root -> no_empty_role root -> term_leaves root -> depth_at_most 5 root ->
    serves_docs srv docs root -> stored_docs docs root (u_db s) -> u_itargets s = Some (d_targets root) ->
    exists fuel s', all_targets E srv fuel s = (s', Ok (Finished (preorder root))).

Definition role_of (parent : targets) (name doc : string) : targets :=
  match targets_of_json_signed IW (unpack_signed IW (tg_ks parent)) {| r_kind := RDelegation; r_name := name |} (parse IW doc) with
  | Ok t => t | Throw _ => u_dtargets (mem0 db_empty) end.
Definition top_of (img : list (string * string)) : targets := match u_itargets (ist img) with Some t => t | None => u_dtargets (mem0 db_empty) end.
Definition docs_t (name : string) : string := if String.eqb name "dev" then "DEVt" else "OPS".
Definition tree_t : dtree := Node (top_of img_t) [("dev", Node (role_of (top_of img_t) "dev" "DEVt") []); ("ops", Node (role_of (top_of img_t) "ops" "OPS") [])].

(** Checking the conditions of [authentic_tree] by computation. *)
Lemma edge_check E sn parent name doc child (Q : Prop) :
  is_reserved (to_lower name) = false -> (match aget name (tg_term parent) with Some _ => true | None => false end) = true ->
  (negb (String.eqb doc "") && String.eqb (cut_nul doc) doc)%bool = true ->
  (match verify_role_hashes E sn doc name with Ok _ => true | Throw _ => false end) = true ->
  targets_of_json_signed E (unpack_signed E (tg_ks parent)) {| r_kind := RDelegation; r_name := name |} (parse E doc) = Ok child ->
  extract_version_untrusted E doc = Ok (role_version sn name) -> tg_version child = role_version sn name -> Q ->
  is_reserved (to_lower name) = false /\ (exists b, aget name (tg_term parent) = Some b) /\ nul_free doc /\
  (forall h, In h (role_hashes sn name) -> digest_matches E doc h) /\
  acceptable E (tg_ks parent) {| r_kind := RDelegation; r_name := name |} (parse E doc) /\
  targets_doc E name (parse E doc) child /\
  extract_version_untrusted E doc = Ok (role_version sn name) /\ tg_version child = role_version sn name /\ Q.
Proof.
  intros A B C D F G H K. apply targets_signed_ok in F; [|now right]. destruct F as (F1 & F2). split; auto.
  split. { destruct (aget name (tg_term parent)); [eauto|discriminate]. }
  split. { apply andb_prop in C. destruct C as (C1 & C2). split; [|now apply String.eqb_eq]. intros ->. discriminate. }
  split; [|auto]. unfold verify_role_hashes in D. destruct (check_hashes _ _ _ _) eqn:L; [|discriminate].
  apply RepoProofs5.check_hashes_spec in L. apply L.
Qed.
Ltac check_edge := apply edge_check; [vm_compute; reflexivity..|].
Lemma tree_t_authentic : authentic_tree IW (u_isnap (ist img_t)) docs_t tree_t.
Proof.
  constructor; [vm_compute; reflexivity|]. intros name d [Hx | [Hx | []]]; injection Hx as <- <-; cbn [d_targets];
  (check_edge; constructor; [vm_compute; reflexivity|intros ? ? []]).
Qed.
Lemma not_listed f : names_of (snd (all_targets IW (isrv img_t) f (ist img_t))) <> Some ["a"; "b"; "app"].
Proof. destruct f as [|[|[|f]]]; vm_compute; discriminate. Qed.
(** The iteration ends after the first terminating role: "ops" is left out. *)
Theorem C87_refuted : ~ C87_statement.
Proof.
  intros H. destruct (H IW (isrv img_t) docs_t tree_t (ist img_t)) as (fuel & s' & Hr).
  - exact tree_t_authentic.
  - constructor; [vm_compute; discriminate|]. intros name d [Hx | [Hx | []]]; injection Hx as <- <-;
      (constructor; [vm_compute; discriminate|intros ? ? []]).
  - constructor. intros name d [Hx | [Hx | []]]; injection Hx as <- <-; (split; [reflexivity|constructor; intros ? ? []]).
  - constructor. intros name d [Hx | [Hx | []]]; injection Hx as <- <-; (exists 4%nat; split; [reflexivity|constructor; intros ? ? []]).
  - intros name [<- | [<- | []]]; vm_compute; reflexivity.
  - intros name _. left. vm_compute. reflexivity.
  - vm_compute. reflexivity.
  - apply (not_listed fuel). rewrite Hr. vm_compute. reflexivity.
Qed.
Print Assumptions C87_refuted.
(** It holds when no delegation is terminating and there are at most four of them in a row; the roles come in the order of the
    delegations, each before those it delegates to. *)
Theorem C87_complete_partial E srv docs root s :
  authentic_tree E (u_isnap s) docs root -> no_empty_role root -> no_terminating root -> depth_at_most 4 root ->
  serves_docs srv docs root -> stored_docs docs root (u_db s) -> u_itargets s = Some (d_targets root) ->
  exists fuel s', all_targets E srv fuel s = (s', Ok (Finished (preorder root))).
Proof.
  intros A B C D F G H. apply (all_targets_complete E srv (u_isnap s) docs root A B C F s D). split; auto.
Qed.
Print Assumptions C87_complete_partial.
Definition docs_n (name : string) : string := if String.eqb name "dev" then "DEV" else if String.eqb name "sub" then "SUB" else "OPS".
Definition tree_n : dtree := Node (top_of img_tree)
  [("dev", Node (role_of (top_of img_tree) "dev" "DEV") [("sub", Node (role_of (role_of (top_of img_tree) "dev" "DEV") "sub" "SUB") [])]);
   ("ops", Node (role_of (top_of img_tree) "ops" "OPS") [])].
Example C87_case :
  authentic_tree IW (u_isnap (ist img_tree)) docs_n tree_n /\ no_empty_role tree_n /\ no_terminating tree_n /\ depth_at_most 4 tree_n /\
  serves_docs (isrv img_tree) docs_n tree_n /\ stored_docs docs_n tree_n (u_db (ist img_tree)) /\
  u_itargets (ist img_tree) = Some (d_targets tree_n) /\
  names_of (snd (all_targets IW (isrv img_tree) 4 (ist img_tree))) = Some ["a"; "b"; "c"; "app"].
Proof.
  split.
  { constructor; [vm_compute; reflexivity|]. intros name d [Hx | [Hx | []]]; injection Hx as <- <-; cbn [d_targets]; check_edge.
    - constructor; [vm_compute; reflexivity|]. intros name d [Hx | []]; injection Hx as <- <-; cbn [d_targets]; check_edge.
      constructor; [vm_compute; reflexivity|intros ? ? []].
    - constructor; [vm_compute; reflexivity|intros ? ? []]. }
  split.
  { constructor; [vm_compute; discriminate|]. intros name d [Hx | [Hx | []]]; injection Hx as <- <-.
    - constructor; [vm_compute; discriminate|]. intros name d [Hx | []]; injection Hx as <- <-. constructor; [vm_compute; discriminate|intros ? ? []].
    - constructor; [vm_compute; discriminate|intros ? ? []]. }
  split.
  { constructor. intros name d [Hx | [Hx | []]]; injection Hx as <- <-; (split; [vm_compute; discriminate|]).
    - constructor. intros name d [Hx | []]; injection Hx as <- <-. split; [vm_compute; discriminate|]. constructor. intros ? ? [].
    - constructor. intros ? ? []. }
  split.
  { constructor. intros name d [Hx | [Hx | []]]; injection Hx as <- <-; exists 3%nat; (split; [reflexivity|]).
    - constructor. intros name d [Hx | []]; injection Hx as <- <-. exists 2%nat. split; [reflexivity|]. constructor. intros ? ? [].
    - constructor. intros ? ? []. }
  split. { intros name [<- | [<- | [<- | []]]]; vm_compute; reflexivity. }
  split. { intros name _. left. vm_compute. reflexivity. }
  split; vm_compute; reflexivity.
Qed.

(** A role without targets of its own makes the enumeration fail, also if the top-level Targets only delegate. *)
Definition C87_nonempty_statement : Prop :=
  forall E srv docs root s,
    authentic_tree E (u_isnap s) docs root -> no_terminating root -> depth_at_most 4 root ->
    serves_docs srv docs root -> stored_docs docs root (u_db s) -> u_itargets s = Some (d_targets root) ->
    exists fuel s' l, all_targets E srv fuel s = (s', Ok (Finished l)).
Definition top_d : targets := match u_itargets st_dev with Some t => t | None => u_dtargets (mem0 db_empty) end.
Definition role_d : targets := match targets_of_json_signed DW (unpack_signed DW (tg_ks top_d)) {| r_kind := RDelegation; r_name := "dev" |} (parse DW "DEV") with
  | Ok t => t | Throw _ => u_dtargets (mem0 db_empty) end.
Definition tree_d : dtree := Node top_d [("dev", Node role_d [])].
Lemma dev_throws f : forall l, snd (all_targets DW (serve2 [] img_dev) f st_dev) <> Ok (Finished l).
Proof. destruct f as [|f]; intros l; vm_compute; discriminate. Qed.
Theorem C87_nonempty_refuted : ~ C87_nonempty_statement.
Proof.
  intros H. destruct (H DW (serve2 [] img_dev) (fun _ => "DEV") tree_d st_dev) as (fuel & s' & l & Hr).
  - constructor; [vm_compute; reflexivity|]. intros name d [Hx | []]; injection Hx as <- <-; cbn [d_targets]; check_edge.
    constructor; [vm_compute; reflexivity|intros ? ? []].
  - constructor. intros name d [Hx | []]; injection Hx as <- <-. split; [vm_compute; discriminate|]. constructor. intros ? ? [].
  - constructor. intros name d [Hx | []]; injection Hx as <- <-. exists 3%nat. split; [reflexivity|]. constructor. intros ? ? [].
  - intros name [<- | []]. vm_compute. reflexivity.
  - intros name _. left. vm_compute. reflexivity.
  - vm_compute. reflexivity.
  - apply (dev_throws fuel l). now rewrite Hr.
Qed.
Print Assumptions C87_nonempty_refuted.

(** ** C88: the enumeration yields only targets the Image repository vouches for *)
(** Every target a user of the iterator looks at is listed by the top-level Targets or by a role that is reached by at most five
    delegations, each document named by the Snapshot and signed as its delegator requires; and nothing but the cache of
    delegations changes. *)
Theorem C88_sound_partial E srv s0 s it b l s' it' :
  it_new b s0 = (s, Ok it) -> visits E srv s it l s' it' ->
  only_deleg s0 s' /\
  forall x, In x l -> exists top n t, u_itargets s0 = Some top /\ (n <= 5)%nat /\ reached E (u_isnap s0) top n t /\ In x (tg_targets t).
Proof. exact (visits_sound E srv s0 s b it l s' it'). Qed.
Print Assumptions C88_sound_partial.
Definition it0 (s : ust) : iter := match it_new false s with (_, Ok it) => it | (_, Throw _) => {| i_cur := None; i_node := top_node; i_up := [];
  i_tidx := 0; i_cidx := 0; i_term := false; i_level := 0; i_end := true |} end.
Definition deref2 (s : ust) : option (list string) :=
  match deref IW (isrv img_tree) (it0 s) s with
  | (s1, Ok (Some (it1, x))) => match next IW (isrv img_tree) it1 s1 with
      | (s2, Ok (Some it2)) => match deref IW (isrv img_tree) it2 s2 with
          | (_, Ok (Some (_, y))) => Some [t_filename x; t_filename y] | _ => None end
      | _ => None end
  | _ => None end.
Lemma deref2_visits s a b : deref2 s = Some [a; b] ->
  exists l s' it', visits IW (isrv img_tree) s (it0 s) l s' it' /\ map t_filename l = [a; b].
Proof.
  unfold deref2. intros D.
  destruct (deref IW (isrv img_tree) (it0 s) s) as (s1, [[(it1, x)|]|e]) eqn:R1; try discriminate.
  destruct (next IW (isrv img_tree) it1 s1) as (s2, [[it2|]|e]) eqn:R2; try discriminate.
  destruct (deref IW (isrv img_tree) it2 s2) as (s3, [[(it3, y)|]|e]) eqn:R3; try discriminate.
  exists ([] ++ [x] ++ [y]), s3, it3. split.
  - change ([] ++ [x] ++ [y]) with (([] ++ [x]) ++ [y]). eapply vi_look; [|exact R3]. eapply vi_go; [|exact R2]. eapply vi_look; [|exact R1]. constructor.
  - simpl. congruence.
Qed.
Example C88_case : exists l s' it', visits IW (isrv img_tree) (ist img_tree) (it0 (ist img_tree)) l s' it' /\ map t_filename l = ["a"; "b"].
Proof. apply deref2_visits. vm_compute. reflexivity. Qed.
(** The full property, that each enumerated target would also be found by the search made before an installation, is false:
    the enumeration heeds neither the file names a role may vouch for nor expiry. *)
Definition C88_statement : Prop :=
  forall E fnm srv now fuel s s' l x, all_targets E srv fuel s = (s', Ok (Finished l)) -> In x l ->
    exists s'' i, find_target_in_tree E fnm srv now false x s = (s'', Ok (Some i)).
Lemma C88_witness E fnm srv now fuel s :
  match all_targets E srv fuel s with
  | (_, Ok (Finished [_; b])) => match find_target_in_tree E fnm srv now false b s with (_, Ok None) => True | _ => False end
  | _ => False end -> ~ C88_statement.
Proof.
  intros X H. destruct (all_targets E srv fuel s) as (s', r) eqn:R.
  destruct r as [[[|a [|b [|]]]| |]|]; try contradiction.
  destruct (H E fnm srv now fuel s s' [a; b] b R) as (s2 & i & K); [simpl; auto|].
  rewrite K in X. exact X.
Qed.
Theorem C88_refuted : ~ C88_statement.
Proof. apply (C88_witness IW eqfnm (isrv img_p) now1 3 (ist img_p)). vm_compute. exact Logic.I. Qed.
Print Assumptions C88_refuted.
