(** C196: where metadata are asked for. *)
From Coq Require Import Ascii.
From Verif Require Import Base TufModel CodecModel AddrModel AddrSpec AddrProofs.

(** The full property: two different documents of a repository are asked for at different addresses. *)
Definition C196_statement : Prop :=
  forall d i dir r v s w q, proper d -> proper i -> askable any_name r v -> askable any_name s w ->
    fetch_request (site_text d) (site_text i) dir r v = Some q -> fetch_request (site_text d) (site_text i) dir s w = Some q -> r = s /\ v = w.

Definition at_place (t : site) (l : list string) : request :=
  {| q_scheme := append (t_scheme t) ":"; q_host := t_host t; q_path := t_dirs t ++ l; q_query := None |}.

Lemma url_top ds rs dir r v : top r -> fetch_url ds rs dir r v = append (if dir then ds else rs) (String "/" (role_file_name v r)).
Proof. intros [-> | [-> | [-> | ->]]]; reflexivity. Qed.
Lemma url_delegation ds rs dir n r v : role_delegation n = Ok r ->
  fetch_url ds rs dir r v = append (append (if dir then ds else rs) "/delegations") (String "/" (role_file_name v r)) /\ r_name r = n /\ r_kind r = RDelegation.
Proof. unfold role_delegation. destruct (is_reserved (to_lower n)); [discriminate|]. intros H. injection H as <-. split; [reflexivity|auto]. Qed.
Lemma pick_site d i (dir : bool) : (if dir then site_text d else site_text i) = site_text (if dir then d else i).
Proof. now destruct dir. Qed.
Lemma pick_proper d i (dir : bool) : proper d -> proper i -> proper (if dir then d else i).
Proof. now destruct dir. Qed.
Lemma top_plain r : top r -> plain (r_name r).
Proof. intros T. repeat split; apply top_name_no; auto. Qed.
Lemma delegations_dir : Forall (fun d => plain d /\ d <> "." /\ d <> "..") ["delegations"].
Proof. constructor; [|constructor]. split; [|split; discriminate]. repeat split; cbn; intros H; repeat (destruct H as [H | H]; [discriminate|]); exact H. Qed.

Lemma request_top d i dir r v : proper d -> proper i -> top r ->
  fetch_request (site_text d) (site_text i) dir r v = Some (at_place (if dir then d else i) [role_file_name v r]).
Proof.
  intros D I0 T. unfold fetch_request. rewrite url_top by exact T. rewrite pick_site.
  pose proof (wire_plain (if dir then d else i) [] (role_file_name v r) (pick_proper d i dir D I0) (Forall_nil _) (file_plain v r (top_plain r T))) as W.
  change (dirs_text []) with "" in W. destruct (file_not_dots v r) as [N1 N2]. specialize (W N1 N2).
  assert (E : forall s, append s "" = s) by (intros s; induction s as [|x s IH]; cbn; [reflexivity|now rewrite IH]). rewrite E in W. exact W.
Qed.
Lemma request_delegation d i dir n r v : proper d -> proper i -> role_delegation n = Ok r -> plain n ->
  fetch_request (site_text d) (site_text i) dir r v = Some (at_place (if dir then d else i) ["delegations"; role_file_name v r]).
Proof.
  intros D I0 R P. unfold fetch_request. destruct (url_delegation (site_text d) (site_text i) dir n r v R) as (-> & N & _). rewrite pick_site.
  rewrite <- N in P. destruct (file_not_dots v r) as [N1 N2].
  exact (wire_plain (if dir then d else i) ["delegations"] (role_file_name v r) (pick_proper d i dir D I0) delegations_dir (file_plain v r P) N1 N2).
Qed.

(** The four roles are asked for directly below the configured place, under their name, with the version in front if one is wanted;
    a delegation whose name is one segment is asked for below "delegations", under its own name as it is written. *)
Theorem C196_place_partial :
  forall (d i : site) (dir : bool), proper d -> proper i -> let t := if dir then d else i in
    (forall r, top r -> fetch_latest (site_text d) (site_text i) dir r = Some (at_place t [append (r_name r) ".json"])) /\
    (forall r v, top r -> 0 <= v -> fetch_request (site_text d) (site_text i) dir r v = Some (at_place t [append (to_dec v) (append "." (append (r_name r) ".json"))])) /\
    (forall n r, role_delegation n = Ok r -> plain n ->
       fetch_latest (site_text d) (site_text i) dir r = Some (at_place t ["delegations"; append n ".json"])).
Proof.
  intros d i dir D I0 t. split; [|split].
  - intros r T. unfold fetch_latest. now rewrite (request_top d i dir r _ D I0 T).
  - intros r v T V. rewrite (request_top d i dir r v D I0 T). unfold role_file_name, ANY_VERSION.
    destruct (Z.eqb_spec v (-1)) as [E | _]; [lia|]. now rewrite app_assoc_s.
  - intros n r R P. unfold fetch_latest. rewrite (request_delegation d i dir n r _ D I0 R P).
    destruct (url_delegation "" "" dir n r 0 R) as (_ & <- & _). reflexivity.
Qed.

(** Different documents are asked for at different addresses as long as the names of delegations are single segments. *)
Theorem C196_distinct_partial :
  forall d i dir r v s w q, proper d -> proper i -> askable plain r v -> askable plain s w ->
    fetch_request (site_text d) (site_text i) dir r v = Some q -> fetch_request (site_text d) (site_text i) dir s w = Some q -> r = s /\ v = w.
Proof.
  intros d i dir r v s w q D I0 [r' v' T V | n r' R P] [s' w' T' V' | m s' R' P'] A B.
  - rewrite (request_top d i dir r' v' D I0 T) in A. rewrite (request_top d i dir s' w' D I0 T') in B.
    assert (E : at_place (if dir then d else i) [role_file_name v' r'] = at_place (if dir then d else i) [role_file_name w' s']) by congruence.
    unfold at_place in E. injection E as E. apply app_inv_head in E. injection E as E. now apply file_inj.
  - rewrite (request_top d i dir r' v' D I0 T) in A. rewrite (request_delegation d i dir m s' _ D I0 R' P') in B. exfalso.
    assert (E : at_place (if dir then d else i) [role_file_name v' r'] = at_place (if dir then d else i) ["delegations"; role_file_name (-1) s']) by congruence.
    unfold at_place in E. injection E as E. apply app_inv_head in E. discriminate.
  - rewrite (request_delegation d i dir n r' _ D I0 R P) in A. rewrite (request_top d i dir s' w' D I0 T') in B. exfalso.
    assert (E : at_place (if dir then d else i) ["delegations"; role_file_name (-1) r'] = at_place (if dir then d else i) [role_file_name w' s']) by congruence.
    unfold at_place in E. injection E as E. apply app_inv_head in E. discriminate.
  - rewrite (request_delegation d i dir n r' _ D I0 R P) in A. rewrite (request_delegation d i dir m s' _ D I0 R' P') in B.
    assert (E : at_place (if dir then d else i) ["delegations"; role_file_name (-1) r'] = at_place (if dir then d else i) ["delegations"; role_file_name (-1) s']) by congruence.
    unfold at_place in E. injection E as E. apply app_inv_head in E. injection E as E.
    change (append (r_name r') ".json" = append (r_name s') ".json") in E. apply append_inj_r in E.
    destruct (url_delegation "" "" dir n r' 0 R) as (_ & _ & K). destruct (url_delegation "" "" dir m s' 0 R') as (_ & _ & K').
    split; [|reflexivity]. destruct r', s'; cbn in *; congruence.
Qed.

(** With the places the configuration fills in by itself, nothing of one repository is asked for at an address of the other. *)
Lemma below_proper t x : proper t -> plain x -> x <> "." -> x <> ".." -> proper (below t x).
Proof. intros (A & B & C) P N1 N2. split; [exact A|]. split; [exact B|]. cbn. apply Forall_app. split; [exact C|]. constructor; [auto|constructor]. Qed.
Lemma site_text_below t x : append (site_text t) (append "/" x) = site_text (below t x).
Proof. unfold site_text, below. cbn [t_scheme t_host t_dirs]. rewrite dirs_text_app, !app_assoc_s. cbn [dirs_text]. assert (E : forall s, append s "" = s) by (intros s; induction s as [|y s IH]; cbn; [reflexivity|now rewrite IH]). now rewrite E. Qed.
Lemma word_plain x : x = "repo" \/ x = "director" -> plain x /\ x <> "." /\ x <> "..".
Proof. intros [-> | ->]; (split; [|split; discriminate]); repeat split; cbn; intros H; repeat (destruct H as [H | H]; [discriminate|]); exact H. Qed.
Theorem C196_separate_partial :
  forall t r v s w q, proper t -> askable plain r v -> askable plain s w ->
    let ds := default_director_server (site_text t) in let rs := default_repo_server (site_text t) in
    fetch_request ds rs true r v = Some q -> fetch_request ds rs false s w = Some q -> False.
Proof.
  intros t r v s w q P A B ds rs. unfold ds, rs, default_director_server, default_repo_server.
  change "/director" with (append "/" "director"). change "/repo" with (append "/" "repo"). rewrite (site_text_below t "director"), (site_text_below t "repo").
  assert (PD : proper (below t "director")) by (destruct (word_plain "director") as (X & Y & Z0); [auto|now apply below_proper]).
  assert (PR : proper (below t "repo")) by (destruct (word_plain "repo") as (X & Y & Z0); [auto|now apply below_proper]).
  assert (F : forall dir r v, askable plain r v -> exists l, fetch_request (site_text (below t "director")) (site_text (below t "repo")) dir r v =
     Some (at_place t ((if dir then "director" else "repo") :: l))).
  { clear - PD PR. intros dir r v [r' v' T V | n r' R N].
    - exists [role_file_name v' r']. rewrite (request_top _ _ dir r' v' PD PR T). unfold at_place. destruct dir; cbn [below t_scheme t_host t_dirs]; rewrite <- app_assoc; reflexivity.
    - exists ["delegations"; role_file_name (-1) r']. rewrite (request_delegation _ _ dir n r' _ PD PR R N). unfold at_place. destruct dir; cbn [below t_scheme t_host t_dirs]; rewrite <- app_assoc; reflexivity. }
  intros E1 E2. destruct (F true r v A) as (l1 & F1). destruct (F false s w B) as (l2 & F2). rewrite E1 in F1. rewrite E2 in F2.
  assert (E : at_place t ("director" :: l1) = at_place t ("repo" :: l2)) by congruence. unfold at_place in E. injection E as E. apply app_inv_head in E. discriminate.
Qed.

(** Whatever a delegation is called, the request goes to the configured host, over the configured scheme. *)
Theorem C196_host_partial :
  forall d i dir r v, proper d -> proper i -> askable any_name r v ->
    exists q, fetch_request (site_text d) (site_text i) dir r v = Some q /\
      let t := if dir then d else i in q_host q = t_host t /\ q_scheme q = append (t_scheme t) ":".
Proof.
  intros d i dir r v D I0 [r' v' T V | n r' R _].
  - eexists. split; [now apply request_top|]. now destruct dir.
  - unfold fetch_request. destruct (url_delegation (site_text d) (site_text i) dir n r' (-1) R) as (-> & _ & _). rewrite pick_site.
    rewrite app_assoc_s. change (append "/delegations" (String "/" (role_file_name (-1) r'))) with (String "/" (append "delegations/" (role_file_name (-1) r'))).
    rewrite wire_below by now apply pick_proper. eexists. split; [reflexivity|]. now destruct dir.
Qed.

(** ** Names that are no single segment *)

Lemma request_any d i dir n r : proper d -> proper i -> role_delegation n = Ok r -> ~ occurs "?" n -> ~ occurs "#" n ->
  fetch_latest (site_text d) (site_text i) dir r = Some (let t := if dir then d else i in
    {| q_scheme := append (t_scheme t) ":"; q_host := t_host t; q_path := dedot (rev (t_dirs t)) (split_all "/" (append "delegations/" (append n ".json"))); q_query := None |}).
Proof.
  intros D I0 R N1 N2. unfold fetch_latest, fetch_request. destruct (url_delegation (site_text d) (site_text i) dir n r ANY_VERSION R) as (-> & N & _). rewrite pick_site.
  rewrite app_assoc_s. change (append "/delegations" (String "/" (role_file_name ANY_VERSION r))) with (String "/" (append "delegations/" (append (r_name r) ".json"))).
  rewrite wire_below by now apply pick_proper. rewrite N. cbv zeta.
  assert (X : forall c, c = "?"%char \/ c = "#"%char -> ~ occurs c n -> ~ occurs c (append "delegations/" (append n ".json"))).
  { intros c C O. rewrite occurs_app, occurs_app. intros [H | [H | H]]; [|tauto|]; cbn in H; destruct C; subst; repeat (destruct H as [H | H]; [discriminate|]); exact H. }
  rewrite (break_none "#") by (apply X; auto). cbn [fst]. rewrite (break_none "?") by (apply X; auto). reflexivity.
Qed.

(** A delegation can be named so that it is asked for at the address of one of the four roles ... *)
Theorem C196_same_as_top :
  forall d i dir s, proper d -> proper i -> top s -> exists r,
    role_delegation (append "../" (r_name s)) = Ok r /\
    fetch_latest (site_text d) (site_text i) dir r = fetch_latest (site_text d) (site_text i) dir s.
Proof.
  intros d i dir s D I0 T. exists {| r_kind := RDelegation; r_name := append "../" (r_name s) |}.
  assert (R : role_delegation (append "../" (r_name s)) = Ok {| r_kind := RDelegation; r_name := append "../" (r_name s) |}) by (destruct T as [-> | [-> | [-> | ->]]]; reflexivity).
  split; [exact R|]. rewrite (request_any d i dir _ _ D I0 R) by (destruct T as [-> | [-> | [-> | ->]]]; cbn; intros H; repeat (destruct H as [H | H]; [discriminate|]); exact H).
  unfold fetch_latest. rewrite (request_top d i dir s _ D I0 T). unfold at_place. cbv zeta.
  destruct T as [-> | [-> | [-> | ->]]]; cbn; rewrite rev_involutive; reflexivity.
Qed.
(** ... and, with the usual places, at an address of the Director. *)
Theorem C196_crosses :
  forall t s, proper t -> top s ->
    let ds := default_director_server (site_text t) in let rs := default_repo_server (site_text t) in
    exists r, role_delegation (append "../../director/" (r_name s)) = Ok r /\ fetch_latest ds rs false r = fetch_latest ds rs true s.
Proof.
  intros t s P T ds rs. unfold ds, rs, default_director_server, default_repo_server. change "/director" with (append "/" "director"). change "/repo" with (append "/" "repo"). rewrite (site_text_below t "director"), (site_text_below t "repo").
  assert (PD : proper (below t "director")) by (destruct (word_plain "director") as (X & Y & Z0); [auto|now apply below_proper]).
  assert (PR : proper (below t "repo")) by (destruct (word_plain "repo") as (X & Y & Z0); [auto|now apply below_proper]).
  exists {| r_kind := RDelegation; r_name := append "../../director/" (r_name s) |}.
  assert (R : role_delegation (append "../../director/" (r_name s)) = Ok {| r_kind := RDelegation; r_name := append "../../director/" (r_name s) |}) by (destruct T as [-> | [-> | [-> | ->]]]; reflexivity).
  split; [exact R|]. rewrite (request_any _ _ false _ _ PD PR R) by (destruct T as [-> | [-> | [-> | ->]]]; cbn; intros H; repeat (destruct H as [H | H]; [discriminate|]); exact H).
  unfold fetch_latest. rewrite (request_top _ _ true s _ PD PR T). unfold at_place. cbn [below t_scheme t_host t_dirs]. rewrite rev_app_distr, <- app_assoc.
  destruct T as [-> | [-> | [-> | ->]]]; cbn; rewrite rev_involutive, <- app_assoc; reflexivity.
Qed.
(** What follows a '#' in a name is not sent. *)
Theorem C196_fragment :
  forall d i dir n x r r', proper d -> proper i -> plain n -> role_delegation n = Ok r -> role_delegation (append n (append ".json#" x)) = Ok r' ->
    fetch_latest (site_text d) (site_text i) dir r' = fetch_latest (site_text d) (site_text i) dir r.
Proof.
  intros d i dir n x r r' D I0 P R R'. unfold fetch_latest. rewrite (request_delegation d i dir n r _ D I0 R P).
  unfold fetch_request. destruct (url_delegation (site_text d) (site_text i) dir _ r' ANY_VERSION R') as (-> & N' & _).
  destruct (url_delegation (site_text d) (site_text i) dir _ r ANY_VERSION R) as (_ & N & _). rewrite pick_site, app_assoc_s.
  change (append "/delegations" (String "/" (role_file_name ANY_VERSION r'))) with (String "/" (append "delegations/" (append (r_name r') ".json"))).
  rewrite wire_below by now apply pick_proper. change (role_file_name ANY_VERSION r) with (append (r_name r) ".json"). rewrite N, N'.
  destruct P as (P1 & P2 & P3).
  assert (X : forall c, c = "?"%char \/ c = "#"%char -> ~ occurs c n -> ~ occurs c (append "delegations/" (append n ".json"))).
  { intros c C O. rewrite occurs_app, occurs_app. intros [H | [H | H]]; [|tauto|]; cbn in H; destruct C; subst; repeat (destruct H as [H | H]; [discriminate|]); exact H. }
  assert (E : append "delegations/" (append (append n (append ".json#" x)) ".json") = append (append "delegations/" (append n ".json")) (String "#" (append x ".json"))).
  { rewrite !app_assoc_s. reflexivity. }
  rewrite E, (break_app "#") by (apply X; auto). rewrite break_at. cbn [fst].
  assert (Z0 : forall s, append s "" = s) by (intros s; induction s as [|y s IH]; cbn; [reflexivity|now rewrite IH]). rewrite Z0.
  rewrite (break_none "?") by (apply X; auto). cbn [fst snd]. unfold at_place. do 2 f_equal.
  change (append "delegations/" (append n ".json")) with (append "delegations" (String "/" (append n ".json"))).
  rewrite split_seg by (cbn; intros H; repeat (destruct H as [H | H]; [discriminate|]); exact H).
  rewrite split_one by (rewrite occurs_app; intros [H | H]; [tauto|]; cbn in H; repeat (destruct H as [H | H]; [discriminate|]); exact H).
  assert (L : (5 <= String.length (append n ".json"))%nat) by (rewrite length_append; cbn; lia).
  assert (N1 : append n ".json" <> ".") by (intros Q; rewrite Q in L; cbn in L; lia).
  assert (N2 : append n ".json" <> "..") by (intros Q; rewrite Q in L; cbn in L; lia).
  cbn [dedot]. change (String.eqb "delegations" ".") with false. change (String.eqb "delegations" "..") with false. cbn iota.
  rewrite (proj2 (String.eqb_neq _ _) N1), (proj2 (String.eqb_neq _ _) N2). cbn [rev]. rewrite rev_involutive, <- app_assoc. reflexivity.
Qed.

Definition somewhere : site := {| t_scheme := "https"; t_host := "ota.example.com"; t_dirs := [] |}.
Example somewhere_proper : proper somewhere.
Proof. split; [|split; [|constructor]]; repeat split; cbn; intros H; repeat (destruct H as [H | H]; [discriminate|]); exact H. Qed.

Theorem C196_refuted : ~ C196_statement.
Proof.
  intros S. destruct (C196_same_as_top somewhere somewhere false role_timestamp somewhere_proper somewhere_proper) as (r & R & E); [unfold top; tauto|].
  assert (T : top role_timestamp) by (unfold top; tauto). assert (VO : version_ok (-1)) by (unfold version_ok; lia).
  pose proof (request_top somewhere somewhere false role_timestamp ANY_VERSION somewhere_proper somewhere_proper T) as Q.
  destruct (S somewhere somewhere false r (-1) role_timestamp (-1) _ somewhere_proper somewhere_proper (ask_delegation any_name _ _ R I)
    (ask_top any_name _ _ T VO) (eq_trans E Q) Q) as (X & _).
  subst r. discriminate.
Qed.

(** ** Roles are compared by name *)
Theorem C196_equality_partial :
  forall n m a b, role_delegation n = Ok a -> role_delegation m = Ok b ->
    (role_eqb a b = true <-> n = m) /\
    (forall s, top s -> role_eqb a s = false /\ role_eqb s a = false) /\
    (role_eqb a (role_of_string m) = true -> n = "invalidrole").
Proof.
  intros n m a b A B. destruct (url_delegation "" "" true n a 0 A) as (_ & NA & _). destruct (url_delegation "" "" true m b 0 B) as (_ & NB & _).
  unfold role_eqb. rewrite NA, NB.
  assert (TT : forall s, top s -> n <> r_name s).
  { intros s T ->. destruct T as [-> | [-> | [-> | ->]]]; discriminate A. }
  split; [apply String.eqb_eq|]. split.
  - intros s T. split; apply String.eqb_neq; [now apply TT|intros H; symmetry in H; revert H; now apply TT].
  - unfold role_of_string. intros H. apply String.eqb_eq in H. revert H.
    destruct (String.eqb (to_lower m) "root"); [intros H; destruct (TT role_root); unfold top; auto|].
    destruct (String.eqb (to_lower m) "snapshot"); [intros H; destruct (TT role_snapshot); unfold top; auto|].
    destruct (String.eqb (to_lower m) "targets"); [intros H; destruct (TT role_targets); unfold top; auto|].
    destruct (String.eqb (to_lower m) "timestamp"); [intros H; destruct (TT role_timestamp); unfold top; tauto|]. exact (fun H => H).
Qed.
(** The names of the four roles are reserved in any mixture of small and capital letters; every other name is accepted as it is. *)
Theorem C196_reserved_partial :
  forall n, (exists e, role_delegation n = Throw e) <-> (exists s, top s /\ to_lower n = r_name s).
Proof.
  intros n. unfold role_delegation. split.
  - intros (e & H). destruct (is_reserved (to_lower n)) eqn:R; [|discriminate]. unfold is_reserved in R.
    apply orb_true_iff in R. destruct R as [R | R]; [|exists role_timestamp; split; [unfold top; tauto|now apply String.eqb_eq in R]].
    apply orb_true_iff in R. destruct R as [R | R]; [|exists role_snapshot; split; [unfold top; tauto|now apply String.eqb_eq in R]].
    apply orb_true_iff in R. destruct R as [R | R]; [exists role_root; split; [unfold top; tauto|now apply String.eqb_eq in R]|exists role_targets; split; [unfold top; tauto|now apply String.eqb_eq in R]].
  - intros (s & T & ->). destruct T as [-> | [-> | [-> | ->]]]; eexists; reflexivity.
Qed.

(** ** The hypotheses are met *)
Example usual_addresses :
  fetch_latest "https://ota.example.com/director" "https://ota.example.com/repo" true role_targets =
    Some {| q_scheme := "https:"; q_host := "ota.example.com"; q_path := ["director"; "targets.json"]; q_query := None |} /\
  fetch_request "https://ota.example.com/director" "https://ota.example.com/repo" false role_root 12 =
    Some {| q_scheme := "https:"; q_host := "ota.example.com"; q_path := ["repo"; "12.root.json"]; q_query := None |} /\
  (exists r, role_delegation "Supplier-A" = Ok r /\ plain "Supplier-A" /\
     fetch_latest "https://ota.example.com/director" "https://ota.example.com/repo" false r =
       Some {| q_scheme := "https:"; q_host := "ota.example.com"; q_path := ["repo"; "delegations"; "Supplier-A.json"]; q_query := None |}).
Proof.
  split; [reflexivity|]. split; [reflexivity|]. eexists. split; [reflexivity|]. split; [|reflexivity].
  repeat split; cbn; intros H; repeat (destruct H as [H | H]; [discriminate|]); exact H.
Qed.
Example odd_addresses :
  (exists r, role_delegation "../../director/targets" = Ok r /\
     fetch_latest "https://ota.example.com/director" "https://ota.example.com/repo" false r =
       Some {| q_scheme := "https:"; q_host := "ota.example.com"; q_path := ["director"; "targets.json"]; q_query := None |}) /\
  (exists r, role_delegation "a?b" = Ok r /\
     fetch_latest "https://ota.example.com/director" "https://ota.example.com/repo" false r =
       Some {| q_scheme := "https:"; q_host := "ota.example.com"; q_path := ["repo"; "delegations"; "a"]; q_query := Some "b.json" |}) /\
  role_delegation "ROOT" = Throw UBase /\
  (exists r, role_delegation "invalidrole" = Ok r /\ role_eqb r (role_of_string "anything else") = true).
Proof. repeat split; try (eexists; split; reflexivity). Qed.

Print Assumptions C196_place_partial.
Print Assumptions C196_distinct_partial.
Print Assumptions C196_separate_partial.
Print Assumptions C196_host_partial.
Print Assumptions C196_same_as_top.
Print Assumptions C196_crosses.
Print Assumptions C196_fragment.
Print Assumptions C196_refuted.
Print Assumptions C196_equality_partial.
Print Assumptions C196_reserved_partial.
