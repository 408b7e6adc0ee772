(** C159-C161: aktualizr-info. *)
From Verif Require Import Base InfoModel.

(** ** Specification: what each option asks for, as its description says. *)
Definition if_fetched (n : info) (text : list string) : list string := match n_director_root n with Some _ => text | None => ["Metadata is not available"] end.
Definition asks_for (n : info) (o : opt) : list string :=
  match o with
  | ONameOnly => match n_device n with Some d => [d] | None => [] end
  | OTlsCreds => ["Root CA certificate:"; n_ca n; "Client certificate:"; n_cert n; "Client private key:"; n_pkey n]
  | OTlsCa => [n_ca n] | OTlsCert => [n_cert n] | OTlsKey => [n_pkey n]
  | OEcuKeys => ["Public key:"; n_pub n; "Private key:"; n_priv n]
  | OEcuPub => [n_pub n] | OEcuPriv => [n_priv n]
  | OImageRoot => if_fetched n [n_image_root n] | OImageTargets => if_fetched n [n_image_targets n]
  | OImageSnapshot => if_fetched n [n_snapshot n] | OImageTimestamp => if_fetched n [n_timestamp n]
  | ODirectorRoot => match n_director_root n with Some r => [r] | None => ["Metadata is not available"] end
  | ODirectorTargets => if_fetched n [n_director_targets n]
  | ODelegation => if_fetched n (match n_delegations n with
      | None => ["Failed to load delegations"] | Some [] => ["Delegations are not present"]
      | Some l => map (fun d => append (fst d) (append ": " (snd d))) l end)
  end.
Definition in_order : list opt :=
  [OTlsCreds; OTlsCa; OTlsCert; OTlsKey; OEcuKeys; OEcuPub; OEcuPriv; OImageRoot; OImageTargets; ODelegation; ODirectorRoot; ODirectorTargets; OImageSnapshot; OImageTimestamp].

(** ** C159: what is asked for is put out, all of it and nothing else. *)
Definition C159_statement : Prop :=
  forall n given, (exists o, given o = true) ->
    run_info n given = if given ONameOnly then asks_for n ONameOnly else List.concat (map (asks_for n) (filter given in_order)).
Definition empty_info : info := {| n_device := None; n_ca := ""; n_cert := ""; n_pkey := ""; n_pub := ""; n_priv := ""; n_director_root := None; n_image_root := ""; n_image_targets := "";
  n_director_targets := ""; n_snapshot := ""; n_timestamp := ""; n_delegations := Some []; n_registered := false; n_serials := Some []; n_misconfigured := []; n_running := None; n_pending := None |}.
Definition opt_dec (a b : opt) : {a = b} + {a <> b}.
Proof. decide equality. Defined.
Definition only (l : list opt) (o : opt) : bool := if in_dec opt_dec o l then true else false.
(** The public key of the ECU ends the output. *)
Theorem C159_refuted : ~ C159_statement.
Proof. intros H. specialize (H empty_info (only [OEcuPub; OEcuPriv]) (ex_intro _ OEcuPub eq_refl)). discriminate. Qed.
(** Without a device id, the option for the device id alone gives the general information. *)
Theorem C159_name_refuted : ~ (forall n, run_info n (only [ONameOnly]) = asks_for n ONameOnly).
Proof. intros H. specialize (H empty_info). discriminate. Qed.
(** In all other cases it holds. *)
Theorem C159_partial : forall n given, given ONameOnly = false -> given OEcuPub = false -> (exists o, given o = true) ->
  run_info n given = List.concat (map (asks_for n) (filter given in_order)).
Proof.
  intros n given N P (o & O). unfold run_info. rewrite N, P.
  assert (X : existsb given [OTlsCreds; OTlsCa; OTlsCert; OTlsKey; OEcuKeys; OEcuPriv; OImageRoot; OImageTargets; ODelegation; ODirectorRoot; ODirectorTargets; OImageSnapshot; OImageTimestamp] = true).
  { apply existsb_exists. exists o. split; [|exact O]. destruct o; cbn [In]; auto 20; congruence. }
  rewrite X. unfold in_order. cbn [filter]. rewrite P.
  assert (Y : forall o l, List.concat (map (asks_for n) (if given o then o :: l else l)) = put given o (asks_for n o) ++ List.concat (map (asks_for n) l)).
  { intros o' l. unfold put. destruct (given o'); reflexivity. }
  assert (Z : forall a r, metadata a r = if_fetched a r) by reflexivity.
  rewrite !Y. cbn [map List.concat]. rewrite <- !app_assoc, app_nil_r.
  repeat f_equal. cbn [asks_for]. unfold metadata. destruct (n_director_root n); reflexivity.
Qed.
Theorem C159_name : forall n given d, given ONameOnly = true -> n_device n = Some d -> run_info n given = [d].
Proof. intros n given d N D. unfold run_info. now rewrite N, D. Qed.
Theorem C159_pub : forall n given, given ONameOnly = false -> given OEcuPub = true ->
  run_info n given = List.concat (map (asks_for n) (filter given [OTlsCreds; OTlsCa; OTlsCert; OTlsKey; OEcuKeys])) ++ [n_pub n].
Proof.
  intros n given N P. unfold run_info. rewrite N, P. f_equal.
  assert (Y : forall o l, List.concat (map (asks_for n) (if given o then o :: l else l)) = put given o (asks_for n o) ++ List.concat (map (asks_for n) l)).
  { intros o' l. unfold put. destruct (given o'); reflexivity. }
  cbn [filter]. rewrite !Y. cbn [map List.concat]. now rewrite app_nil_r.
Qed.
(** Waiting: it ends only when the device was seen to be registered, in the last attempt, and to have metadata, in that one or an earlier one. *)
Theorem C159_wait : forall l rest, wait_loop false false l = Some rest ->
  exists before a, l = before ++ a :: rest /\ a_open a = true /\ a_registered a = Ok true /\ exists b, In b (before ++ [a]) /\ a_open b = true /\ a_metadata b = Ok true.
Proof.
  assert (G : forall l r m past rest, (r && m)%bool = false -> wait_loop r m l = Some rest -> (m = true -> exists b, In b past /\ a_open b = true /\ a_metadata b = Ok true) ->
    exists before a, l = before ++ a :: rest /\ a_open a = true /\ a_registered a = Ok true /\ exists b, In b (past ++ before ++ [a]) /\ a_open b = true /\ a_metadata b = Ok true).
  { induction l as [|a l IH]; intros r m past rest RM H Hm; cbn [wait_loop] in H; rewrite RM in H; [discriminate|].
    assert (Next : forall r' m', (r' && m')%bool = false -> wait_loop r' m' l = Some rest -> (m' = true -> exists b, In b (past ++ [a]) /\ a_open b = true /\ a_metadata b = Ok true) ->
      exists before a0, a :: l = before ++ a0 :: rest /\ a_open a0 = true /\ a_registered a0 = Ok true /\ exists b, In b (past ++ before ++ [a0]) /\ a_open b = true /\ a_metadata b = Ok true).
    { intros r' m' RM' H' Hm'. destruct (IH r' m' (past ++ [a]) rest RM' H' Hm') as (be & a0 & -> & A1 & A2 & b & B1 & B2).
      exists (a :: be), a0. split; [reflexivity|]. split; [exact A1|]. split; [exact A2|]. exists b. split; [|exact B2]. rewrite <- app_assoc in B1. exact B1. }
    assert (Old : m = true -> exists b, In b (past ++ [a]) /\ a_open b = true /\ a_metadata b = Ok true).
    { intros K. destruct (Hm K) as (b & B1 & B2). exists b. split; [apply in_app_iff; now left|exact B2]. }
    destruct (a_open a) eqn:Oa; cbn [negb] in H; [|exact (Next r m RM H Old)].
    destruct (a_registered a) as [r'|] eqn:Ra; [|exact (Next r m RM H Old)].
    assert (Go : forall m', wait_loop r' m' l = Some rest -> (m' = true -> exists b, In b (past ++ [a]) /\ a_open b = true /\ a_metadata b = Ok true) ->
      exists before a0, a :: l = before ++ a0 :: rest /\ a_open a0 = true /\ a_registered a0 = Ok true /\ exists b, In b (past ++ before ++ [a0]) /\ a_open b = true /\ a_metadata b = Ok true).
    { intros m' H' Hm'. destruct (r' && m')%bool eqn:RM'; [|exact (Next r' m' RM' H' Hm')].
      apply Bool.andb_true_iff in RM' as [-> ->]. assert (l = rest) as -> by (destruct l; cbn [wait_loop andb] in H'; congruence).
      exists [], a. split; [reflexivity|]. split; [exact Oa|]. split; [exact Ra|]. exact (Hm' eq_refl). }
    destruct (a_metadata a) as [m'|] eqn:Ma; [|exact (Go m H Old)].
    apply (Go m' H). intros ->. exists a. split; [apply in_app_iff; right; now left|]. auto. }
  intros l rest H. destruct (G l false false [] rest eq_refl H ltac:(discriminate)) as (be & a & A & B & C & b & D).
  exists be, a. repeat split; auto. exists b. exact D.
Qed.
Example C159_case : run_info empty_info (only [OTlsCa; ODirectorRoot]) = [""; "Metadata is not available"] /\ only [OTlsCa; ODirectorRoot] ONameOnly = false /\
  wait_loop false false [{| a_open := true; a_registered := Ok false; a_metadata := Ok false |}; {| a_open := true; a_registered := Ok true; a_metadata := Ok true |}] = Some [].
Proof. repeat split; reflexivity. Qed.

(** ** C160: no private key is put out unless it was asked for. *)
(** Two devices that differ in their private keys only: the output is the same. *)
Definition set_secrets (pkey priv : string) (n : info) : info := {| n_device := n_device n; n_ca := n_ca n; n_cert := n_cert n; n_pkey := pkey; n_pub := n_pub n; n_priv := priv;
  n_director_root := n_director_root n; n_image_root := n_image_root n; n_image_targets := n_image_targets n; n_director_targets := n_director_targets n; n_snapshot := n_snapshot n;
  n_timestamp := n_timestamp n; n_delegations := n_delegations n; n_registered := n_registered n; n_serials := n_serials n; n_misconfigured := n_misconfigured n; n_running := n_running n; n_pending := n_pending n |}.
Theorem C160_no_secret : forall n given pkey priv, given OTlsCreds = false -> given OTlsKey = false -> given OEcuKeys = false -> given OEcuPriv = false ->
  (n_pkey n = "" <-> pkey = "") -> (n_priv n = "" <-> priv = "") -> run_info (set_secrets pkey priv n) given = run_info n given.
Proof.
  intros n given pkey priv A B C D Hp Hq.
  assert (Eq : forall x y : string, (x = "" <-> y = "") -> String.eqb x "" = String.eqb y "").
  { intros x y H. destruct (String.eqb_spec x ""), (String.eqb_spec y ""); tauto. }
  assert (Ge : general (set_secrets pkey priv n) = general n).
  { unfold general. cbn [set_secrets n_device n_ca n_cert n_pkey n_pub n_priv n_director_root n_registered n_serials n_misconfigured n_running n_pending]. now rewrite (Eq _ _ Hp), (Eq _ _ Hq). }
  unfold run_info. rewrite Ge. cbn [set_secrets n_device n_ca n_cert n_pkey n_pub n_priv]. unfold put. rewrite A, B, C, D. reflexivity.
Qed.
Example C160_case : run_info (set_secrets "tls-secret" "ecu-secret" empty_info) (only [OTlsKey]) = ["tls-secret"] /\
  run_info (set_secrets "tls-secret" "ecu-secret" empty_info) (only [OTlsCert; OEcuPub]) = [""; ""].
Proof. split; reflexivity. Qed.

(** ** C161: the general information shows every ECU of the database with its images. *)
Definition shows (out block : list string) : Prop := exists a b, out = a ++ block ++ b.
Lemma shows_refl l : shows l l.
Proof. exists [], []. now rewrite app_nil_r. Qed.
Lemma shows_app_l a l x : shows l x -> shows (a ++ l) x.
Proof. intros (p & q & ->). exists (a ++ p), q. now rewrite app_assoc. Qed.
Lemma shows_app_r a l x : shows l x -> shows (l ++ a) x.
Proof. intros (p & q & ->). exists p, (q ++ a). now rewrite <- !app_assoc. Qed.
Definition images (what : string) (v : option (string * string)) : list string :=
  match v with Some (h, f) => [append "   " (append what (append " image hash: " h)); append "   " (append what (append " image filename: " f))] | None => [] end.
Theorem C161_secondaries : forall n p l k e, n_serials n = Some (p :: l) -> nth_error l k = Some e ->
  shows (general n) ([append (to_dec (Z.of_nat (S k))) (append ") serial ID: " (x_serial e)); append "   hardware ID: " (x_hw e)] ++
    match x_current e, x_pending e with None, None => ["   no details about installed nor pending images"] | _, _ => images "installed" (x_current e) ++ images "pending" (x_pending e) end).
Proof.
  intros n p l k e S1 N. unfold general. rewrite S1. apply shows_app_l, shows_app_l, shows_app_r.
  destruct l as [|e0 l]; [destruct k; discriminate|]. apply (shows_app_l ["Secondaries:"]).
  assert (G : forall l j k, nth_error l k = Some e -> shows (secondary_lines j l) (ecu_lines (j + k) e)).
  { clear. induction l as [|x l IH]; intros j k N; [destruct k; discriminate|]. cbn [secondary_lines]. destruct k as [|k].
    - injection N as ->. rewrite Nat.add_0_r. apply shows_app_r, shows_refl.
    - apply shows_app_l. replace (j + S k)%nat with (S j + k)%nat by lia. apply IH. exact N. }
  specialize (G _ 1%nat _ N). unfold ecu_lines in G. cbn [Nat.add] in G.
  destruct (x_current e), (x_pending e); exact G.
Qed.
(** The name of the device and whether it is registered are shown; the ECU counts as that of a Secondary only if there is neither a device id nor a TLS credential. *)
Theorem C161_primary : forall n, n_device n <> None \/ n_ca n <> "" \/ n_cert n <> "" \/ n_pkey n <> "" ->
  shows (general n) [match n_device n with Some d => append "Device ID: " d | None => "Couldn't load device ID" end] /\
  shows (general n) [append "Provisioned on server: " (if n_registered n then "yes" else "no")] /\
  (forall p l, n_serials n = Some (p :: l) -> shows (general n) [append "Primary ECU serial ID: " (x_serial p); append "Primary ECU hardware ID: " (x_hw p)]).
Proof.
  intros n H. unfold general.
  assert (S1 : (negb match n_device n with Some _ => true | None => false end &&
    negb (negb (String.eqb (n_ca n) "") || negb (String.eqb (n_cert n) "") || negb (String.eqb (n_pkey n) "")) && (negb (String.eqb (n_pub n) "") && negb (String.eqb (n_priv n) "")))%bool = false).
  { destruct (n_device n); [reflexivity|]. destruct (String.eqb_spec (n_ca n) ""), (String.eqb_spec (n_cert n) ""), (String.eqb_spec (n_pkey n) ""); cbn; try reflexivity.
    destruct H as [H|[H|[H|H]]]; congruence. }
  rewrite S1. split; [|split].
  - apply shows_app_r. destruct (n_device n); apply shows_refl.
  - do 4 apply shows_app_l. apply shows_app_r. apply shows_refl.
  - intros p l ->. apply shows_app_l, shows_app_r. apply shows_refl.
Qed.
Definition some_ecu (s : string) : ecu_info := {| x_serial := s; x_hw := "hw"; x_current := Some ("abc", "fw.bin"); x_pending := None |}.
Example C161_case : let n := {| n_device := Some "d1"; n_ca := "ca"; n_cert := "ce"; n_pkey := "k"; n_pub := "p"; n_priv := "q"; n_director_root := None; n_image_root := ""; n_image_targets := "";
  n_director_targets := ""; n_snapshot := ""; n_timestamp := ""; n_delegations := Some []; n_registered := true; n_serials := Some [some_ecu "prim"; some_ecu "sec1"]; n_misconfigured := []; n_running := None; n_pending := None |} in
  general n = ["Device ID: d1"; "Primary ECU serial ID: prim"; "Primary ECU hardware ID: hw"; "Secondaries:"; "1) serial ID: sec1"; "   hardware ID: hw"; "   installed image hash: abc";
    "   installed image filename: fw.bin"; "Provisioned on server: yes"; "Fetched metadata: no"; "No currently running version on Primary ECU"].
Proof. reflexivity. Qed.

Print Assumptions C159_partial. Print Assumptions C159_name. Print Assumptions C159_pub. Print Assumptions C159_wait. Print Assumptions C159_refuted. Print Assumptions C159_name_refuted.
Print Assumptions C160_no_secret. Print Assumptions C161_secondaries. Print Assumptions C161_primary.
