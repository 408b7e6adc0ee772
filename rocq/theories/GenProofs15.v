(** What the commands publish: reading the changed documents. *)
From Verif Require RepoProofs8 ParseProofs.
From Verif Require Import Base Json TufModel TufSpec TufProofs MetaStore RepoModel RepoSpec RepoProofs RepoProofs4 GenModel GenSpec GenSpec2 GenProofs GenProofs2 GenProofs3 GenProofs4 GenProofs5 GenProofs7.

(** ** Lists of targets *)
Lemma target_name fn c t : target_of_json fn c = Ok t -> t_filename t = fn.
Proof.
  intros H. unfold target_of_json in H. apply bind_ok in H as (a & _ & H). apply bind_ok in H as (b & _ & H). apply bind_ok in H as (x & _ & H). apply bind_ok in H as (y & _ & H).
  apply bind_ok in H as (z & _ & H). apply bind_ok in H as (w & _ & H). injection H as <-. reflexivity.
Qed.
Lemma parse_list_in : forall l tl, parse_target_list l = Ok tl -> forall y, In y tl <-> exists n c, In (n, c) l /\ target_of_json n c = Ok y.
Proof.
  induction l as [|(n, c) l IH]; intros tl H y; cbn [parse_target_list] in H.
  - injection H as <-. split; [intros []|intros (? & ? & [] & _)].
  - apply bind_ok in H as (t & H1 & H). apply bind_ok in H as (ts & H2 & H). injection H as <-. cbn [In]. rewrite (IH ts H2 y). split.
    + intros [<-|(n' & c' & i & T)]; [exists n, c; auto|exists n', c'; auto].
    + intros (n' & c' & [e|i] & T); [injection e as <- <-; left; congruence|right; eauto].
Qed.
Lemma in_oput_iff k v l k' v' : increasing l = true -> (In (k', v') (oput k v l) <-> (k' = k /\ v' = v) \/ (In (k', v') l /\ k' <> k)).
Proof.
  intros H. pose proof (increasing_nodup _ H) as N. pose proof (increasing_nodup _ (oput_increasing k v l H)) as N'. split.
  - intros i. apply (in_aget _ _ _ N') in i. destruct (String.eqb_spec k' k) as [->|Ne].
    + rewrite aget_oput in i. left. split; congruence.
    + rewrite aget_oput_other in i by exact Ne. right. split; [now apply aget_in|exact Ne].
  - intros [(-> & ->)|(i & Ne)]; apply aget_in; [apply aget_oput|]. rewrite aget_oput_other by exact Ne. now apply in_aget.
Qed.
(** The members of a list of targets, which is null at first. *)
Definition members (ts : json) : list (string * json) := match ts with JObj l => l | _ => [] end.
Lemma tlist_iter ts : tlist_ok ts -> jiter ts = members ts.
Proof. intros [->|(l & -> & _)]; reflexivity. Qed.
Lemma members_plain ts : plain ts = true -> increasing (members ts) = true.
Proof. destruct ts; cbn [members]; try reflexivity. intros H. now apply plain_obj in H. Qed.
Lemma put_members name c ts ts' tl tl' : tlist_ok ts -> tlist_ok ts' -> plain ts = true -> jset name c ts = Ok ts' ->
  parse_target_list (jiter ts) = Ok tl -> parse_target_list (jiter ts') = Ok tl' ->
  exists x, target_of_json name c = Ok x /\ forall y, In y tl' <-> y = x \/ (In y tl /\ t_filename y <> name).
Proof.
  intros T T' P S L L'. rewrite tlist_iter in L, L' by assumption.
  assert (M : members ts' = oput name c (members ts)) by (apply jset_obj in S as (l & -> & [->|(-> & ->)]); reflexivity). rewrite M in L'.
  pose proof (parse_list_in _ _ L) as A. pose proof (parse_list_in _ _ L') as B.
  assert (exists x, target_of_json name c = Ok x) as (x & X).
  { assert (i : In (name, c) (oput name c (members ts))) by (apply in_oput_iff; [now apply members_plain|now left]). clear -i L'. revert tl' L'. generalize dependent (oput name c (members ts)).
    intros l. induction l as [|(n, j) l IH]; intros i tl' L'; [destruct i|]. cbn [parse_target_list] in L'. apply bind_ok in L' as (t & H1 & H). apply bind_ok in H as (ts' & H2 & H).
    destruct i as [e|i]; [injection e as -> ->; eauto|]. eapply IH; eauto. }
  exists x. split; [exact X|]. intros y. rewrite B. split.
  - intros (n & j & i & Y). apply in_oput_iff in i as [(-> & ->)|(i & Ne)]; [left; congruence| |now apply members_plain].
    right. split; [apply A; eauto|]. now rewrite (target_name _ _ _ Y).
  - intros [->|(i & Ne)]; [exists name, c; split; [apply in_oput_iff; [now apply members_plain|now left]|exact X]|]. apply A in i as (n & j & i & Y). exists n, j. split; [|exact Y].
    apply in_oput_iff; [now apply members_plain|]. right. split; [exact i|]. now rewrite (target_name _ _ _ Y) in Ne.
Qed.

(** ** A description, its changes and what is read from it *)
(** What is read from "custom". *)
Definition read_type (c : list (string * json)) : res string := match aget "targetFormat" c with Some j => jas_string j | None => Ok "" end.
Lemma read_target fn l t : target_of_json fn (JObj l) = Ok t ->
  jas_uint64 (get "length" l) = Ok (t_length t) /\ (exists hs, parse_hashes (jiter (get "hashes" l)) [] = Ok hs /\ t_hashes t = sort_hashes hs) /\
  t_custom t = get "custom" l /\ t_valid t = true /\ t_corr t = "" /\
  match get "custom" l with
  | JObj c => parse_hwids (jiter (get "hardwareIds" c)) [] = Ok (t_hwids t) /\ parse_ecus (jiter (get "ecuIdentifiers" c)) [] = Ok (t_ecus t) /\ read_type c = Ok (t_type t) /\
      match aget "uri" c with Some j => exists u, jas_string j = Ok u /\ t_uri t = (if String.eqb u "https://example.com/" then "" else u) | None => t_uri t = "" end
  | _ => t_hwids t = [] /\ t_ecus t = [] /\ t_type t = "" /\ t_uri t = ""
  end.
Proof.
  unfold target_of_json. rewrite jmember_get, !jget_obj. cbn [bind]. intros H. apply bind_ok in H as (t0 & H0 & H). apply bind_ok in H as (len & H1 & H). apply bind_ok in H as (hs & H2 & H).
  injection H as <-. cbn [t_length t_hashes t_custom t_valid t_corr t_hwids t_ecus t_type t_uri]. split; [exact H1|]. split; [eauto|]. unfold get at 1 2. unfold get in H0.
  destruct (aget "custom" l) as [c|]; [|injection H0 as <-; cbn; repeat split].
  cbn [bind] in H0. destruct c as [|b|z|n dd tx|s|a|c]; try discriminate H0; [injection H0 as <-; cbn; repeat split|].
  unfold update_custom in H0. rewrite !jmember_get, !jget_obj in H0. cbn [bind target_blank t_hwids t_ecus t_type t_uri] in H0.
  apply bind_ok in H0 as (hw & A & H0). apply bind_ok in H0 as (ecus & B & H0). apply bind_ok in H0 as (ty & C & H0). apply bind_ok in H0 as (uri & D & H0). injection H0 as <-.
  cbn [t_custom t_hwids t_ecus t_type t_uri]. split; [reflexivity|]. split; [reflexivity|]. split; [reflexivity|].
  unfold get in A, C, D |- *. unfold read_type.
  split; [destruct (aget "hardwareIds" c); [exact A|cbn; congruence]|]. split; [exact B|]. split; [destruct (aget "targetFormat" c); [exact C|congruence]|].
  destruct (aget "uri" c) as [u|]; [|congruence]. cbn [bind] in D. apply bind_ok in D as (x & D & e). exists x. split; [exact D|congruence].
Qed.

(** ** Images *)
Section Read.
Context (E : Env).
Lemma read_binary content url hw name c x : Z.of_nat (String.length content) <= max_uint64 -> (String.length hw <= 200)%nat ->
  jmod "custom" (jmod "hardwareIds" (jset0 (JStr hw))) (binary_target E content url) = Ok c -> target_of_json name c = Ok x -> describes E x content name hw url.
Proof.
  intros L Lh H T. assert (exists cu, c = JObj [("custom", JObj cu); ("hashes", JObj [("sha256", JStr (lower_hex (sha256hex E content))); ("sha512", JStr (lower_hex (sha512hex E content)))]); ("length", JInt (Z.of_nat (String.length content)))] /\
    cu = ("hardwareIds", JArr [JStr hw]) :: ("targetFormat", JStr "BINARY") :: (if String.eqb url "" then [] else [("uri", JStr url)])) as (cu & -> & Hcu).
  { unfold binary_target in H. destruct (String.eqb url ""); cbn in H; injection H as <-; eexists; split; reflexivity. }
  pose proof (target_name _ _ _ T) as N. apply read_target in T as (A & (hs & B & B') & _ & _ & _ & F). cbn [get aget String.eqb Ascii.eqb Bool.eqb] in A, B, F. subst cu.
  cbn in B. injection B as <-. destruct F as (F1 & F2 & F3 & F4). assert (F5 : t_ecus x = []) by (destruct (String.eqb url ""); cbn in F2; congruence). cbn in F1, F3, F4.
  assert (Hh : hw_id hw = Ok hw) by now apply hwid_short. rewrite Hh in F1. cbn in F1. constructor; try congruence.
  - rewrite B'. unfold mk_hash, lower_hex. rewrite !upper_lower. reflexivity.
  - unfold jas_uint64, jas_range, in_range in A. destruct (_ && _); [|discriminate]. congruence.
  - unfold shown_url. destruct (String.eqb_spec url "") as [->|]; cbn in F4.
    + exact F4.
    + destruct F4 as (u & e & F4). injection e as <-. exact F4.
Qed.
Lemma hwids_grow : forall l acc r, parse_hwids l acc = Ok r -> forall h, In h acc -> In h r.
Proof.
  induction l as [|(k, j) l IH]; intros acc r H h i; cbn [parse_hwids] in H; [congruence|]. apply bind_ok in H as (s & _ & H). apply bind_ok in H as (x & _ & H).
  eapply IH; [exact H|]. apply in_or_app. now left.
Qed.
Lemma read_custom h len url custom hw t name c x : 0 <= len < uint_mod -> (String.length hw <= 200)%nat -> custom_target h len url custom = Ok t ->
  jmod "custom" (jmod "hardwareIds" (jset0 (JStr hw))) t = Ok c -> target_of_json name c = Ok x -> describes_digest x h len name hw url.
Proof.
  intros L Lh H0 H T. apply bind_ok in H0 as (c0 & H0 & e). injection e as <-.
  pose proof (target_name _ _ _ T) as N. apply jmod_obj in H as (l & v & -> & Hv & Hl). destruct Hl as [e|(e & _)]; [|discriminate]. injection e as <-.
  cbn [oput String.eqb Ascii.eqb Bool.eqb] in T. cbn [get aget String.eqb Ascii.eqb Bool.eqb] in Hv.
  apply jmod_obj in Hv as (cl & hj & -> & Hj & Hcl).
  apply read_target in T as (A & (hs & B & B') & _ & _ & _ & F). cbn [get aget String.eqb Ascii.eqb Bool.eqb] in F. destruct F as (F1 & _). rewrite get_oput in F1.
  constructor; [exact N| | |].
  - rewrite B'. revert B. destruct h as [ht hv]. destruct ht; cbn; intros B; injection B as <-; reflexivity.
  - assert (Lx : get "length" (("custom", JObj (oput "hardwareIds" hj cl)) :: match h_type h with Sha256 => [("hashes", JObj [("sha256", JStr (h_val h))])] | Sha512 => [("hashes", JObj [("sha512", JStr (h_val h))])] | HUnknown => [] end ++ [("length", JInt (len mod uint_mod))]) = JInt (len mod uint_mod)) by (destruct (h_type h); reflexivity).
    unfold lower_hex in A. change (_ ++ _) with (match h_type h with Sha256 => [("hashes", JObj [("sha256", JStr (h_val h))])] | Sha512 => [("hashes", JObj [("sha512", JStr (h_val h))])] | HUnknown => [] end ++ [("length", JInt (len mod uint_mod))]) in A.
    rewrite Lx in A. unfold jas_uint64, jas_range, in_range in A. destruct (_ && _); [|discriminate]. rewrite Z.mod_small in A by exact L. congruence.
  - assert (exists r, hj = JArr (JStr hw :: r)) as (r & ->).
    { destruct (get "hardwareIds" cl) as [|b|z|a b c|s|la|lo]; try discriminate Hj; [injection Hj as <-; eauto|]. destruct la; injection Hj as <-; eauto. }
    cbn [jiter index_from parse_hwids jas_string bind] in F1. assert (Hh : hw_id hw = Ok hw) by now apply hwid_short. rewrite Hh in F1. cbn [bind app] in F1.
    eapply hwids_grow; [exact F1|now left].
Qed.

(** ** Assignments *)
Definition ecu_hw (j : json) : option string := match (do hj <- jget "hardwareId" j; do hs <- jas_string hj; hw_id hs) with Ok h => Some h | Throw _ => None end.
Lemma parse_ecus_get : forall l acc m, parse_ecus l acc = Ok m -> forall s, aget s m = match aget s acc with Some h => Some h | None => match aget s l with Some j => ecu_hw j | None => None end end.
Proof.
  induction l as [|(k, j) l IH]; intros acc m H s; cbn [parse_ecus] in H; [injection H as <-; cbn; now destruct (aget s acc)|].
  apply bind_ok in H as (e & He & H). apply bind_ok in H as (hj & H1 & H). apply bind_ok in H as (hs & H2 & H). apply bind_ok in H as (h & H3 & H).
  assert (e = k) as -> by (unfold ecu_serial in He; destruct (Nat.ltb _ _); [discriminate|]; destruct (Nat.ltb _ _); [discriminate|congruence]).
  rewrite (IH _ _ H s). cbn [aget]. unfold ecu_insert. destruct (aget k acc) as [h0|] eqn:G.
  - destruct (aget s acc) as [h1|] eqn:G1; [reflexivity|]. destruct (String.eqb_spec s k) as [->|]; [congruence|reflexivity].
  - rewrite RepoProofs8.aget_app. destruct (aget s acc) as [h1|] eqn:G1; [reflexivity|]. cbn [aget]. destruct (String.eqb_spec s k) as [->|]; [|reflexivity].
    unfold ecu_hw. rewrite H1. cbn [bind]. rewrite H2. cbn [bind]. now rewrite H3.
Qed.
Lemma ecus_unique l m : parse_ecus l [] = Ok m -> NoDup (map fst m).
Proof. intros H. apply (ParseProofs.parse_ecus_spec _ _ _ H). constructor. Qed.
Lemma read_assigned t hw serial url c name i x : (String.length hw <= 200)%nat -> t <> JNull -> good_target t -> director_target t hw serial url = Ok c ->
  target_of_json name t = Ok i -> target_of_json name c = Ok x -> assigns x i serial hw url.
Proof.
  intros Lh Nt G H Ti Tx. destruct t as [|b|z|a b0 c1|s|la|l]; try contradiction.
  pose proof (target_name _ _ _ Ti) as Ni. pose proof (target_name _ _ _ Tx) as Nx.
  apply bind_ok in H as (a & H1 & H). apply bind_ok in H as (b & H2 & H).
  apply jmod_obj in H1 as (l1 & v1 & -> & V1 & [e|(e & _)]); [injection e as <-|discriminate].
  apply jmod_obj in H2 as (l2 & v2 & -> & V2 & [e|(e & _)]); [injection e as <-|discriminate]. rewrite get_oput in V2.
  assert (exists v3, c = JObj (oput "custom" v3 (oput "custom" v2 (oput "custom" v1 l))) /\ (if String.eqb url "" then jremove "uri" v2 else jset "uri" (JStr url) v2) = Ok v3) as (v3 & -> & V3).
  { destruct (String.eqb url ""); apply jmod_obj in H as (l3 & v3 & -> & V3 & [e|(e & _)]); try discriminate; injection e as <-; rewrite get_oput in V3; eauto. }
  apply read_target in Ti as (A & (hs & B & B') & _ & _ & _ & F). apply read_target in Tx as (A2 & (hs2 & B2 & B2') & _ & _ & _ & F2).
  rewrite !get_oput_other in A2, B2 by discriminate. rewrite A in A2. rewrite B in B2. rewrite get_oput in F2.
  apply jmod_obj in V2 as (cl & ej & -> & V2 & Hcl). apply jmod_obj in V2 as (el & sv & -> & V2 & Hel).
  assert (exists fl, v3 = JObj fl /\ (forall k, k <> "uri" -> aget k fl = aget k (oput "ecuIdentifiers" (JObj (oput serial sv el)) cl)) /\
    aget "uri" fl = if String.eqb url "" then None else Some (JStr url)) as (fl & -> & Hfl & Hur).
  { destruct (String.eqb url ""); [injection V3 as <-|injection V3 as <-]; eexists; (split; [reflexivity|]); (split; [intros k Nk|]).
    - rewrite aget_odel. now apply String.eqb_neq in Nk as ->.
    - rewrite aget_odel. reflexivity.
    - now apply aget_oput_other.
    - apply aget_oput. }
  unfold get, read_type in F2. rewrite !Hfl in F2 by discriminate. rewrite aget_oput, !aget_oput_other in F2 by discriminate. rewrite Hur in F2. destruct F2 as (F2a & F2b & F2c & F2d).
  assert (HM : (forall k, k <> "hardwareIds" -> aget k cl = match get "custom" l with JObj m => aget k m | _ => None end) /\ aget "hardwareIds" cl = None).
  { destruct (get "custom" l) as [|q|q|q r1 r2|q|q|m]; try discriminate V1; injection V1 as <-.
    - destruct Hcl as [e|(_ & ->)]; [discriminate e|]. split; auto.
    - destruct Hcl as [e|(e & _)]; [injection e as <-|discriminate]. split; [intros k Nk; rewrite aget_odel; now apply String.eqb_neq in Nk as ->|]. rewrite aget_odel. now rewrite String.eqb_refl. }
  destruct HM as (HM1 & HM2). rewrite HM2 in F2a. rewrite HM1 in F2c by discriminate. cbn in F2a.
  assert (Ex : forall s, aget s (t_ecus i) = match aget s el with Some j => ecu_hw j | None => None end).
  { intros s. destruct Hel as [e|(e & ->)].
    - unfold get in e. rewrite HM1 in e by discriminate. destruct (get "custom" l) as [|q|q|q r1 r2|q|q|m]; try discriminate e.
      destruct F as (_ & Fe & _). unfold get in Fe. rewrite e in Fe. exact (parse_ecus_get _ _ _ Fe s).
    - unfold get in e. rewrite HM1 in e by discriminate. destruct (get "custom" l) as [|q|q|q r1 r2|q|q|m]; try (destruct F as (_ & -> & _); reflexivity).
      destruct F as (_ & Fe & _). unfold get in Fe. rewrite e in Fe. cbn in Fe. injection Fe as <-. reflexivity. }
  assert (NDx : NoDup (map fst (t_ecus x))) by exact (ecus_unique _ _ F2b).
  assert (NDi : NoDup (map fst (t_ecus i))) by (destruct (get "custom" l) as [|q|q|q r1 r2|q|q|m]; try (destruct F as (_ & -> & _); constructor); destruct F as (_ & Fe & _); exact (ecus_unique _ _ Fe)).
  assert (GE : forall s, aget s (t_ecus x) = if String.eqb s serial then Some hw else aget s (t_ecus i)).
  { intros s. cbn [jiter] in F2b. rewrite (parse_ecus_get _ _ _ F2b s). cbn [aget]. rewrite Ex. destruct (String.eqb_spec s serial) as [->|Ns].
    + rewrite aget_oput. apply jset_obj in V2 as (hl & -> & _). unfold ecu_hw. rewrite jget_obj, get_oput. cbn [bind jas_string]. assert (Hh : hw_id hw = Ok hw) by now apply hwid_short. now rewrite Hh.
    + now rewrite aget_oput_other. }
  constructor; [congruence| | | | | |exact NDx|].
  - rewrite B', B2'. congruence.
  - congruence.
  - destruct (get "custom" l) as [|q|q|q r1 r2|q|q|m]; try (destruct F as (_ & _ & -> & _); congruence). destruct F as (_ & _ & Ft & _). unfold read_type in Ft. congruence.
  - congruence.
  - intros s h. split.
    + intros Hi. apply in_aget in Hi; [|exact NDx]. rewrite GE in Hi. destruct (String.eqb_spec s serial) as [->|Ns]; [left; split; congruence|right]. split; [exact Ns|now apply aget_in].
    + intros [(-> & ->)|(Ns & Hi)]; apply aget_in; rewrite GE; [now rewrite String.eqb_refl|]. apply String.eqb_neq in Ns as ->. now apply in_aget.
  - unfold shown_url. destruct (String.eqb_spec url "") as [->|]; cbn in F2d; [exact F2d|]. destruct F2d as (u & e & F2d). injection e as <-. exact F2d.
Qed.
End Read.
