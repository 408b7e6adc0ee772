(** The enumeration yields every target of a tree of non-terminating, non-empty roles at most four delegations deep. *)
From Verif Require Import Base Json TufModel TufSpec TufProofs TufProofs2 MetaStore RepoModel RepoSpec RepoProofs RepoProofs2
  RepoProofs3 RepoProofs4 RepoProofs5 RepoProofs6 RepoProofs8 ClientModel ClientSpec ClientProofs IterModel IterSpec.

Lemma hashes_complete E raw : forall l f, (forall h, In h l -> digest_matches E raw h) ->
  exists o, check_hashes E (canon E (parse E raw)) l f = Some o.
Proof.
  induction l as [|h l IH]; intros f Hd; simpl; [eauto|].
  assert (Hh := Hd h (or_introl eq_refl)). unfold digest_matches in Hh.
  destruct (h_type h) eqn:Ht;
    try (replace (hash_eqb _ h) with true; [|symmetry; apply hash_eqb_true; unfold mk_hash_t; destruct h; simpl in *; congruence]);
    apply IH; intros; apply Hd; now right.
Qed.
Lemma base_signed_complete E ks r j b : verifiable_role r -> acceptable E ks r j -> base_init j = Ok b ->
  base_of_json_signed (unpack_signed E ks) r j = Ok b.
Proof.
  intros Hv Ha Hb. apply unpack_signed_iff in Ha; auto. unfold base_of_json_signed. assert (Hb0 := Hb). unfold base_init in Hb.
  destruct (jis_object j); simpl in *; [|discriminate].
  apply bind_ok in Hb. destruct Hb as (m & Hm & Hb). rewrite Hm. simpl. destruct m; simpl in *; [|discriminate].
  rewrite Ha. exact Hb0.
Qed.
Lemma targets_signed_complete E ks r j t : verifiable_role r -> acceptable E ks r j -> targets_doc E (r_name r) j t ->
  targets_of_json_signed E (unpack_signed E ks) r j = Ok t.
Proof.
  intros Hv Ha (Hb & Ht). unfold targets_of_json_signed. rewrite (base_signed_complete E ks r j (tg_base t)); auto.
Qed.

Section Complete.
Context (E : Env) (srv : server) (sn : snapshot) (docs : string -> string) (root : dtree).
Hypothesis HA : authentic_tree E sn docs root.
Hypothesis HE : no_empty_role root.
Hypothesis HT : no_terminating root.
Hypothesis HS : serves_docs srv docs root.

Definition inv (s : ust) : Prop :=
  u_isnap s = sn /\ u_itargets s = Some (d_targets root) /\ stored_docs docs root (u_db s).

Definition edge (t : targets) (name : string) (c : dtree) : Prop :=
  is_reserved (to_lower name) = false /\ (exists b, aget name (tg_term t) = Some b) /\ nul_free (docs name) /\
  (forall h, In h (role_hashes sn name) -> digest_matches E (docs name) h) /\
  acceptable E (tg_ks t) {| r_kind := RDelegation; r_name := name |} (parse E (docs name)) /\
  targets_doc E name (parse E (docs name)) (d_targets c) /\
  extract_version_untrusted E (docs name) = Ok (role_version sn name) /\ tg_version (d_targets c) = role_version sn name /\
  authentic_tree E sn docs c.
Lemma gtd_ok t name c s : edge t name c -> In name (d_names root) -> inv s ->
  exists s', get_trusted_delegation E srv false name t s = (s', Ok (d_targets c)) /\ inv s'.
Proof.
  intros (_ & _ & Hn & Hh & Ha & Hd & Hv & Hver & _) Hin (I1 & I2 & I3).
  destruct (hashes_complete E (docs name) (role_hashes sn name) false Hh) as (o & Ho).
  assert (Hp := targets_signed_complete E (tg_ks t) {| r_kind := RDelegation; r_name := name |} _ _ (or_intror eq_refl) Ha Hd).
  unfold get_trusted_delegation, mbind, gets, lift. unfold load_delegation. rewrite I1.
  assert (Hhash : verify_role_hashes E sn (docs name) name = Ok tt) by (unfold verify_role_hashes; now rewrite Ho).
  destruct (I3 name Hin) as [Hs | Hs]; rewrite Hs.
  - unfold ret. cbn [String.eqb]. rewrite (HS name Hin). rewrite Hhash, Hp. cbv beta iota zeta.
    unfold guard. rewrite Hver, Z.eqb_refl. cbn [negb]. unfold write, modify, ret. cbv beta iota zeta. eexists. split; [reflexivity|].
    split; [exact I1|]. split; [exact I2|]. simpl. intros k Hk. unfold store_delegation; simpl.
    rewrite aget_app, aget_del. destruct (String.eqb_spec k name) as [->|Hne].
    + right. simpl. now rewrite String.eqb_refl.
    + destruct (I3 k Hk) as [-> | ->]; simpl; [|now right]. left. destruct (String.eqb_spec k name); [contradiction|reflexivity].
  - unfold bind. rewrite (nul_free_blob _ Hn). cbv beta iota zeta. rewrite Hv. cbv beta iota zeta. rewrite Z.ltb_irrefl. unfold ret.
    destruct (String.eqb_spec (docs name) "") as [He|_]; [destruct Hn; contradiction|]. rewrite Hhash, Hp. exists s. split; [reflexivity|]. split; auto.
Qed.

Lemma auth_edge d name c : authentic_tree E sn docs d -> In (name, c) (d_kids d) -> edge (d_targets d) name c.
Proof. intros H Hi. inversion H; subst. simpl in *. now apply H1. Qed.
Lemma auth_names d : authentic_tree E sn docs d -> tg_deleg (d_targets d) = map fst (d_kids d).
Proof. intros H. inversion H; auto. Qed.
Lemma names_kid d name c : In (name, c) (d_kids d) -> In name (d_names d) /\ incl (d_names c) (d_names d).
Proof.
  destruct d as [t kids]. simpl. intros Hi. split.
  - apply in_flat_map. exists (name, c). split; auto. now left.
  - intros x Hx. apply in_flat_map. exists (name, c). split; auto. now right.
Qed.

(** Where the iterator is in the tree. *)
Inductive chain : node -> list node -> dtree -> Prop :=
| ch_top nd : n_kids nd = [] \/ n_kids nd = tg_deleg (d_targets root) -> chain nd [] root
| ch_kid nd p up d sub : chain p up d -> nth_error (d_kids d) (n_idx nd) = Some (n_role nd, sub) ->
    n_kids nd = [] \/ n_kids nd = tg_deleg (d_targets sub) -> chain nd (p :: up) sub.
Lemma chain_facts nd up d : chain nd up d ->
  authentic_tree E sn docs d /\ no_empty_role d /\ no_terminating d /\ incl (d_names d) (d_names root) /\
  (n_kids nd = [] \/ n_kids nd = tg_deleg (d_targets d)).
Proof.
  induction 1 as [nd H|nd p up d sub H (A & B & C & D & _) Hn Hk].
  - split; auto. split; auto. split; auto. split; [apply incl_refl|auto].
  - apply nth_error_In in Hn. split; [apply (auth_edge _ _ _ A Hn)|]. destruct d as [t kids].
    inversion B as [? ? B1 B2]; inversion C as [? ? C1]; subst. simpl d_kids in Hn.
    split; [eauto|]. split; [apply (C1 _ _ Hn)|]. split; [|auto].
    eapply incl_tran; [apply (names_kid (Node t kids) (n_role nd) sub); exact Hn|exact D].
Qed.
Lemma fetch_ok nd up d : chain nd up d -> forall s, inv s -> exists s', fetch_path E srv (nd :: up) s = (s', Ok (Some (d_targets d))) /\ inv s'.
Proof.
  induction 1 as [nd H|nd p up d sub H IH Hn Hk]; intros s I.
  - exists s. split; auto. simpl. unfold gets. destruct I as (_ & -> & _). reflexivity.
  - destruct (IH s I) as (s1 & H1 & I1).
    change (fetch_path E srv (nd :: p :: up)) with (let* q := fetch_path E srv (p :: up) in
        match q with None => ret None | Some pt => match nth_error (tg_deleg pt) (n_idx nd) with None => ret None
          | Some name => let* r := lift (role_delegation name) in let* t := get_trusted_delegation E srv false (r_name r) pt in ret (Some t) end end).
    unfold mbind. rewrite H1. apply chain_facts in H. destruct H as (A & _ & _ & D & _).
    rewrite (auth_names _ A), nth_error_map, Hn. cbn [option_map fst]. apply nth_error_In in Hn.
    assert (Ed := auth_edge _ _ _ A Hn). unfold role_delegation. rewrite (proj1 Ed). unfold lift. cbn [r_name].
    destruct (gtd_ok _ _ _ s1 Ed (D _ (proj1 (names_kid _ _ _ Hn))) I1) as (s2 & H2 & I2). rewrite H2. exists s2. auto.
Qed.
Lemma renew_ok nd up d s : chain nd up d -> inv s -> exists s', renew E srv nd up s = (s', Ok (Some (Some (d_targets d)))) /\ inv s'.
Proof.
  intros H I. inversion H; subst.
  - exists s. split; auto. unfold renew, mbind, gets, ret. destruct I as (_ & -> & _). reflexivity.
  - destruct (fetch_ok _ _ _ H0 s I) as (s1 & H1' & I1). unfold renew, mbind. rewrite H1'.
    apply chain_facts in H0. destruct H0 as (A & _ & _ & D & _). apply nth_error_In in H1.
    assert (Ed := auth_edge _ _ _ A H1).
    destruct (gtd_ok _ _ _ s1 Ed (D _ (proj1 (names_kid _ _ _ H1))) I1) as (s2 & H3 & I2). rewrite H3. exists s2. auto.
Qed.

(** ** One step *)
Definition cont (f : nat) (n : option iter) : M walked := match n with None => ret Undefined | Some it => walk E srv f it end.
Definition prepend (l : list target) (p : ust * res walked) : ust * res walked :=
  (fst p, match snd p with Ok (Finished l') => Ok (Finished (l ++ l')) | o => o end).
Lemma prepend_app a b p : prepend a (prepend b p) = prepend (a ++ b) p.
Proof. destruct p as (s, [[l| |]|e]); unfold prepend; simpl; auto. now rewrite app_assoc. Qed.
Lemma prepend_nil p : prepend [] p = p. Proof. destruct p as (s, [[l| |]|e]); reflexivity. Qed.
Lemma walk_cons x W s : mbind W (fun w => ret (match w with Finished l => Finished (x :: l) | o => o end)) s = prepend [x] (W s).
Proof. unfold mbind, prepend, ret. destruct (W s) as (s', [[l| |]|e]); reflexivity. Qed.

Definition frame (nd : node) (t : targets) : node := {| n_role := n_role nd; n_idx := n_idx nd; n_kids := tg_deleg t |}.
Definition enter (nd : node) (up : list node) (t : targets) (cidx level : nat) (k : string) : iter :=
  {| i_cur := None; i_node := {| n_role := k; n_idx := cidx; n_kids := [] |}; i_up := frame nd t :: up;
     i_tidx := 0; i_cidx := 0; i_term := false; i_level := level + 1; i_end := false |}.
(** What happens once the targets of a role are exhausted. *)
Definition after (nd : node) (up : list node) (d : dtree) (cidx level f : nat) : M walked :=
  match nth_error (d_kids d) cidx with
  | Some (k, _) => walk E srv f (enter nd up (d_targets d) cidx level k)
  | None => match up with
            | [] => ret (Finished [])
            | p :: up' => let* c := renew E srv p up' in
                match c with
                | Some (Some t) => let* n := advance E srv up' p t (List.length (tg_targets t)) (n_idx nd + 1) false (level - 1) in cont f n
                | _ => ret Undefined
                end
            end
  end.
Lemma roles_of_ok l : Forall (fun n => is_reserved (to_lower n) = false) l -> roles_of l = Ok l.
Proof. induction 1 as [|n l H F IH]; simpl; auto. unfold role_delegation. rewrite H. simpl. rewrite IH. reflexivity. Qed.
Lemma kids_ok nd up d s : chain nd up d ->
  (if Nat.eqb (List.length (tg_deleg (d_targets d))) (List.length (n_kids nd)) then ret (n_kids nd)
   else lift (roles_of (tg_deleg (d_targets d)))) s = (s, Ok (tg_deleg (d_targets d))).
Proof.
  intros H. apply chain_facts in H. destruct H as (A & _ & _ & _ & Hk).
  assert (R : roles_of (tg_deleg (d_targets d)) = Ok (tg_deleg (d_targets d))).
  { apply roles_of_ok. rewrite (auth_names _ A). apply Forall_forall. intros n Hn. apply in_map_iff in Hn.
    destruct Hn as ((k, c) & <- & Hi). apply (auth_edge _ _ _ A Hi). }
  destruct Hk as [-> | ->].
  - simpl. destruct (tg_deleg (d_targets d)); [reflexivity|]. cbn [List.length Nat.eqb]. unfold lift. now rewrite R.
  - rewrite Nat.eqb_refl. reflexivity.
Qed.
Lemma walk_end f it s : i_end it = true -> walk E srv f it s = (s, Ok (Finished [])).
Proof. intros H. destruct f; simpl; rewrite H; reflexivity. Qed.
Lemma advance_after nd up d tidx cidx level f s : chain nd up d -> (List.length (tg_targets (d_targets d)) <= tidx + 1)%nat -> (level < 5)%nat ->
  (let* n := advance E srv up nd (d_targets d) tidx cidx false level in cont f n) s = after nd up d cidx level f s.
Proof.
  intros H Ht Hl. unfold after.
  assert (X : advance E srv up nd (d_targets d) tidx cidx false level s =
    match nth_error (d_kids d) cidx with
    | Some (k, _) => (s, Ok (Some (enter nd up (d_targets d) cidx level k)))
    | None => match up with
        | [] => (s, Ok (Some {| i_cur := Some (d_targets d); i_node := nd; i_up := up; i_tidx := tidx; i_cidx := cidx; i_term := false; i_level := level; i_end := true |}))
        | p :: up' => (let* c := renew E srv p up' in
            match c with
            | Some (Some t) => advance E srv up' p t (List.length (tg_targets t)) (n_idx nd + 1) false (level - 1)
            | _ => ret None end) s
        end
    end).
  { assert (Hk := kids_ok nd up d s H). assert (F := chain_facts _ _ _ H). destruct F as (A & _ & C & _).
    assert (L : Nat.ltb (tidx + 1) (List.length (tg_targets (d_targets d))) = false) by (apply Nat.ltb_ge; lia).
    assert (L2 : (false || Nat.leb kDelegationsMaxDepth level)%bool = false) by (rewrite Bool.orb_false_l; apply Nat.leb_gt; unfold kDelegationsMaxDepth; lia).
    assert (T : nth_error (tg_deleg (d_targets d)) cidx = option_map fst (nth_error (d_kids d) cidx)) by (rewrite (auth_names _ A); apply nth_error_map).
    destruct up as [|p up']; unfold advance; fold (advance E srv); rewrite L, L2; unfold mbind at 1; rewrite Hk; rewrite T;
    (destruct (nth_error (d_kids d) cidx) as [(k, sub)|] eqn:Hn; cbn [option_map fst]; [|reflexivity]);
    apply nth_error_In in Hn; assert (Ed := auth_edge _ _ _ A Hn); destruct Ed as (_ & (b & Hb) & _); rewrite Hb;
    inversion C as [t kids C1]; subst; simpl in *; destruct (C1 _ _ Hn) as (C2 & _); (destruct b; [contradiction|]); reflexivity. }
  unfold mbind at 1. rewrite X. destruct (nth_error (d_kids d) cidx) as [(k, sub)|]; [reflexivity|].
  destruct up as [|p up']; [apply walk_end; reflexivity|].
  unfold mbind. destruct (renew E srv p up' s) as (s1, [[[t|]|]|e]); reflexivity.
Qed.

(** ** The targets of one role *)
Lemma walk_role nd up d cidx level : chain nd up d -> (level < 5)%nat -> forall k i it s0 s f,
  i_cur it = Some (d_targets d) \/ i_cur it = None -> current E srv it s0 = (s, Ok (Some (Some (d_targets d)))) ->
  i_node it = nd -> i_up it = up -> i_tidx it = i -> i_cidx it = cidx -> i_term it = false -> i_level it = level -> i_end it = false ->
  (i + S k = List.length (tg_targets (d_targets d)))%nat ->
  walk E srv (S k + f) it s0 = prepend (skipn i (tg_targets (d_targets d))) (after nd up d cidx level f s).
Proof.
  intros Hc Hl. induction k as [|k IH]; intros i it s0 s f H0 H1 H2 H3 H4 H5 H6 H7 H8 Hlen.
  - cbn [Nat.add walk]. rewrite H8. unfold mbind at 1. unfold deref. rewrite H8. unfold mbind at 1. rewrite H1, H4.
    destruct (nth_error (tg_targets (d_targets d)) i) as [x|] eqn:Hx; [|apply nth_error_None in Hx; lia].
    unfold ret at 1. unfold mbind at 1. unfold next. cbn [set_cur i_end i_cur i_up i_node i_tidx i_cidx i_term i_level]. rewrite H8.
    unfold current. cbn [set_cur i_cur i_end i_up i_node i_tidx i_cidx i_term i_level]. unfold ret at 1. unfold mbind at 1. rewrite H2, H3, H4, H5, H6, H7.
    assert (Y := advance_after nd up d i cidx level f s Hc ltac:(lia) Hl). rewrite <- Y. clear Y.
    assert (Sk : skipn i (tg_targets (d_targets d)) = [x]).
    { clear -Hx Hlen. revert i Hx Hlen. induction (tg_targets (d_targets d)) as [|y l IH]; intros i Hx Hl; [destruct i; discriminate|].
      destruct i as [|i]; simpl in *; [inversion Hx; subst; destruct l; [reflexivity|simpl in Hl; lia]|]. apply IH; [exact Hx|lia]. }
    rewrite Sk. unfold mbind at 2. destruct (advance E srv up nd (d_targets d) i cidx false level s) as (s1, [[it2|]|e]); [|reflexivity..].
    rewrite walk_cons. reflexivity.
  - cbn [Nat.add walk]. rewrite H8. unfold mbind at 1. unfold deref. rewrite H8. unfold mbind at 1. rewrite H1, H4.
    destruct (nth_error (tg_targets (d_targets d)) i) as [x|] eqn:Hx; [|apply nth_error_None in Hx; lia].
    unfold ret at 1. unfold mbind at 1. unfold next. cbn [set_cur i_end i_cur i_up i_node i_tidx i_cidx i_term i_level]. rewrite H8.
    unfold current. cbn [set_cur i_cur i_end i_up i_node i_tidx i_cidx i_term i_level]. unfold ret at 1. unfold mbind at 1. rewrite H2, H3, H4, H5, H6, H7.
    assert (Ad : advance E srv up nd (d_targets d) i cidx false level s =
      (s, Ok (Some {| i_cur := Some (d_targets d); i_node := nd; i_up := up; i_tidx := i + 1; i_cidx := cidx; i_term := false; i_level := level; i_end := false |}))).
    { destruct up; unfold advance; fold (advance E srv); (replace (Nat.ltb (i + 1) _) with true by (symmetry; apply Nat.ltb_lt; lia)); reflexivity. }
    rewrite Ad. rewrite walk_cons.
    etransitivity; [apply f_equal; apply (IH (i + 1)%nat _ s s f); [now left|reflexivity..|lia]|].
    rewrite prepend_app. f_equal.
    clear -Hx. revert i Hx. induction (tg_targets (d_targets d)) as [|y l IHl]; intros i Hx; [destruct i; discriminate|].
    destruct i as [|i]; simpl in *; [inversion Hx; reflexivity|]. now apply IHl.
Qed.

(** ** Subtrees *)
Lemma after_frame nd up d cidx level f : after (frame nd (d_targets d)) up d cidx level f = after nd up d cidx level f.
Proof. reflexivity. Qed.
Lemma chain_frame nd up d : chain nd up d -> chain (frame nd (d_targets d)) up d.
Proof. intros H. inversion H; subst; [constructor|econstructor; eauto]; simpl; auto. Qed.
Lemma chain_enter nd up d cidx k sub : chain nd up d -> nth_error (d_kids d) cidx = Some (k, sub) ->
  chain {| n_role := k; n_idx := cidx; n_kids := [] |} (frame nd (d_targets d) :: up) sub.
Proof. intros H Hn. econstructor; [apply chain_frame; exact H|exact Hn|now left]. Qed.

Lemma walk_tree : forall n d, depth_at_most n d -> forall nd up level s, chain nd up d -> (level + n <= 4)%nat -> inv s ->
  exists s1, inv s1 /\ forall f, after nd up d 0 level (List.length (flat_map (fun k => preorder (snd k)) (d_kids d)) + f) s =
    prepend (flat_map (fun k => preorder (snd k)) (d_kids d)) (after nd up d (List.length (d_kids d)) level f s1).
Proof.
  induction n as [n IHn] using (well_founded_induction Wf_nat.lt_wf). intros d Hd nd up level s Hc Hl I.
  assert (G : forall ks pre s, d_kids d = pre ++ ks -> inv s ->
    exists s1, inv s1 /\ forall f, after nd up d (List.length pre) level (List.length (flat_map (fun k => preorder (snd k)) ks) + f) s =
      prepend (flat_map (fun k => preorder (snd k)) ks) (after nd up d (List.length (d_kids d)) level f s1)).
  { clear s I. induction ks as [|(k, sub) ks IHk]; intros pre s Hk I.
    - exists s. split; auto. intros f. rewrite Hk, app_nil_r. simpl. now rewrite prepend_nil.
    - assert (Hn : nth_error (d_kids d) (List.length pre) = Some (k, sub)) by (rewrite Hk, nth_error_app2, Nat.sub_diag; [reflexivity|lia]).
      assert (Hin : In (k, sub) (d_kids d)) by (eapply nth_error_In; eauto).
      inversion Hd as [n' t kids Hda]; subst. destruct (Hda _ _ Hin) as (m & -> & Hm). cbn [d_kids d_targets] in *.
      set (D := Node t kids) in *.
      set (nd' := {| n_role := k; n_idx := List.length pre; n_kids := [] |}).
      assert (Hc' : chain nd' (frame nd t :: up) sub) by (apply (chain_enter nd up D); auto).
      destruct (renew_ok nd' (frame nd t :: up) sub s Hc' I) as (s2 & Hr & I2).
      destruct (chain_facts _ _ _ Hc') as (_ & Bne & _).
      assert (Hlen : exists j, List.length (tg_targets (d_targets sub)) = Datatypes.S j).
      { inversion Bne as [t0 k0 Ht0]; subst. simpl. destruct (tg_targets t0); [contradiction|]. simpl. eauto. }
      destruct Hlen as (j & Hj).
      destruct (IHn m ltac:(lia) sub Hm nd' (frame nd t :: up) (level + 1)%nat s2 Hc' ltac:(lia) I2) as (s3 & I3 & H3).
      destruct (renew_ok (frame nd t) up D s3 (chain_frame _ _ _ Hc) I3) as (s4 & Hr4 & I4).
      destruct (IHk (pre ++ [(k, sub)]) s4) as (s5 & I5 & H5). { rewrite Hk, <- app_assoc. reflexivity. } { exact I4. }
      exists s5. split; [exact I5|]. intros f.
      cbn [flat_map snd]. rewrite app_length.
      assert (Pre : preorder sub = tg_targets (d_targets sub) ++ flat_map (fun k => preorder (snd k)) (d_kids sub)) by (destruct sub; reflexivity).
      rewrite Pre at 1. rewrite app_length. rewrite Hj.
      unfold after at 1. change (d_kids D) with kids. rewrite Hn.
      replace (Datatypes.S j + List.length (flat_map (fun k0 => preorder (snd k0)) (d_kids sub)) +
               List.length (flat_map (fun k0 => preorder (snd k0)) ks) + f)%nat
        with (Datatypes.S j + (List.length (flat_map (fun k0 => preorder (snd k0)) (d_kids sub)) +
               (List.length (flat_map (fun k0 => preorder (snd k0)) ks) + f)))%nat by lia.
      rewrite (walk_role nd' (frame nd t :: up) sub 0 (level + 1) Hc' ltac:(lia) j 0 (enter nd up (d_targets D) (List.length pre) level k) s s2);
        [|now right|exact Hr|reflexivity..|lia].
      rewrite H3. rewrite prepend_app. change (skipn 0 (tg_targets (d_targets sub))) with (tg_targets (d_targets sub)). rewrite <- Pre.
      rewrite <- prepend_app. f_equal.
      unfold after at 1. replace (nth_error (d_kids sub) (List.length (d_kids sub))) with (@None (string * dtree)) by (symmetry; now apply nth_error_None).
      unfold mbind at 1. rewrite Hr4.
      change (n_idx nd') with (List.length pre).
      replace (level + 1 - 1)%nat with level by lia.
      rewrite (advance_after (frame nd t) up D _ _ level _ s4 (chain_frame _ _ _ Hc)); [|lia|lia].
      change (frame nd t) with (frame nd (d_targets D)). rewrite after_frame.
      rewrite app_length in H5. cbn [List.length] in H5. apply H5. }
  destruct (G (d_kids d) [] s eq_refl I) as (s1 & I1 & H1). exists s1. auto.
Qed.

Theorem all_targets_complete s : depth_at_most 4 root -> inv s ->
  exists fuel s', all_targets E srv fuel s = (s', Ok (Finished (preorder root))).
Proof.
  intros Hd I.
  assert (Hc : chain top_node [] root) by (constructor; now left).
  destruct (walk_tree 4 root Hd top_node [] 0 s Hc ltac:(lia) I) as (s1 & I1 & H1).
  assert (Hlen : exists j, List.length (tg_targets (d_targets root)) = Datatypes.S j).
  { inversion HE as [t0 k0 Ht0]. simpl. destruct (tg_targets t0); [contradiction|]. simpl. eauto. }
  destruct Hlen as (j & Hj).
  exists (Datatypes.S j + (List.length (flat_map (fun k => preorder (snd k)) (d_kids root)) + 0))%nat.
  unfold all_targets, it_new, mbind, gets, ret. destruct I as (Ia & Ib & Ic). rewrite Ib.
  rewrite (walk_role top_node [] root 0 0 Hc ltac:(lia) j 0 _ s s); try reflexivity; [|now left|lia].
  rewrite H1, prepend_app. change (skipn 0 (tg_targets (d_targets root))) with (tg_targets (d_targets root)).
  unfold after. replace (nth_error (d_kids root) (List.length (d_kids root))) with (@None (string * dtree)) by (symmetry; now apply nth_error_None).
  exists s1. unfold prepend, ret. cbn [fst snd]. rewrite app_nil_r. destruct root; reflexivity.
Qed.
End Complete.
