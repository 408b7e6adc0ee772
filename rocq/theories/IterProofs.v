(** Proofs about the enumeration of all targets. *)
From Verif Require Import Base Json TufModel TufSpec TufProofs TufProofs2 MetaStore RepoModel RepoSpec RepoProofs RepoProofs2
  RepoProofs3 RepoProofs4 RepoProofs5 RepoProofs6 RepoProofs8 ClientModel ClientSpec ClientProofs IterModel IterSpec.

(** ** Soundness *)
Section Sound.
Context (E : Env) (srv : server).

Lemma fetch_path_spec : forall path s s' r, fetch_path E srv path s = (s', r) -> only_deleg s s' /\
  forall t, r = Ok (Some t) -> exists top, u_itargets s = Some top /\ reached E (u_isnap s) top (List.length path - 1) t.
Proof.
  induction path as [|nd rest IH]; intros s s' r H.
  - inversion H; subst. split; [apply od_refl|discriminate].
  - destruct rest as [|p rest].
    + simpl in H. unfold gets in H. inversion H; subst. split; [apply od_refl|]. intros t Ht. inversion Ht. exists t. split; auto. constructor.
    + change (fetch_path E srv (nd :: p :: rest)) with (let* q := fetch_path E srv (p :: rest) in
        match q with None => ret None | Some pt => match nth_error (tg_deleg pt) (n_idx nd) with None => ret None
          | Some name => let* r := lift (role_delegation name) in let* t := get_trusted_delegation E srv false (r_name r) pt in ret (Some t) end end) in H.
      apply mbind_inv in H. destruct H as [(s1 & q & H1 & H) | (e & H1 & ->)].
      2:{ apply IH in H1. split; [apply H1|discriminate]. }
      apply IH in H1. destruct H1 as (O1 & F1). destruct q as [pt|]; [|inversion H; subst; split; [exact O1|discriminate]].
      destruct (nth_error _ _) as [name|]; [|inversion H; subst; split; [exact O1|discriminate]].
      apply lift_inv in H. destruct H as [(rl & Hrl & H) | (e & _ & -> & ->)]; [|split; [exact O1|discriminate]].
      apply mbind_inv in H. destruct H as [(s2 & c & H2 & H) | (e & H2 & ->)].
      2:{ split; [eapply od_trans; [exact O1|eapply od_trusted; eauto]|discriminate]. }
      assert (O2 := od_trusted _ _ _ _ _ _ _ _ H2). apply trusted_spec in H2. inversion H; subst; clear H.
      split; [eapply od_trans; eauto|]. intros t Ht. inversion Ht; subst t. clear Ht.
      destruct (F1 pt eq_refl) as (top & Ht & Hr). exists top. split; auto.
      simpl in Hr |- *. rewrite Nat.sub_0_r in Hr. econstructor; [exact Hr|].
      assert (Hs : u_isnap s1 = u_isnap s) by apply O1. rewrite Hs in H2. exact H2.
Qed.
Lemma renew_spec nd up s s' r : renew E srv nd up s = (s', r) -> only_deleg s s' /\
  forall t, r = Ok (Some (Some t)) -> exists top, u_itargets s = Some top /\ reached E (u_isnap s) top (List.length up) t.
Proof.
  unfold renew. intros H. destruct up as [|p up].
  - unfold gets, mbind, ret in H. inversion H; subst. split; [apply od_refl|]. intros t Ht. inversion Ht. exists t. split; auto. constructor.
  - apply mbind_inv in H. destruct H as [(s1 & q & H1 & H) | (e & H1 & ->)].
    2:{ apply fetch_path_spec in H1. split; [apply H1|discriminate]. }
    apply fetch_path_spec in H1. destruct H1 as (O1 & F1). destruct q as [pt|]; [|inversion H; subst; split; [exact O1|discriminate]].
    apply mbind_inv in H. destruct H as [(s2 & c & H2 & H) | (e & H2 & ->)].
    2:{ split; [eapply od_trans; [exact O1|eapply od_trusted; eauto]|discriminate]. }
    assert (O2 := od_trusted _ _ _ _ _ _ _ _ H2). apply trusted_spec in H2. inversion H; subst; clear H.
    split; [eapply od_trans; eauto|]. intros t Ht. inversion Ht; subst t. clear Ht.
    destruct (F1 pt eq_refl) as (top & Ht & Hr). exists top. split; auto.
    simpl in Hr |- *. rewrite Nat.sub_0_r in Hr. econstructor; [exact Hr|].
    assert (Hs : u_isnap s1 = u_isnap s) by apply O1. rewrite Hs in H2. exact H2.
Qed.

Definition sound_at (s : ust) (it : iter) : Prop :=
  i_level it = List.length (i_up it) /\ (i_level it <= 5)%nat /\
  forall t, i_cur it = Some t -> exists top, u_itargets s = Some top /\ reached E (u_isnap s) top (List.length (i_up it)) t.
Lemma sound_od s s' it : only_deleg s s' -> sound_at s it -> sound_at s' it.
Proof. intros O (A & B & C). destruct O as (_ & _ & _ & _ & _ & _ & O1 & O2). split; auto. split; auto. now rewrite O1, O2. Qed.

Lemma current_spec it s s' r : current E srv it s = (s', r) -> sound_at s it -> only_deleg s s' /\
  forall t, r = Ok (Some (Some t)) -> exists top, u_itargets s = Some top /\ reached E (u_isnap s) top (List.length (i_up it)) t.
Proof.
  unfold current. intros H (_ & _ & S). destruct (i_cur it) as [c|] eqn:Hc.
  - inversion H; subst. split; [apply od_refl|]. intros t Ht. inversion Ht; subst. now apply S.
  - now apply renew_spec in H.
Qed.
Lemma deref_spec it s s' it' x : deref E srv it s = (s', Ok (Some (it', x))) -> sound_at s it ->
  only_deleg s s' /\ sound_at s' it' /\ exists top t, u_itargets s = Some top /\ reached E (u_isnap s) top (List.length (i_up it)) t /\ In x (tg_targets t).
Proof.
  unfold deref. intros H S. destruct (i_end it); [discriminate|].
  apply mbind_inv in H. destruct H as [(s1 & c & H1 & H) | (e & _ & H)]; [|discriminate].
  apply current_spec in H1; auto. destruct H1 as (O & F).
  destruct c as [[t|]|]; [|discriminate|discriminate]. destruct (nth_error _ _) as [y|] eqn:Hn; [|discriminate].
  inversion H; subst; clear H. destruct (F t eq_refl) as (top & Ht & Hr). split; auto. split.
  - destruct S as (A & B & _). split; [exact A|]. split; [exact B|]. simpl. intros t' Ht'. inversion Ht'; subst.
    destruct O as (_ & _ & _ & _ & _ & _ & O1 & O2). rewrite O1, O2. eauto.
  - exists top, t. split; auto. split; auto. eapply nth_error_In; eauto.
Qed.
Lemma advance_spec : forall up nd cur tidx cidx term level s s' r, advance E srv up nd cur tidx cidx term level s = (s', r) ->
  (level = List.length up)%nat -> (level <= 5)%nat ->
  (exists top, u_itargets s = Some top /\ reached E (u_isnap s) top (List.length up) cur) ->
  only_deleg s s' /\ forall it, r = Ok (Some it) -> sound_at s' it.
Proof.
  induction up as [|p up IH]; intros nd cur tidx cidx term level s s' r H L1 L2 S; unfold advance in H; fold (advance E srv) in H;
  (destruct (Nat.ltb _ _);
   [inversion H; subst; split; [apply od_refl|]; intros it Hi; inversion Hi; subst; split; auto; split; auto; simpl; intros t Ht; inversion Ht; subst; exact S|]);
  (destruct (term || Nat.leb kDelegationsMaxDepth level)%bool eqn:Hterm;
   [inversion H; subst; split; [apply od_refl|]; intros it Hi; inversion Hi; subst; split; auto; split; auto; simpl; intros t Ht; inversion Ht; subst; exact S|]);
  apply Bool.orb_false_iff in Hterm; destruct Hterm as (_ & Hlv); apply Nat.leb_gt in Hlv; unfold kDelegationsMaxDepth in Hlv;
  (apply mbind_inv in H; destruct H as [(s1 & kids & H1 & H) | (e & H1 & ->)];
   [|destruct (Nat.eqb _ _); inversion H1; subst; split; [apply od_refl|discriminate]]);
  (assert (s1 = s) by (destruct (Nat.eqb _ _); inversion H1; auto); subst s1; clear H1);
  (destruct (nth_error kids cidx) as [k|];
   [destruct (aget k (tg_term cur)) as [tm|]; inversion H; subst; (split; [apply od_refl|]); [|discriminate];
    intros it Hi; inversion Hi; subst; split; [simpl; lia|]; split; [simpl in *; lia|simpl; discriminate]|]).
  - inversion H; subst. split; [apply od_refl|]. intros it Hi. inversion Hi; subst. split; auto. split; auto. simpl. intros t Ht; inversion Ht; subst; exact S.
  - apply mbind_inv in H. destruct H as [(s1 & c & H1 & H) | (e & H1 & ->)].
    2:{ apply renew_spec in H1. split; [apply H1|discriminate]. }
    apply renew_spec in H1. destruct H1 as (O & F).
    destruct c as [[t|]|]; [|inversion H; subst; split; [exact O|discriminate]..].
    destruct (F t eq_refl) as (top & Ht & Hr).
    apply IH in H; [|simpl in L1; lia|simpl in L1; lia|].
    + destruct H as (O2 & G). split; [eapply od_trans; eauto|exact G].
    + destruct O as (_ & _ & _ & _ & _ & _ & O1 & O2). rewrite O1, O2. eauto.
Qed.
Lemma next_spec it s s' it' : next E srv it s = (s', Ok (Some it')) -> sound_at s it -> only_deleg s s' /\ sound_at s' it'.
Proof.
  unfold next. intros H S. destruct (i_end it). { inversion H; subst. split; [apply od_refl|auto]. }
  apply mbind_inv in H. destruct H as [(s1 & c & H1 & H) | (e & _ & H)]; [|discriminate].
  assert (S0 := S). apply current_spec in H1; auto. destruct H1 as (O & F). destruct c as [[t|]|]; [|discriminate|discriminate].
  destruct (F t eq_refl) as (top & Ht & Hr). destruct S as (A & B & _).
  apply advance_spec in H; auto.
  - destruct H as (O2 & G). split; [eapply od_trans; eauto|auto].
  - destruct O as (_ & _ & _ & _ & _ & _ & O1 & O2). rewrite O1, O2. eauto.
Qed.
Lemma new_sound s s' b it : it_new b s = (s', Ok it) -> s' = s /\ sound_at s it.
Proof.
  unfold it_new, mbind, gets, ret. intros H. inversion H; subst. split; auto. split; auto. split; [simpl; lia|].
  simpl. intros t Ht. exists t. split; auto. constructor.
Qed.
Theorem visits_sound s0 s b it l s' it' : it_new b s0 = (s, Ok it) -> visits E srv s it l s' it' ->
  only_deleg s0 s' /\ forall x, In x l -> exists top n t, u_itargets s0 = Some top /\ (n <= 5)%nat /\ reached E (u_isnap s0) top n t /\ In x (tg_targets t).
Proof.
  intros Hn V. apply new_sound in Hn. destruct Hn as (-> & S0).
  assert (X : only_deleg s0 s' /\ sound_at s' it' /\ forall x, In x l -> exists top n t, u_itargets s0 = Some top /\ (n <= 5)%nat /\ reached E (u_isnap s0) top n t /\ In x (tg_targets t)); [|tauto].
  induction V as [|l s1 it1 s2 it2 x V IH D|l s1 it1 s2 it2 V IH N].
  - split; [apply od_refl|]. split; auto. intros x [].
  - destruct IH as (O & S & F). assert (L := proj2 S). apply deref_spec in D; auto. destruct D as (O2 & S2 & top & t & Ht & Hr & Hi).
    split; [eapply od_trans; eauto|]. split; auto. intros y Hy. apply in_app_or in Hy. destruct Hy as [Hy | [<- | []]]; auto.
    destruct O as (_ & _ & _ & _ & _ & _ & O1 & O3). rewrite O1 in Hr. rewrite O3 in Ht.
    exists top, (List.length (i_up it1)), t. split; auto. split; [|auto]. destruct S as (A & B & _). lia.
  - destruct IH as (O & S & F). apply next_spec in N; auto. destruct N as (O2 & S2). split; [eapply od_trans; eauto|]. auto.
Qed.
End Sound.
