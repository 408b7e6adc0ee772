From Verif Require Import Base Json TufModel TufSpec TufProofs MetaStore RepoModel RepoSpec.

(** ** Inversion of the monad *)
Lemma mbind_inv {A B} (m : M A) (k : A -> M B) s s' r :
  mbind m k s = (s', r) ->
  (exists s1 a, m s = (s1, Ok a) /\ k a s1 = (s', r)) \/ (exists e, m s = (s', Throw e) /\ r = Throw e).
Proof.
  unfold mbind. destruct (m s) as [s1 [a|e]]; intros H.
  - left; eauto.
  - right. inversion H; subst; eauto.
Qed.

Lemma lift_inv {A B} (m : res A) (k : A -> M B) s s' r :
  mbind (lift m) k s = (s', r) ->
  (exists a, m = Ok a /\ k a s = (s', r)) \/ (exists e, m = Throw e /\ s' = s /\ r = Throw e).
Proof. unfold mbind, lift. destruct m; intros H; [left; eauto | right; inversion H; subst; eauto]. Qed.
Lemma gets_inv {A B} (f : ust -> A) (k : A -> M B) s s' r :
  mbind (gets f) k s = (s', r) -> k (f s) s = (s', r).
Proof. auto. Qed.

Lemma repo_eqb_eq a b : repo_eqb a b = true <-> a = b.
Proof. destruct a, b; simpl; split; congruence. Qed.
Lemma rkind_eqb_eq a b : rkind_eqb a b = true <-> a = b.
Proof. destruct a, b; simpl; split; congruence. Qed.
Lemma repo_eqb_refl a : repo_eqb a a = true. Proof. now destruct a. Qed.
Lemma rkind_eqb_refl a : rkind_eqb a a = true. Proof. now destruct a. Qed.

Lemma get_set_root rp R s : get_root rp (fst (set_root rp R s)) = R.
Proof. destruct rp; reflexivity. Qed.

(** Everything but one repository's root, the database and the log. *)
Definition frame_root (rp : repo) (s s' : ust) : Prop :=
  (forall rp', rp' <> rp -> get_root rp' s' = get_root rp' s) /\
  u_dtargets s' = u_dtargets s /\ u_dlatest s' = u_dlatest s /\
  u_itime s' = u_itime s /\ u_isnap s' = u_isnap s /\ u_itargets s' = u_itargets s.
Lemma frame_root_refl rp s : frame_root rp s s.
Proof. repeat split. Qed.
Lemma frame_root_trans rp a b c : frame_root rp a b -> frame_root rp b c -> frame_root rp a c.
Proof.
  intros (H1 & H2 & H3 & H4 & H5 & H6) (G1 & G2 & G3 & G4 & G5 & G6).
  repeat split; try congruence. intros rp' Hne. rewrite G1, H1; auto.
Qed.
Lemma set_root_spec rp R s s' (x : res unit) : set_root rp R s = (s', x) ->
  x = Ok tt /\ get_root rp s' = R /\ u_db s' = u_db s /\ u_log s' = u_log s /\ frame_root rp s s'.
Proof.
  unfold set_root, modify. intros H; inversion H; subst; clear H.
  destruct rp; simpl; repeat split; intros [|]; simpl; congruence.
Qed.
Lemma write_spec f s s' (x : res unit) : write f s = (s', x) ->
  x = Ok tt /\ u_db s' = f (u_db s) /\ u_log s' = f (u_db s) :: u_log s /\
  (forall rp, get_root rp s' = get_root rp s) /\ (forall rp, frame_root rp s s').
Proof.
  unfold write, modify. intros H; inversion H; subst; clear H. simpl.
  split; auto. split; auto. split; auto. split; [intros []; auto|]. intros rp. repeat split; try (intros []; reflexivity).
Qed.

(** ** Roots *)
Lemma root_of_json_check E j R : root_of_json E j = Ok R -> rt_policy R = PCheck.
Proof.
  unfold root_of_json. intros H.
  repeat (apply bind_ok in H; destruct H as (? & ? & H)).
  destruct (negb _); [discriminate|].
  repeat (apply bind_ok in H; destruct H as (? & ? & H)).
  destruct (negb _); [discriminate|].
  repeat (apply bind_ok in H; destruct H as (? & ? & H)).
  inversion H; reflexivity.
Qed.

Lemma standard_root : verifiable_role role_root. Proof. left; left; reflexivity. Qed.
Lemma standard_targets : verifiable_role role_targets. Proof. left; right; right; left; reflexivity. Qed.
Lemma standard_snapshot : verifiable_role role_snapshot. Proof. left; right; left; reflexivity. Qed.
Lemma standard_timestamp : verifiable_role role_timestamp. Proof. left; right; right; right; reflexivity. Qed.

Lemma root_unpack_check E R r j : rt_policy R = PCheck -> verifiable_role r ->
  root_unpack E R r j = Ok tt <-> acceptable E (rt_ks R) r j.
Proof. intros H Hv. unfold root_unpack. rewrite H. now apply unpack_signed_iff. Qed.

Lemma root_of_json_signed_ok E j old R : rt_policy old = PCheck ->
  root_of_json_signed E j old = Ok R <->
  (root_of_json E j = Ok R /\ acceptable E (rt_ks old) role_root j /\ acceptable E (rt_ks R) role_root j).
Proof.
  intros Hp. unfold root_of_json_signed. split.
  - intros H. apply bind_ok in H. destruct H as (R' & HR & H).
    apply bind_ok in H. destruct H as ([] & H1 & H). apply bind_ok in H. destruct H as ([] & H2 & H).
    inversion H; subst. apply root_unpack_check in H1; auto using standard_root.
    apply root_unpack_check in H2; eauto using standard_root, root_of_json_check.
  - intros (H1 & H2 & H3). rewrite H1. cbn [bind].
    rewrite (proj2 (root_unpack_check E old role_root j Hp standard_root) H2). cbn [bind].
    rewrite (proj2 (root_unpack_check E R role_root j (root_of_json_check _ _ _ H1) standard_root) H3). reflexivity.
Qed.

(** init_root: succeeds exactly on self-signed roots; never touches the database. *)
Lemma init_root_spec E rp raw s s' r : init_root E rp raw s = (s', r) ->
  u_db s' = u_db s /\ u_log s' = u_log s /\ frame_root rp s s' /\
  (r = Ok tt -> self_signed_root E raw (get_root rp s')).
Proof.
  unfold init_root. intros H.
  apply lift_inv in H. destruct H as [(R1 & HR1 & H) | (e & _ & -> & ->)].
  2: { repeat split; auto; discriminate. }
  apply mbind_inv in H. destruct H as [(s2 & [] & H2 & H) | (e & H2 & ->)].
  2: { apply set_root_spec in H2. destruct H2; discriminate. }
  apply set_root_spec in H2. destruct H2 as (_ & G2 & D2 & L2 & F2).
  apply gets_inv in H.
  apply lift_inv in H. destruct H as [(R4 & K4 & H) | (e & K4 & -> & ->)].
  2: { repeat split; try congruence; try (now apply F2); discriminate. }
  apply set_root_spec in H. destruct H as (-> & G5 & D5 & L5 & F5).
  split; [congruence|]. split; [congruence|]. split; [eapply frame_root_trans; eauto|].
  intros _. rewrite G5.
  apply root_of_json_signed_ok in K4.
  2: { rewrite G2. eapply root_of_json_check; eauto. }
  split; tauto.
Qed.

Lemma verify_root_spec E rp raw s s' r : rt_policy (get_root rp s) = PCheck -> verify_root E rp raw s = (s', r) ->
  u_db s' = u_db s /\ u_log s' = u_log s /\ frame_root rp s s' /\
  (r = Ok tt -> next_root E (get_root rp s) raw (get_root rp s')).
Proof.
  unfold verify_root. intros Hp H.
  apply gets_inv in H.
  apply lift_inv in H. destruct H as [(R4 & K4 & H) | (e & K4 & -> & ->)].
  2: { repeat split; try congruence; discriminate. }
  apply mbind_inv in H. destruct H as [(s2 & [] & H2 & H) | (e & H2 & ->)].
  2: { apply set_root_spec in H2. destruct H2; discriminate. }
  apply set_root_spec in H2. destruct H2 as (_ & G2 & D2 & L2 & F2).
  unfold guard in H.
  destruct (rt_version R4 =? rt_version (get_root rp s) + 1) eqn:Hv; simpl in H; inversion H; subst.
  - split; [congruence|]. split; [congruence|]. split; auto. intros _.
    apply root_of_json_signed_ok in K4; auto. apply Z.eqb_eq in Hv. unfold next_root. tauto.
  - split; [congruence|]. split; [congruence|]. split; auto. discriminate.
Qed.

(** Database states produced by accepting the chain [l]. *)
Fixpoint chain_dbs (rp : repo) (l : list (Z * string)) (d : db) : list db :=
  match l with
  | [] => []
  | (v, raw) :: l' => store_root raw rp v d :: clear_nonroot rp (store_root raw rp v d)
                      :: chain_dbs rp l' (clear_nonroot rp (store_root raw rp v d))
  end.
Fixpoint chain_db (rp : repo) (l : list (Z * string)) (d : db) : db :=
  match l with [] => d | (v, raw) :: l' => chain_db rp l' (clear_nonroot rp (store_root raw rp v d)) end.

Lemma root_chain_versions E R l R' : root_chain E R l R' ->
  forall k, (k < List.length l)%nat -> option_map fst (nth_error l k) = Some (rt_version R + 1 + Z.of_nat k).
Proof.
  induction 1 as [R | R R' R'' raw l Hn Hc IH]; intros k Hk; [simpl in Hk; lia|].
  destruct Hn as (_ & _ & _ & Hv). destruct k; simpl in *.
  - f_equal. lia.
  - rewrite IH by lia. f_equal. lia.
Qed.

Lemma root_loop_spec E srv rp : forall fuel v s s' r,
  rt_policy (get_root rp s) = PCheck -> v = rt_version (get_root rp s) + 1 ->
  root_loop E srv rp fuel v s = (s', r) ->
  exists l R', root_chain E (get_root rp s) l R' /\
    u_db s' = chain_db rp l (u_db s) /\ u_log s' = rev (chain_dbs rp l (u_db s)) ++ u_log s /\
    frame_root rp s s' /\ (r = Ok tt -> get_root rp s' = R') /\ rt_policy R' = PCheck /\
    (List.length l <= fuel)%nat /\ (forall w raw, In (w, raw) l -> srv rp "root" w = Ok raw).
Proof.
  induction fuel as [|fuel IH]; intros v s s' r Hp Hv H.
  - simpl in H. unfold ret in H. inversion H; subst. exists [], (get_root rp s').
    split; [constructor|]. repeat split; auto. intros w raw [].
  - cbn [root_loop] in H. destruct (srv rp "root" v) as [raw|e] eqn:Hs.
    2: { unfold ret in H. inversion H; subst. exists [], (get_root rp s').
         split; [constructor|]. repeat split; auto; [simpl; lia|intros w raw []]. }
    apply mbind_inv in H. destruct H as [(s1 & [] & H1 & H) | (e & H1 & ->)].
    2: { apply verify_root_spec in H1; auto. destruct H1 as (D & L & F & _).
         exists [], (get_root rp s). split; [constructor|]. split; [exact D|]. split; [exact L|]. split; auto.
         split; [discriminate|]. split; auto. split; [simpl; lia|intros w raw' []]. }
    apply verify_root_spec in H1; auto. destruct H1 as (D1 & L1 & F1 & N1). specialize (N1 eq_refl).
    apply mbind_inv in H. destruct H as [(s2 & [] & H2 & H) | (e & H2 & ->)].
    2: { apply write_spec in H2. destruct H2; discriminate. }
    apply write_spec in H2. destruct H2 as (_ & D2 & L2 & G2 & F2).
    apply mbind_inv in H. destruct H as [(s3 & [] & H3 & H) | (e & H3 & ->)].
    2: { apply write_spec in H3. destruct H3; discriminate. }
    apply write_spec in H3. destruct H3 as (_ & D3 & L3 & G3 & F3).
    pose proof N1 as (J1 & A1 & A2 & V1).
    apply IH in H.
    + destruct H as (l & R' & Hc & D & L & F & G & P & Hlen & Hserved).
      rewrite G3, G2 in Hc.
      exists ((v, raw) :: l), R'. split.
      { rewrite Hv, <- V1. econstructor; eauto. }
      rewrite D3, D2, D1 in D. split; [exact D|].
      split.
      { rewrite L, L3, L2, L1, D3, D2, D1. cbn [chain_dbs rev]. rewrite <- !app_assoc. reflexivity. }
      split. { eapply frame_root_trans; [exact F1|]. eapply frame_root_trans; [apply F2|].
               eapply frame_root_trans; [apply F3|exact F]. }
      split; auto. split; auto. split; [simpl; lia|].
      intros w raw' [Heq | Hin]; [inversion Heq; subst; auto | auto].
    + rewrite G3, G2. eapply root_of_json_check; eauto.
    + rewrite G3, G2, V1. lia.
Qed.

(** What update_root does to the database, as a chain. *)
Definition first_dbs (rp : repo) (o : option string) (d : db) : list db :=
  match o with None => [] | Some raw => [store_root raw rp 1 d] end.
Definition first_db (rp : repo) (o : option string) (d : db) : db :=
  match o with None => d | Some raw => store_root raw rp 1 d end.

Inductive update_outcome (E : Env) (rp : repo) (d : db) : option string -> list (Z * string) -> option root -> Prop :=
| uo_none : update_outcome E rp d None [] None
    (* nothing accepted, nothing stored *)
| uo_stored raw0 R0 l R :
    load_latest_root rp d = Ok (Some raw0) -> self_signed_root E raw0 R0 -> root_chain E R0 l R ->
    update_outcome E rp d None l (Some R)
| uo_first raw0 R0 l R :
    load_latest_root rp d = Ok None -> self_signed_root E raw0 R0 -> root_chain E R0 l R ->
    update_outcome E rp d (Some raw0) l (Some R).

Lemma load_or_fetch_spec E srv rp s s' r : load_or_fetch_root E srv rp s = (s', r) ->
  frame_root rp s s' /\
  ((u_db s' = u_db s /\ u_log s' = u_log s /\
     (r = Ok tt -> exists raw0, load_latest_root rp (u_db s) = Ok (Some raw0) /\ self_signed_root E raw0 (get_root rp s'))) \/
   (r = Ok tt /\ exists raw0, load_latest_root rp (u_db s) = Ok None /\ srv rp "root" 1 = Ok raw0 /\
      self_signed_root E raw0 (get_root rp s') /\
      u_db s' = store_root raw0 rp 1 (u_db s) /\ u_log s' = u_db s' :: u_log s)).
Proof.
  unfold load_or_fetch_root. intros H.
  apply gets_inv in H.
  apply lift_inv in H. destruct H as [(so & K4 & H) | (e & K4 & -> & ->)].
  2: { split; [apply frame_root_refl|]. left; repeat split; auto; discriminate. }
  destruct so as [raw|].
  - apply init_root_spec in H. destruct H as (D & L & F & S). split; auto. left. repeat split; auto. eauto.
  - apply lift_inv in H. destruct H as [(raw & K5 & H) | (e & K5 & -> & ->)].
    2: { split; [apply frame_root_refl|]. left; repeat split; auto; discriminate. }
    apply mbind_inv in H. destruct H as [(s1 & [] & H1 & H) | (e & H1 & ->)].
    2: { apply init_root_spec in H1. destruct H1 as (D & L & F & S). split; auto. left. repeat split; auto. discriminate. }
    apply init_root_spec in H1. destruct H1 as (D & L & F & S). specialize (S eq_refl).
    apply write_spec in H. destruct H as (-> & D2 & L2 & G2 & F2).
    split. { eapply frame_root_trans; [exact F | apply F2]. }
    right. split; auto. exists raw. rewrite G2, D2, L2, D, L. repeat split; auto; apply S.
Qed.

Lemma update_root_spec E srv clk rp s s' r : update_root E srv clk rp s = (s', r) ->
  exists o l Ro, update_outcome E rp (u_db s) o l Ro /\
    u_db s' = chain_db rp l (first_db rp o (u_db s)) /\
    u_log s' = rev (chain_dbs rp l (first_db rp o (u_db s))) ++ first_dbs rp o (u_db s) ++ u_log s /\
    frame_root rp s s' /\
    (forall x, o = Some x -> srv rp "root" 1 = Ok x) /\
    (forall w raw, In (w, raw) l -> srv rp "root" w = Ok raw) /\
    (r = Ok tt -> Ro = Some (get_root rp s') /\ is_expired (rt_base (get_root rp s')) (clk RRoot) = false).
Proof.
  unfold update_root. intros H.
  apply mbind_inv in H. destruct H as [(s1 & [] & H1 & H) | (e & H1 & ->)].
  2: { apply load_or_fetch_spec in H1. destruct H1 as (F & [(D & L & _) | (? & _)]); [|discriminate].
       exists None, [], None. split; [constructor|]. simpl.
       split; auto. split; auto. split; auto. split; [discriminate|]. split; [intros w raw []|discriminate]. }
  apply load_or_fetch_spec in H1. destruct H1 as (F & Hcase).
  apply gets_inv in H.
  set (fu := Z.to_nat (kMaxRotations - (rt_version (get_root rp s1) + 1))) in H.
  assert (Hlo : exists s2 x, root_loop E srv rp fu (rt_version (get_root rp s1) + 1) s1 = (s2, x) /\
     u_db s' = u_db s2 /\ u_log s' = u_log s2 /\ frame_root rp s2 s' /\
     (r = Ok tt -> s' = s2 /\ x = Ok tt /\ is_expired (rt_base (get_root rp s2)) (clk RRoot) = false)).
  { apply mbind_inv in H. destruct H as [(s2 & [] & H2 & H) | (e & H2 & ->)].
    2: { exists s', (Throw e). split; auto. split; auto. split; auto. split; [apply frame_root_refl|]. discriminate. }
    exists s2, (Ok tt). split; auto.
    apply gets_inv in H.
    unfold guard in H. destruct (root_expired clk rp s2) eqn:Hex; inversion H; subst.
    - split; auto. split; auto. split; [apply frame_root_refl|]. discriminate.
    - split; auto. split; auto. split; [apply frame_root_refl|]. auto. }
  clear H. destruct Hlo as (s2 & x & Hl & D & L & F2 & Hok).
  assert (Hpol : rt_policy (get_root rp s1) = PCheck).
  { destruct Hcase as [(_ & _ & Hs) | (_ & raw0 & _ & _ & (Hs & _) & _)].
    - destruct (Hs eq_refl) as (raw0 & _ & Hj & _). eapply root_of_json_check; eauto.
    - eapply root_of_json_check; eauto. }
  apply root_loop_spec in Hl; auto.
  destruct Hl as (l & R' & Hc & DL & LL & FL & GL & PL & _ & Hserved).
  assert (HF : frame_root rp s s').
  { eapply frame_root_trans; [exact F|]. eapply frame_root_trans; eauto. }
  destruct Hcase as [(D1 & L1 & Hs) | (_ & raw0 & Hload & Hsrv & Hs & D1 & L1)].
  - destruct (Hs eq_refl) as (raw0 & Hload & Hss).
    exists None, l, (Some R'). split; [econstructor; eauto|]. simpl.
    rewrite D, L, DL, LL, D1, L1.
    split; auto. split; auto. split; auto. split; [discriminate|]. split; auto.
    intros Hr. destruct (Hok Hr) as (-> & Hx & Hexp). split; auto. f_equal. symmetry. now apply GL.
  - exists (Some raw0), l, (Some R'). split; [econstructor; eauto|]. simpl.
    rewrite D, L, DL, LL, L1, D1.
    split; auto. split; auto. split; auto. split. { intros y Hy; inversion Hy; subst; auto. } split; auto.
    intros Hr. destruct (Hok Hr) as (-> & Hx & Hexp). split; auto. f_equal. symmetry. now apply GL.
Qed.
