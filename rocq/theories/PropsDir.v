(** C173, C174, C175: the directories of the storage, of virtual Secondaries and of the reboot sentinel. *)
From Verif Require Import Base DirModel.

(** * Specification: who may use a directory (permissions as in chmod(1)) *)
Definition group_read := 32. Definition group_write := 16. Definition other_read := 4. Definition other_write := 2.
Definition bit_set (p b : Z) : Prop := Z.land p b <> 0.
Definition others_cannot_write (n : node) : Prop := ~ bit_set (n_perm n) group_write /\ ~ bit_set (n_perm n) other_write.
Definition others_cannot_read (n : node) : Prop := ~ bit_set (n_perm n) group_read /\ ~ bit_set (n_perm n) other_read.
Definition a_directory (n : node) : Prop := n_type n = S_IFDIR.
(** Nobody but the process's user has any permission. *)
Definition only_me (u : proc) (n : node) : Prop := a_directory n /\ n_owner n = uid u /\ (forall b, In b [32; 16; 8; 4; 2; 1] -> ~ bit_set (n_perm n) b).
Definition alone (f : dfs) : world := (f, []).
(** What the file system has after a step that only made directories for the process's own use. *)
Definition only_private_added (u : proc) (f f' : dfs) : Prop := forall q, f' q = f q \/ f q = None /\ exists n, f' q = Some n /\ only_me u n.

(** * Lemmas *)
Definition fresh (u : proc) (mode : Z) : node := {| n_type := S_IFDIR; n_perm := Z.land mode (Z.lnot (umask u)); n_owner := uid u |}.
Lemma fresh_private : forall u, only_me u (fresh u S_IRWXU).
Proof.
  intros u. split; [reflexivity|]. split; [reflexivity|]. intros b Hb H. apply H. cbn [n_perm fresh].
  rewrite (Z.land_comm S_IRWXU), <- Z.land_assoc. cbn [In] in Hb.
  assert (E : Z.land S_IRWXU b = 0) by (repeat (destruct Hb as [ <- | Hb ]; [reflexivity|]); destruct Hb). rewrite E. apply Z.land_0_r.
Qed.
Lemma upd_same : forall p n f, upd p n f p = n.
Proof. intros. unfold upd. destruct (list_eq_dec _ p p); congruence. Qed.
Lemma upd_other : forall p n f q, p <> q -> upd p n f q = f q.
Proof. intros. unfold upd. destruct (list_eq_dec _ p q); congruence. Qed.
Lemma mkdir_alone : forall u p mode f, exists b f', sys_mkdir u p mode (alone f) = (b, alone f') /\
  (b = true -> f (kpath p) = None /\ f' = upd (kpath p) (Some (fresh u mode)) f) /\ (b = false -> f' = f).
Proof.
  intros u p mode f. unfold sys_mkdir, alone, call. cbn [snd fst].
  destruct (there (f (kpath p)) || negb (is_dir (f (tl (kpath p)))) || negb (may u (kpath p))) eqn:E.
  - exists false, f. split; [reflexivity|]. split; [discriminate | reflexivity].
  - exists true, (upd (kpath p) (Some (fresh u mode)) f). split; [reflexivity|]. split; [|discriminate]. intros _. split; [|reflexivity].
    destruct (f (kpath p)); [discriminate | reflexivity].
Qed.
Lemma added_refl : forall u f, only_private_added u f f.
Proof. intros u f q. left. reflexivity. Qed.
Lemma added_trans : forall u f g h, only_private_added u f g -> only_private_added u g h -> only_private_added u f h.
Proof.
  intros u f g h A B q. destruct (A q) as [Ha | [Ha [n [Ha' Hn]]]]; destruct (B q) as [Hb | [Hb [m [Hb' Hm]]]].
  - left. congruence.
  - right. split; [congruence|]. exists m. split; assumption.
  - right. split; [exact Ha|]. exists n. split; [congruence | exact Hn].
  - congruence.
Qed.
Lemma added_upd : forall u p f, f p = None -> only_private_added u f (upd p (Some (fresh u S_IRWXU)) f).
Proof.
  intros u p f Hp q. destruct (list_eq_dec String.string_dec p q) as [ <- | N].
  - right. split; [exact Hp|]. exists (fresh u S_IRWXU). split; [apply upd_same | apply fresh_private].
  - left. apply upd_other. exact N.
Qed.
Lemma create_alone : forall u p f, exists r f', create_directories u p S_IRWXU (alone f) = (r, alone f') /\ only_private_added u f f' /\
  (r = Ok tt -> exists n, f' (kpath p) = Some n /\ only_me u n).
Proof.
  intros u. induction p as [|c parent IH]; intros f.
  - exists (Throw EStd), f. split; [reflexivity|]. split; [apply added_refl | discriminate].
  - assert (step : exists missing, match parent with [] => (false, alone f) | _ => let (o, w1) := sys_stat parent (alone f) in (negb (there o), w1) end = (missing, alone f))
      by (destruct parent; eexists; reflexivity).
    destruct step as [missing Hs].
    cbn [create_directories]. rewrite Hs.
    assert (mid : exists r f1, (if missing then create_directories u parent S_IRWXU (alone f) else (Ok tt, alone f)) = (r, alone f1) /\ only_private_added u f f1).
    { destruct missing.
      - destruct (IH f) as [r [f1 [E [A _]]]]. exists r, f1. split; assumption.
      - exists (Ok tt), f. split; [reflexivity | apply added_refl]. }
    destruct mid as [r [f1 [E1 A1]]]. rewrite E1. destruct r as [[]|e].
    + destruct (mkdir_alone u (c :: parent) S_IRWXU f1) as [b [f2 [E2 [T F]]]]. rewrite E2. exists (if b then Ok tt else Throw EStd), f2.
      split; [reflexivity|]. destruct b.
      * destruct (T eq_refl) as [Hn ->]. split; [apply (added_trans u f f1); [exact A1 | apply added_upd; exact Hn]|].
        intros _. exists (fresh u S_IRWXU). split; [apply upd_same | apply fresh_private].
      * rewrite (F eq_refl). split; [exact A1 | discriminate].
    + exists (Throw e), f1. split; [reflexivity|]. split; [exact A1 | discriminate].
Qed.
(** Every directory on the way is there or can be made. *)
Definition can_be_made (u : proc) (p : path) (f : dfs) : Prop :=
  is_dir (f []) = true /\ forall a q, p = a ++ q -> (f q = None \/ is_dir (f q) = true) /\ may u q = true.
Lemma create_succeeds : forall u p f, p <> [] -> ~ In "." p -> f p = None -> can_be_made u p f ->
  exists f', create_directories u p S_IRWXU (alone f) = (Ok tt, alone f').
Proof.
  intros u. induction p as [|c parent IH]; intros f Hne Hdot Hp [Hroot Hway]; [congruence|].
  assert (Hk : kpath (c :: parent) = c :: parent).
  { cbn. destruct (String.eqb_spec c ".") as [->|]; [exfalso; apply Hdot; left; reflexivity | reflexivity]. }
  assert (Hkp : kpath parent = parent).
  { destruct parent as [|d l]; [reflexivity|]. cbn. destruct (String.eqb_spec d ".") as [->|]; [exfalso; apply Hdot; right; left; reflexivity | reflexivity]. }
  assert (Hmk : forall g, g (c :: parent) = None -> is_dir (g parent) = true ->
     sys_mkdir u (c :: parent) S_IRWXU (alone g) = (true, alone (upd (c :: parent) (Some (fresh u S_IRWXU)) g))).
  { intros g G1 G2. unfold sys_mkdir, alone, call. cbn [snd fst]. rewrite Hk. cbn [tl]. rewrite G1, G2. destruct (Hway [] (c :: parent) eq_refl) as [_ ->]. reflexivity. }
  cbn [create_directories]. destruct parent as [|d l].
  - rewrite (Hmk f Hp Hroot). eexists. reflexivity.
  - set (parent := d :: l) in *. assert (Hst : sys_stat parent (alone f) = (f parent, alone f)) by (unfold sys_stat, alone, call; cbn [snd fst]; rewrite Hkp; reflexivity).
    rewrite Hst. destruct (Hway [c] parent eq_refl) as [Hpar _]. destruct (f parent) as [n|] eqn:En; cbn [there negb].
    + destruct Hpar as [Hpar|Hpar]; [discriminate|]. rewrite (Hmk f Hp) by (rewrite En; exact Hpar). eexists. reflexivity.
    + destruct (IH f) as [f1 E1]; [discriminate | intros H; apply Hdot; right; exact H | exact En | |].
      { split; [exact Hroot|]. intros a q Hq. apply (Hway (c :: a) q). rewrite Hq. reflexivity. }
      rewrite E1. destruct (create_alone u parent f) as [r [f1' [E1' [Ad Hok]]]]. rewrite E1 in E1'. injection E1' as <- Ef. subst f1'.
      destruct (Hok eq_refl) as [n [Hn [Hd _]]]. rewrite Hkp in Hn.
      assert (Hstill : f1 (c :: parent) = None).
      { (* nothing below the parent is made on the way *)
        assert (G : forall q g r g', create_directories u q S_IRWXU (alone g) = (r, alone g') -> forall x, (List.length q < List.length x)%nat -> g' x = g x).
        { clear. induction q as [|a q IHq]; intros g r g' E x Hx; [cbn in E; unfold alone in E; injection E as _ <-; reflexivity|].
          cbn [create_directories] in E.
          assert (step : exists missing, match q with [] => (false, alone g) | _ => let (o, w1) := sys_stat q (alone g) in (negb (there o), w1) end = (missing, alone g)) by (destruct q; eexists; reflexivity).
          destruct step as [missing Hs]. rewrite Hs in E.
          assert (mid : exists r0 g1, (if missing then create_directories u q S_IRWXU (alone g) else (Ok tt, alone g)) = (r0, alone g1) /\ g1 x = g x).
          { destruct missing.
            - destruct (create_alone u q g) as [r0 [g1 [E0 _]]]. exists r0, g1. split; [exact E0|]. apply (IHq g r0 g1 E0). cbn in Hx. lia.
            - exists (Ok tt), g. split; reflexivity. }
          destruct mid as [r0 [g1 [E1 Hg1]]]. rewrite E1 in E. destruct r0 as [[]|e]; [|unfold alone in E; injection E as _ <-; exact Hg1].
          destruct (mkdir_alone u (a :: q) S_IRWXU g1) as [b [g2 [E2 [T F]]]]. rewrite E2 in E.
          unfold alone in E. injection E as _ <-. destruct b.
          - destruct (T eq_refl) as [_ ->]. rewrite upd_other; [exact Hg1|]. intros Hk. rewrite <- Hk in Hx.
            assert (List.length (kpath (a :: q)) <= List.length (a :: q))%nat by (cbn [kpath]; destruct (String.eqb a "."); cbn; lia). lia.
          - rewrite (F eq_refl). exact Hg1. }
        rewrite (G parent f (Ok tt) f1 E1 (c :: parent)) by (cbn; lia). exact Hp. }
      rewrite (Hmk f1 Hstill) by (rewrite Hn; unfold is_dir; rewrite Hd; reflexivity). eexists. reflexivity.
Qed.
Lemma bits_off : forall p a b, Z.land p (a + b) = 0 -> Z.land a b = 0 -> Z.land p a = 0 /\ Z.land p b = 0.
Proof.
  intros p a b H D. assert (E : a + b = Z.lor a b) by (rewrite <- Z.lxor_lor by exact D; apply Z.add_nocarry_lxor; exact D). rewrite E in H.
  assert (Ha : Z.land (Z.land p (Z.lor a b)) a = Z.land p a) by (rewrite <- Z.land_assoc; f_equal; rewrite Z.land_comm; apply Z.land_lor_distr_l || (apply Z.bits_inj'; intros n Hn; rewrite !Z.land_spec, Z.lor_spec; destruct (Z.testbit a n); destruct (Z.testbit b n); reflexivity)).
  assert (Hb : Z.land (Z.land p (Z.lor a b)) b = Z.land p b) by (rewrite <- Z.land_assoc; f_equal; apply Z.bits_inj'; intros n Hn; rewrite !Z.land_spec, Z.lor_spec; destruct (Z.testbit a n); destruct (Z.testbit b n); reflexivity).
  rewrite H in Ha, Hb. rewrite Z.land_0_l in Ha, Hb. split; congruence.
Qed.
Lemma no_write : forall n, Z.land (n_perm n) (S_IWGRP + S_IWOTH) = 0 -> others_cannot_write n.
Proof. intros n H. destruct (bits_off _ _ _ H eq_refl) as [A B]. split; intros C; apply C; assumption. Qed.
Lemma no_read : forall n, Z.land (n_perm n) (S_IRGRP + S_IROTH) = 0 -> others_cannot_read n.
Proof. intros n H. destruct (bits_off _ _ _ H eq_refl) as [A B]. split; intros C; apply C; assumption. Qed.
Lemma private_safe : forall u n, only_me u n -> a_directory n /\ others_cannot_write n /\ others_cannot_read n /\ n_owner n = uid u.
Proof.
  intros u n [A [B C]]. split; [exact A|]. split; [split; apply C; cbn; tauto|]. split; [split; apply C; cbn; tauto | exact B].
Qed.

(** * C173: the storage directory *)
Definition C173_statement : Prop := forall u p f f', open_storage_dir u p (alone f) = (Ok tt, alone f') ->
  exists n, f' (kpath p) = Some n /\ a_directory n /\ others_cannot_write n /\ others_cannot_read n /\ n_owner n = uid u.

(** Opened successfully, the directory is there and nobody but its owner can read or write it; it is the user's own if it was
    made now, and all directories made on the way are for the user alone. Nothing else changes, but the permissions of the
    directory itself. *)
Theorem C173_partial : forall u p f r f', open_storage_dir u p (alone f) = (r, alone f') ->
  (r = Ok tt -> exists n, f' (kpath p) = Some n /\ a_directory n /\ others_cannot_write n /\ others_cannot_read n /\
                (is_dir (f (kpath p)) = false -> only_me u n) /\ (forall n0, f (kpath p) = Some n0 -> n_owner n = n_owner n0)) /\
  (forall q, q <> kpath p -> f' q = f q \/ f q = None /\ exists n, f' q = Some n /\ only_me u n).
Proof.
  intros u p f r f' H. unfold open_storage_dir in H. change (sys_stat p (alone f)) with (f (kpath p), alone f) in H; cbv beta iota in H.
  destruct (is_dir (f (kpath p))) eqn:Ed; cbn [negb] in H.
  - change (sys_stat p (alone f)) with (f (kpath p), alone f) in H; cbv beta iota in H. destruct (f (kpath p)) as [n|] eqn:En; [|discriminate Ed].
    cbn [is_dir] in Ed. apply Z.eqb_eq in Ed.
    destruct (Z.eqb_spec (Z.land (n_perm n) (S_IWGRP + S_IWOTH)) 0) as [W|W]; cbn [negb] in H.
    + destruct (Z.eqb_spec (Z.land (n_perm n) (S_IRGRP + S_IROTH)) 0) as [R|R]; cbn [negb] in H.
      * unfold alone in H; injection H as <- <-. split; [|intros q _; left; reflexivity]. intros _. exists n. split; [exact En|]. split; [exact Ed|]. split; [apply no_write; exact W|].
        split; [apply no_read; exact R|]. split; [discriminate|]. intros n0 [= <-]. reflexivity.
      * unfold sys_chmod, alone, call in H. cbn [snd fst] in H. rewrite En in H. destruct (may u (kpath p)); unfold alone in H; injection H as <- <-.
        -- split.
           ++ intros _. eexists. split; [apply upd_same|]. split; [exact Ed|]. split; [apply no_write; reflexivity|]. split; [apply no_read; reflexivity|].
              split; [discriminate|]. intros n0 [= <-]. reflexivity.
           ++ intros q Hq. left. apply upd_other. congruence.
        -- split; [discriminate|]. intros q _. left. reflexivity.
    + unfold alone in H; injection H as <- <-. split; [discriminate|]. intros q _. left. reflexivity.
  - destruct (create_alone u p f) as [r0 [f0 [E [A O]]]]. rewrite E in H. unfold alone in H; injection H as <- <-. split.
    + intros Hr. destruct (O Hr) as [n [Hn Ho]]. exists n. split; [exact Hn|]. destruct (private_safe u n Ho) as [P1 [P2 [P3 P4]]].
      split; [exact P1|]. split; [exact P2|]. split; [exact P3|]. split; [intros _; exact Ho|].
      intros n0 Hn0. destruct (A (kpath p)) as [Hs | [Hs _]]; [rewrite Hn, Hn0 in Hs; congruence | congruence].
    + intros q _. destruct (A q) as [Hs | Hs]; [left; exact Hs | right; exact Hs].
Qed.

(** It does open: when it is not there and the way to it can be made, or it is there with safe permissions. *)
Theorem C173_opens : forall u p f, p <> [] -> ~ In "." p ->
  (f p = None /\ can_be_made u p f) \/ (exists n, f p = Some n /\ a_directory n /\ Z.land (n_perm n) (group_write + other_write) = 0 /\ may u p = true) ->
  exists f', open_storage_dir u p (alone f) = (Ok tt, alone f').
Proof.
  intros u p f Hne Hdot Hc.
  assert (Hk : kpath p = p).
  { destruct p as [|c l]; [reflexivity|]. cbn. destruct (String.eqb_spec c ".") as [->|]; [exfalso; apply Hdot; left; reflexivity | reflexivity]. }
  unfold open_storage_dir. change (sys_stat p (alone f)) with (f (kpath p), alone f); cbv beta iota. rewrite Hk. destruct Hc as [[Hn Hw] | [n [Hn [Hd [Hp Hm]]]]].
  - rewrite Hn. cbn [is_dir negb]. apply create_succeeds; assumption.
  - rewrite Hn. unfold is_dir. rewrite Hd, Z.eqb_refl. cbn [negb]. change (sys_stat p (alone f)) with (f (kpath p), alone f); cbv beta iota. rewrite Hk, Hn.
    change (S_IWGRP + S_IWOTH) with (group_write + other_write). rewrite Hp, Z.eqb_refl. cbn [negb].
    destruct (Z.land (n_perm n) (S_IRGRP + S_IROTH) =? 0); cbn [negb]; [exists f; reflexivity|].
    unfold sys_chmod, alone, call. cbn [snd fst]. rewrite Hk, Hn, Hm. eexists. reflexivity.
Qed.

Definition u0 : proc := {| uid := 1000; umask := 18; may := fun _ => true |}.
Definition fs0 : dfs := fun q => match q with [] => Some {| n_type := S_IFDIR; n_perm := 493; n_owner := 0 |} | _ => None end.
Definition with_dir (p : path) (perm owner : Z) (f : dfs) : dfs := upd p (Some {| n_type := S_IFDIR; n_perm := perm; n_owner := owner |}) f.

(** The owner is not looked at: a directory of somebody else is used as the storage. *)
Theorem C173_refuted : ~ C173_statement.
Proof.
  intros H. destruct (H u0 ["sota"] (with_dir ["sota"] 448 4242 fs0) (with_dir ["sota"] 448 4242 fs0) eq_refl) as [n [Hn [_ [_ [_ Ho]]]]].
  vm_compute in Hn. injection Hn as <-. discriminate Ho.
Qed.

(** Two instances that start at the same time: a directory made meanwhile by the other one ends the start. *)
Definition C173_together_statement : Prop := forall u p (others : list (dfs -> dfs)) f, p <> [] -> ~ In "." p -> f p = None -> can_be_made u p f ->
  Forall (fun g => forall h q, g h q = h q \/ h q = None /\ exists n, g h q = Some n /\ only_me u n) others ->
  fst (open_storage_dir u p (f, others)) = Ok tt.
Definition other_instance : list (dfs -> dfs) := [fun h => h; fun h => match h ["sota"] with None => with_dir ["sota"] 448 1000 h | Some _ => h end].
Theorem C173_together_refuted : ~ C173_together_statement.
Proof.
  intros H. specialize (H u0 ["sota"] other_instance fs0).
  assert (E : fst (open_storage_dir u0 ["sota"] (fs0, other_instance)) = Throw EStd) by reflexivity.
  enough (X : fst (open_storage_dir u0 ["sota"] (fs0, other_instance)) = Ok tt) by (rewrite E in X; discriminate X). apply H.
  - discriminate.
  - intros [X|[]]; discriminate.
  - reflexivity.
  - split; [reflexivity|]. intros a q Hq. split; [|reflexivity]. destruct q as [|c q]; [right; reflexivity | left; reflexivity].
  - apply Forall_cons; [|apply Forall_cons; [|apply Forall_nil]].
    + intros h q. left. reflexivity.
    + intros h q. destruct (h ["sota"]) as [n|] eqn:E0; [left; reflexivity|].
      destruct (list_eq_dec String.string_dec ["sota"] q) as [ <- | N].
      * right. split; [exact E0|]. exists {| n_type := S_IFDIR; n_perm := 448; n_owner := 1000 |}. split; [apply upd_same|].
        split; [reflexivity|]. split; [reflexivity|]. intros b Hb X. apply X. cbn [In] in Hb. repeat (destruct Hb as [ <- | Hb ]; [reflexivity|]). destruct Hb.
      * left. apply upd_other. exact N.
Qed.

(** * C174: the directories of a virtual Secondary *)
Definition C174_statement : Prop := forall u p f, p <> [] -> f (kpath p) = None -> can_be_made u (kpath p) f ->
  fst (open_secondary_dir u p (alone f)) = Ok tt.
Theorem C174_partial : forall u p f r f', open_secondary_dir u p (alone f) = (r, alone f') ->
  (r = Ok tt -> exists n, f' (kpath p) = Some n /\ a_directory n /\ others_cannot_write n /\ (is_dir (f (kpath p)) = false -> only_me u n)) /\
  only_private_added u f f'.
Proof.
  intros u p f r f' H. unfold open_secondary_dir in H. change (sys_stat p (alone f)) with (f (kpath p), alone f) in H; cbv beta iota in H.
  destruct (is_dir (f (kpath p))) eqn:Ed; cbn [negb] in H.
  - change (sys_stat p (alone f)) with (f (kpath p), alone f) in H; cbv beta iota in H. destruct (f (kpath p)) as [n|] eqn:En; [|discriminate Ed].
    cbn [is_dir] in Ed. apply Z.eqb_eq in Ed. unfold alone in H; injection H as <- <-. split; [|apply added_refl].
    destruct (Z.eqb_spec (Z.land (n_perm n) 18) 0) as [W|W]; cbn [negb]; [|discriminate].
    intros _. exists n. split; [exact En|]. split; [exact Ed|]. split; [apply no_write; exact W | discriminate].
  - destruct (create_alone u p f) as [r0 [f0 [E [A O]]]]. rewrite E in H. destruct r0 as [[]|e].
    + destruct (O eq_refl) as [n [Hn Ho]]. change (sys_stat p (alone f0)) with (f0 (kpath p), alone f0) in H; cbv beta iota in H. unfold alone in H; injection H as <- <-. split; [|exact A].
      intros _. exists n. split; [exact Hn|]. destruct (private_safe u n Ho) as [P1 [P2 _]]. split; [exact P1|]. split; [exact P2 | intros _; exact Ho].
    + unfold alone in H; injection H as <- <-. split; [discriminate | exact A].
Qed.
Theorem C174_opens_partial : forall u p f, p <> [] -> ~ In "." p -> f p = None -> can_be_made u p f ->
  exists f', open_secondary_dir u p (alone f) = (Ok tt, alone f').
Proof.
  intros u p f Hne Hdot Hn Hw.
  assert (Hk : kpath p = p).
  { destruct p as [|c l]; [reflexivity|]. cbn. destruct (String.eqb_spec c ".") as [->|]; [exfalso; apply Hdot; left; reflexivity | reflexivity]. }
  unfold open_secondary_dir. change (sys_stat p (alone f)) with (f (kpath p), alone f); cbv beta iota. rewrite Hk, Hn. cbn [is_dir negb].
  destruct (create_succeeds u p f Hne Hdot Hn Hw) as [f' E]. rewrite E. change (sys_stat p (alone f')) with (f' (kpath p), alone f').
  destruct (create_alone u p f) as [r0 [f0 [E0 [A O]]]]. rewrite E in E0. injection E0 as <- <-. destruct (O eq_refl) as [n [Hn' Ho]]. rewrite Hn'.
  destruct (private_safe u n Ho) as [_ [[P2 P3] _]].
  assert (Z0 : Z.land (n_perm n) (S_IWGRP + S_IWOTH) = 0).
  { change (S_IWGRP + S_IWOTH) with (Z.lor 16 2). rewrite Z.land_lor_distr_r. unfold bit_set, group_write, other_write in *.
    destruct (Z.eq_dec (Z.land (n_perm n) 16) 0) as [->|]; [|tauto]. destruct (Z.eq_dec (Z.land (n_perm n) 2) 0) as [->|]; [reflexivity | tauto]. }
  rewrite Z0. eexists. reflexivity.
Qed.
(** A configured directory with a slash at the end: the first start makes it and then fails; the next one works. *)
Theorem C174_refuted : ~ C174_statement.
Proof.
  intros H. assert (X : fst (open_secondary_dir u0 ["."; "meta"] (alone fs0)) = Throw EStd) by reflexivity.
  rewrite H in X; [discriminate X | discriminate | reflexivity |].
  split; [reflexivity|]. intros a q Hq. split; [|reflexivity]. destruct q as [|c q]; [right; reflexivity | left; reflexivity].
Qed.
Theorem C174_second_start : forall u p f, p <> [] -> ~ In "." p -> f p = None -> can_be_made u p f ->
  exists f1, open_secondary_dir u ("." :: p) (alone f) = (Throw EStd, alone f1) /\ open_secondary_dir u ("." :: p) (alone f1) = (Ok tt, alone f1).
Proof.
  intros u p f Hne Hdot Hn Hw. destruct (create_succeeds u p f Hne Hdot Hn Hw) as [f1 E].
  destruct (create_alone u p f) as [r0 [f0 [E0 [A O]]]]. rewrite E in E0. injection E0 as <- <-. destruct (O eq_refl) as [n [Hn' Ho]].
  assert (Hk : kpath p = p).
  { destruct p as [|c l]; [reflexivity|]. cbn. destruct (String.eqb_spec c ".") as [->|]; [exfalso; apply Hdot; left; reflexivity | reflexivity]. }
  rewrite Hk in Hn'. destruct (private_safe u n Ho) as [P1 [[P2 P3] _]]. exists f1. split.
  - unfold open_secondary_dir. change (sys_stat ("." :: p) (alone f)) with (f p, alone f); cbv beta iota. rewrite Hn. cbn [is_dir negb create_directories].
    destruct p as [|c l]; [congruence|]. change (sys_stat (c :: l) (alone f)) with (f (kpath (c :: l)), alone f); cbv beta iota. rewrite Hk, Hn. cbn [there negb]. rewrite E.
    unfold sys_mkdir, alone, call. cbn [snd fst]. change (kpath ("." :: c :: l)) with (c :: l). rewrite Hn'. reflexivity.
  - unfold open_secondary_dir. change (sys_stat ("." :: p) (alone f1)) with (f1 p, alone f1); cbv beta iota. rewrite Hn'. unfold is_dir. rewrite P1, Z.eqb_refl. cbn [negb].
    change (sys_stat ("." :: p) (alone f1)) with (f1 p, alone f1); cbv beta iota. rewrite Hn'.
    assert (Z0 : Z.land (n_perm n) (S_IWGRP + S_IWOTH) = 0).
    { change (S_IWGRP + S_IWOTH) with (Z.lor 16 2). rewrite Z.land_lor_distr_r. unfold bit_set, group_write, other_write in *.
      destruct (Z.eq_dec (Z.land (n_perm n) 16) 0) as [->|]; [|tauto]. destruct (Z.eq_dec (Z.land (n_perm n) 2) 0) as [->|]; [reflexivity | tauto]. }
    rewrite Z0. reflexivity.
Qed.

(** * C175: the directory of the reboot sentinel *)
(** Full claim: the directory is used only if it is a directory of the user's own that nobody else can use. *)
Definition C175_statement : Prop := forall u p f f', create_secure u p (alone f) = (true, alone f') ->
  exists n, f' (kpath p) = Some n /\ only_me u n.
Definition known_type (n : node) : Prop := In (n_type n) [S_IFIFO; S_IFCHR; S_IFDIR; S_IFBLK; S_IFREG; S_IFSOCK].
(** Proved for anything but a socket or a block device, and the converse in full. *)
Theorem C175_partial : forall u p f, exists b f', create_secure u p (alone f) = (b, alone f') /\ only_private_added u f f' /\
  ((forall n, f (kpath p) = Some n -> known_type n /\ n_type n <> S_IFSOCK /\ n_type n <> S_IFBLK) ->
    (b = true <-> (exists n, f (kpath p) = Some n /\ a_directory n /\ n_owner n = uid u /\ Z.land (n_perm n) 511 = 448) \/
                  (f (kpath p) = None /\ is_dir (f (tl (kpath p))) = true /\ may u (kpath p) = true)) /\
    (b = true -> exists n, f' (kpath p) = Some n /\ only_me u n)).
Proof.
  intros u p f. unfold create_secure. destruct (sys_mkdir u p S_IRWXU (alone f)) as [b w] eqn:Em.
  destruct (mkdir_alone u p S_IRWXU f) as [b0 [f0 [E0 [T F]]]]. rewrite Em in E0. injection E0 as -> ->.
  unfold sys_mkdir, alone, call in Em. cbn [snd fst] in Em.
  destruct b0.
  - destruct (T eq_refl) as [Hn ->]. exists true, (upd (kpath p) (Some (fresh u S_IRWXU)) f). split; [reflexivity|]. split; [apply added_upd; exact Hn|].
    intros _. split.
    + split; [|reflexivity]. intros _. right. rewrite Hn in Em. cbn [there orb] in Em.
      destruct (is_dir (f (tl (kpath p)))); [|discriminate Em]. destruct (may u (kpath p)); [|discriminate Em]. auto.
    + intros _. exists (fresh u S_IRWXU). split; [apply upd_same | apply fresh_private].
  - rewrite (F eq_refl) in *. change (sys_stat p (alone f)) with (f (kpath p), alone f). eexists _, f. split; [reflexivity|]. split; [apply added_refl|].
    intros Hty. destruct (f (kpath p)) as [n|] eqn:En.
    + destruct (Hty n eq_refl) as [Hk [Hs Hb]].
      assert (Ht : (Z.land (n_type n) S_IFDIR =? S_IFDIR) = true <-> n_type n = S_IFDIR).
      { unfold known_type in Hk. cbn [In] in Hk. destruct Hk as [K|[K|[K|[K|[K|[K|[]]]]]]]; rewrite <- K in *; split; intros X; try reflexivity; try discriminate; congruence. }
      split.
      * rewrite !andb_true_iff, Ht, !Z.eqb_eq. change (S_IRWXU + S_IRWXG + S_IRWXO) with 511. change S_IRWXU with 448. split.
        -- intros [[A B] C]. left. exists n. auto.
        -- intros [[n0 [[= <-] [A [B C]]]] | [X _]]; [auto | discriminate].
      * rewrite !andb_true_iff, Ht, !Z.eqb_eq. change (S_IRWXU + S_IRWXG + S_IRWXO) with 511. change S_IRWXU with 448. intros [[A B] C]. exists n. split; [first [exact En | reflexivity]|].
        split; [exact A|]. split; [exact C|]. intros b Hin X. apply X.
        assert (E : Z.land (n_perm n) b = Z.land (Z.land (n_perm n) 511) b).
        { rewrite <- Z.land_assoc. f_equal. cbn [In] in Hin. repeat (destruct Hin as [ <- | Hin ]; [reflexivity|]). destruct Hin. }
        rewrite E, B. cbn [In] in Hin. repeat (destruct Hin as [ <- | Hin ]; [reflexivity|]). destruct Hin.
    + split; [|discriminate]. split; [discriminate|]. intros [[n [X _]] | [_ [A B]]]; [discriminate|].
      rewrite A, B in Em. discriminate Em.
Qed.
(** A socket passes for a directory: its type has the bit that directories have. *)
Theorem C175_refuted : ~ C175_statement.
Proof.
  intros H. set (f := upd ["run"] (Some {| n_type := S_IFSOCK; n_perm := 448; n_owner := 1000 |}) fs0).
  destruct (H u0 ["run"] f f eq_refl) as [n [Hn [Hd _]]]. vm_compute in Hn. injection Hn as <-. discriminate Hd.
Qed.

(** * Examples *)
Example C173_example : can_be_made u0 ["sota"; "var"] (with_dir ["var"] 493 0 fs0) /\ with_dir ["var"] 493 0 fs0 ["sota"; "var"] = None.
Proof.
  split; [|reflexivity]. split; [reflexivity|]. intros a q Hq. split; [|reflexivity]. destruct q as [|c [|d q]].
  - right. reflexivity.
  - right. destruct a as [|x [|y a]]; [discriminate Hq | injection Hq as _ <-; reflexivity | destruct a; discriminate Hq].
  - left. destruct a as [|x a]; [injection Hq as <- <- <-; reflexivity|]. destruct a as [|y a]; [discriminate Hq | destruct a; discriminate Hq].
Qed.
Example C173_example_read : exists f', open_storage_dir u0 ["sota"] (alone (with_dir ["sota"] 493 1000 fs0)) = (Ok tt, alone f') /\ f' ["sota"] = Some {| n_type := S_IFDIR; n_perm := 448; n_owner := 1000 |}.
Proof. eexists. split; [reflexivity | reflexivity]. Qed.
Example C173_example_unsafe : fst (open_storage_dir u0 ["sota"] (alone (with_dir ["sota"] 511 1000 fs0))) = Throw EStd.
Proof. reflexivity. Qed.
Example C175_example : fst (create_secure u0 ["run"] (alone fs0)) = true /\ fst (create_secure u0 ["run"] (alone (with_dir ["run"] 493 1000 fs0))) = false.
Proof. split; reflexivity. Qed.
Print Assumptions C173_partial.
Print Assumptions C173_opens.
Print Assumptions C173_refuted.
Print Assumptions C173_together_refuted.
Print Assumptions C174_partial.
Print Assumptions C174_opens_partial.
Print Assumptions C174_refuted.
Print Assumptions C174_second_start.
Print Assumptions C175_partial.
Print Assumptions C175_refuted.
