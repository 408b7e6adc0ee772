(** Steps of a conversion, crashes and imports. *)
From Verif Require Import Base Json TufModel TufProofs MetaStore RepoModel RepoSpec RepoProofs CodecModel InstModel InstSpec InstProofs InstProofs2 ConvModel ConvSpec ConvProofs ConvProofs2.

Section Steps.
Context (E : Env) (savec : json -> string) (loadc : string -> option json) (host : string).
Notation exec := (exec savec).
Notation plan := (plan E host).

Lemma exec_app a b d : exec (a ++ b) d = let (d', k) := exec a d in if k then exec b d' else (d', false).
Proof. revert d. induction a as [|x a IH]; intros d; cbn [app ConvModel.exec]; [reflexivity|]. destruct (do_step savec x d); auto. Qed.
Definition on_files (x : dstep) : bool := match x with DDropRoot _ | DWriteRoot _ _ _ | DDel _ => true | _ => false end.
Lemma exec_files l : forallb on_files l = true -> forall d, exec l d = ({| k_sql := k_sql d; k_fs := fold_left (fun f x => do_files x f) l (k_fs d) |}, true).
Proof.
  induction l as [|x l IH]; intros H d; cbn [ConvModel.exec fold_left]; [destruct d; reflexivity|]. cbn [forallb] in H. apply andb_true_iff in H. destruct H as (H & Hl).
  assert (S : do_step savec x d = Some {| k_sql := k_sql d; k_fs := do_files x (k_fs d) |}) by (destruct x; try discriminate; reflexivity).
  rewrite S, IH by exact Hl. reflexivity.
Qed.
Lemma exec_puts l : forall q fs, match exec (map DPut l) {| k_sql := Some q; k_fs := fs |} with
  | (d', true) => exists q', runw savec l q = Some q' /\ d' = {| k_sql := Some q'; k_fs := fs |}
  | (d', false) => runw savec l q = None /\ k_fs d' = fs end.
Proof.
  induction l as [|w l IH]; intros q fs; cbn [map ConvModel.exec runw]; [eauto|]. cbn [do_step k_sql]. destruct (ConvModel.write savec w q) as [q'|]; cbn [k_fs]; [apply IH|auto].
Qed.
Lemma firstn_files n l : forallb on_files l = true -> forallb on_files (firstn n l) = true.
Proof. revert n. induction l as [|x l IH]; intros [|n] H; cbn in *; auto. apply andb_true_iff in H. destruct H as (-> & H). cbn. auto. Qed.
Lemma cleanup_files : forallb on_files cleanup = true. Proof. reflexivity. Qed.
Lemma rename_files fs rp l : rename_steps E fs rp = Ok l -> forallb on_files l = true.
Proof.
  unfold rename_steps. destruct (o_meta fs rp RRoot); [|intros H; injection H as <-; reflexivity]. intros H. apply bind_ok in H. destruct H as (v & _ & H). injection H as <-.
  cbn. destruct (0 <=? v); reflexivity.
Qed.
(** A plan that ends without an exception: create, rename, write, clean up. *)
Lemma plan_shape fs steps : plan fs = (steps, true) -> exists r1 r2 w, rename_steps E fs Director = Ok r1 /\ rename_steps E fs Image = Ok r2 /\
  writes E host (fold_left (fun f x => do_files x f) (r1 ++ r2) fs) = (w, true) /\ steps = DCreate :: (r1 ++ r2) ++ map DPut w ++ cleanup.
Proof.
  unfold ConvModel.plan. destruct (rename_steps E fs Director) as [r1|]; [|discriminate]. destruct (rename_steps E fs Image) as [r2|]; [|discriminate].
  destruct (writes E host _) as (w, ok) eqn:W. intros H. injection H as <- ->. exists r1, r2, w. rewrite <- app_assoc. auto.
Qed.
Definition ren (l : list dstep) (fs : files) : files := fold_left (fun f x => do_files x f) l fs.
(** What is on the disk after [n] steps. *)
Lemma prefix_states fs r w n : forallb on_files r = true -> let (d, b) := exec (firstn n (DCreate :: r ++ map DPut w ++ cleanup)) (old_disk fs) in
  (n = 0%nat /\ d = old_disk fs) \/
  ((1 <= n)%nat /\ (n <= S (List.length r))%nat /\ d = {| k_sql := Some sql_empty; k_fs := ren (firstn (n - 1) r) fs |} /\ b = true) \/
  ((S (List.length r) <= n)%nat /\ k_fs d = ren r fs /\ (b = false -> runw savec w sql_empty = None) /\ (b = true -> (n <= S (List.length r) + List.length w)%nat /\ exists q, k_sql d = Some q /\ runw savec (firstn (n - S (List.length r)) w) sql_empty = Some q)) \/
  ((S (List.length r) + List.length w <= n)%nat /\ b = true /\ exists q, k_sql d = Some q /\ runw savec w sql_empty = Some q).
Proof.
  intros Hr. destruct n as [|n]; [cbn; auto|]. cbn [firstn ConvModel.exec do_step old_disk k_fs]. rewrite firstn_app, exec_app.
  rewrite (exec_files _ (firstn_files n r Hr)). cbn [k_sql k_fs]. cbn [Nat.sub]. rewrite Nat.sub_0_r. destruct (le_lt_dec n (List.length r)) as [L|L].
  - replace (n - List.length r)%nat with 0%nat by lia. cbn [firstn ConvModel.exec]. right. left. repeat split; lia.
  - rewrite (firstn_all2 r) by lia. fold (ren r fs). rewrite firstn_app, map_length, exec_app. rewrite firstn_map.
    pose proof (exec_puts (firstn (n - List.length r) w) sql_empty (ren r fs)) as P. destruct (exec (map DPut (firstn (n - List.length r) w)) _) as (d, [|]).
    + destruct P as (q & P & ->). destruct (le_lt_dec (n - List.length r) (List.length w)) as [Lw|Lw].
      * replace (n - List.length r - List.length w)%nat with 0%nat by lia. cbn [firstn ConvModel.exec]. right. right. left. split; [lia|]. split; [reflexivity|]. split; [discriminate|].
        intros _. split; [lia|]. exists q. split; [reflexivity|]. replace (S n - S (List.length r))%nat with (n - List.length r)%nat by lia. exact P.
      * rewrite (exec_files _ (firstn_files _ cleanup cleanup_files)). right. right. right. split; [lia|]. split; [reflexivity|]. exists q. split; [reflexivity|]. rewrite firstn_all2 in P by lia. exact P.
    + destruct P as (P & F). right. right. left. split; [lia|]. split; [exact F|]. split; [|discriminate]. intros _.
      rewrite <- (firstn_skipn (n - List.length r) w), runw_app, P. reflexivity.
Qed.
Context (fs : files) (Gf : good_files E savec loadc host fs).

Lemma plan_all steps : plan fs = (steps, true) -> exists r w, steps = DCreate :: r ++ map DPut w ++ cleanup /\ forallb on_files r = true /\ 
  renamed E fs (ren r fs) /\ writes E host (ren r fs) = (w, true) /\ (forall n, firstn n steps = steps -> (List.length steps <= n)%nat) /\
  ((forall rp, o_meta fs rp RRoot = None) -> r = []).
Proof.
  intros H. destruct (plan_shape _ _ H) as (r1 & r2 & w & R1 & R2 & W & ->). exists (r1 ++ r2), w. split; [reflexivity|]. split.
  - rewrite forallb_app, (rename_files _ _ _ R1), (rename_files _ _ _ R2). reflexivity.
  - split; [exact (rename_both E savec loadc host fs Gf r1 r2 R1 R2)|]. split; [exact W|]. split.
    + intros n F. rewrite <- F. apply firstn_le_length.
    + intros N. unfold rename_steps in R1, R2. rewrite N in R1, R2. injection R1 as <-. injection R2 as <-. reflexivity.
Qed.

Lemma opened_all d' : o_reg fs = true -> image_not_ahead E fs -> new_storage E savec host None (old_disk fs) = (d', Opened) ->
  exists q, k_sql d' = Some q /\ forall i, db_has E loadc host fs q i.
Proof.
  intros Rg Ha. unfold new_storage. cbn [old_disk k_sql k_fs]. rewrite Rg. destruct (plan fs) as (steps, ok) eqn:P. fold (old_disk fs).
  destruct (exec steps (old_disk fs)) as (d, b) eqn:X. intros H. injection H as <- H. destruct b; [|discriminate]. destruct ok; [|discriminate].
  destruct (plan_all steps P) as (r & w & -> & Hr & Rn & W & _). pose proof (prefix_states fs r w (S (List.length r) + List.length w + 13) Hr) as K.
  rewrite firstn_all2 in K by (cbn [List.length]; rewrite !app_length, map_length; cbn [cleanup List.length map]; lia). rewrite X in K.
  destruct K as [(K & _)|[(_ & K & _)|[(_ & _ & _ & K)|(_ & _ & q & K1 & K2)]]]; [lia|lia|destruct (K eq_refl); lia|].
  exists q. split; [exact K1|]. exact (converted E savec loadc host fs Gf _ _ _ Rn W Ha K2).
Qed.
Lemma killed_late n d' : o_reg fs = true -> image_not_ahead E fs -> (List.length (fst (plan fs)) - List.length cleanup <= n)%nat -> snd (plan fs) = true ->
  new_storage E savec host (Some n) (old_disk fs) = (d', Killed) -> exists q, k_sql d' = Some q /\ forall i, db_has E loadc host fs q i.
Proof.
  intros Rg Ha Ln Pk. unfold new_storage. cbn [old_disk k_sql k_fs]. rewrite Rg. destruct (plan fs) as (steps, ok) eqn:P. cbn [snd fst] in *. subst ok. fold (old_disk fs).
  destruct (plan_all steps P) as (r & w & -> & Hr & Rn & W & _). pose proof (prefix_states fs r w n Hr) as K. destruct (exec _ (old_disk fs)) as (d, b) eqn:X.
  intros H. injection H as <- H. destruct b; [|discriminate].
  assert (L : (S (List.length r) + List.length w <= n)%nat) by (cbn [List.length] in Ln; rewrite !app_length, map_length in Ln; cbn [cleanup List.length map] in Ln; lia).
  assert (C : exists q, k_sql d = Some q /\ runw savec w sql_empty = Some q).
  { destruct K as [(K & _)|[(_ & K & -> & _)|[(_ & _ & _ & K)|(_ & _ & K)]]]; [lia| | |exact K].
    - exists sql_empty. split; [reflexivity|]. destruct w; [reflexivity|cbn in L; lia].
    - destruct (K eq_refl) as (K1 & q & K2 & K3). exists q. split; [exact K2|]. rewrite firstn_all2 in K3 by lia. exact K3. }
  destruct C as (q & C1 & C2). exists q. split; [exact C1|]. exact (converted E savec loadc host fs Gf _ _ _ Rn W Ha C2).
Qed.
Lemma runw_some l : forall q, q_dev q <> None \/ ~ In WReg l -> exists q', runw savec l q = Some q' /\ (q_dev q <> None -> q_dev q' <> None).
Proof.
  induction l as [|w l IH]; intros q H; cbn [runw]; [eauto|].
  assert (K : exists q1, ConvModel.write savec w q = Some q1 /\ (q_dev q <> None -> q_dev q1 <> None)).
  { destruct w; cbn [ConvModel.write]; try (eexists; split; [reflexivity|cbn; auto; fail]); [eexists; split; [reflexivity|cbn; discriminate]|].
    destruct (q_dev q) as [(x & b)|] eqn:D; [eexists; split; [reflexivity|cbn; discriminate]|]. destruct H as [H|H]; [congruence|destruct H; now left]. }
  destruct K as (q1 & K1 & K2). rewrite K1. destruct (IH q1) as (q' & R & D); [destruct H as [H|H]; [left; auto|right; intros I; apply H; now right]|]. exists q'. auto.
Qed.
Lemma serials_valid : ecus_valid host fs -> exists o, fs_serials host fs = Ok o.
Proof.
  unfold fs_serials. intros [N|(l & (s & secs & Hs & -> & N & M) & V)]; [rewrite N; eauto|]. rewrite Hs.
  replace (match o_secs fs with Some l => map ecu_line l | None => [] end) with secs.
  - assert (P : forall l, Forall (fun p => (1 <= String.length (fst p) <= 64)%nat /\ (String.length (snd p) <= 200)%nat) l -> ecu_pairs l = Ok l).
    { clear. induction 1 as [|(a, b) l ((A1 & A2) & B) _ IH]; [reflexivity|]. cbn [fst snd] in *. cbn [ecu_pairs]. unfold ecu_pair, ecu_serial, hw_id. cbn [fst snd].
      replace (Nat.ltb (String.length a) 1) with false by (symmetry; apply Nat.ltb_ge; lia). replace (Nat.ltb 64 (String.length a)) with false by (symmetry; apply Nat.ltb_ge; lia).
      replace (Nat.ltb 200 (String.length b)) with false by (symmetry; apply Nat.ltb_ge; lia). cbn [bind]. rewrite IH. reflexivity. }
    rewrite (P _ V). cbn [bind]. eauto.
  - destruct (o_secs fs) as [lines|]; [|auto]. subst lines. rewrite map_map. symmetry. clear V. induction N as [|(a, b) secs Na _ IH]; [reflexivity|].
    cbn [map]. rewrite IH. f_equal. unfold ecu_line, tab. cbn [fst snd append]. now rewrite cut_tab_app.
Qed.
(** Files that are in order are converted. *)
Lemma opens : o_reg fs = true -> o_dev fs <> None -> ecus_valid host fs -> snd (new_storage E savec host None (old_disk fs)) = Opened.
Proof.
  intros Rg Dv Ev. assert (Rs : forall rp, exists r, rename_steps E fs rp = Ok r).
  { intros rp. unfold rename_steps. destruct (o_meta fs rp RRoot) as [raw|] eqn:M; [|eauto]. destruct (gf_root _ _ _ _ fs Gf _ _ M) as (v & _ & ->). cbn [bind]. eauto. }
  destruct (Rs Director) as (r1 & R1), (Rs Image) as (r2 & R2). pose proof (rename_both E savec loadc host fs Gf r1 r2 R1 R2) as Rn.
  assert (P : exists steps, plan fs = (steps, true)).
  { unfold ConvModel.plan. rewrite R1, R2. fold (ren (r1 ++ r2) fs) in Rn |- *. destruct (writes E host (ren (r1 ++ r2) fs)) as (w, ok) eqn:W. cut (ok = true); [intros ->; eauto|].
    destruct Rn as (m & r & n & F & Hm & Hr & Hn). rewrite F in W. unfold ConvModel.writes in W. change (fs_serials host (fs_meta m r n fs)) with (fs_serials host fs) in W.
    destruct (serials_valid Ev) as (o & So). rewrite So in W. destruct (fs_load_root (fs_meta m r n fs) Director (-1)) as [latest|] eqn:Lr; [|injection W as _ <-; reflexivity].
    unfold fs_load_root in Lr. cbn [Z.ltb] in Lr. change (-1 <? 0) with true in Lr. cbv iota zeta in Lr. destruct (max_version (o_rootnums (fs_meta m r n fs) Director) <? 0); [discriminate|]. cbn [fs_meta o_roots] in Lr.
    apply Hr in Lr. destruct (root_of_facts E savec loadc host fs Gf _ _ _ Lr) as (_ & _ & X). rewrite X in W. injection W as _ <-. reflexivity. }
  destruct P as (steps & P). unfold new_storage. cbn [old_disk k_sql k_fs]. rewrite Rg. fold (old_disk fs). rewrite P.
  destruct (plan_all steps P) as (r & w & -> & Hr & (m & r0 & n & F & _) & W & _). pose proof (prefix_states fs r w (S (List.length r) + List.length w + 13) Hr) as K.
  rewrite firstn_all2 in K by (cbn [List.length]; rewrite !app_length, map_length; cbn [cleanup List.length map]; lia).
  destruct (exec _ (old_disk fs)) as (d, b). cbn [snd]. destruct b; [reflexivity|]. exfalso.
  assert (Rw : runw savec w sql_empty = None).
  { destruct K as [(K & _)|[(_ & K & _)|[(_ & _ & K & _)|(_ & K & _)]]]; [lia|lia|exact (K eq_refl)|discriminate]. }
  assert (Sh : exists rest, w = (match o_pub fs, o_priv fs with Some a, Some b => [WKeys a b] | _, _ => [] end ++
        opt_write (o_ca fs) WCa ++ opt_write (o_cert fs) WCert ++ opt_write (o_pkey fs) WPkey ++ opt_write (o_dev fs) WDev) ++ rest).
  { rewrite F in W. unfold ConvModel.writes in W. cbn [fs_meta o_pub o_priv o_ca o_cert o_pkey o_dev] in W. destruct (fs_serials host (fs_meta m r0 n fs)); [|injection W as <-; exists []; now rewrite app_nil_r].
    destruct (fs_load_root _ Director (-1)) as [latest|]; [|injection W as <-; eauto]. destruct (extract_version_untrusted E latest); injection W as <-; [rewrite <- app_assoc|]; eauto. }
  destruct Sh as (rest & ->). rewrite runw_app in Rw. match type of Rw with context [runw savec ?c sql_empty] => set (cr := c) in Rw end.
  destruct (runw_some cr sql_empty) as (q1 & R1' & _).
  { right. subst cr. rewrite !in_app_iff. intros Q. destruct (o_pub fs), (o_priv fs), (o_ca fs), (o_cert fs), (o_pkey fs), (o_dev fs); cbn in Q; intuition discriminate. }
  rewrite R1' in Rw. destruct (runw_some rest q1) as (q2 & R2' & _); [|congruence]. left. rewrite (p_dev savec _ _ _ R1'). subst cr.
  destruct (o_dev fs) as [x|]; [|congruence]. destruct (o_pub fs), (o_priv fs), (o_ca fs), (o_cert fs), (o_pkey fs); cbn; discriminate.
Qed.
Lemma have_refl i : files_have E fs fs i.
Proof. destruct i; cbn; auto. Qed.
Lemma start_any c : (forall rp, o_meta fs rp RRoot = None) -> image_not_ahead E fs -> forall i, let d' := fst (new_storage E savec host c (old_disk fs)) in
  files_have E fs (k_fs d') i \/ exists q, k_sql d' = Some q /\ db_has E loadc host fs q i.
Proof.
  intros N Ha i. cbv zeta. unfold new_storage. cbn [old_disk k_sql k_fs]. fold (old_disk fs).
  assert (Rn : forall rp, rename_steps E fs rp = Ok []) by (intros rp; unfold rename_steps; rewrite N; reflexivity).
  assert (Z : forall l, forallb (fun x => match x with DCreate | DPut _ => true | _ => false end) l = true -> forall d, k_fs (fst (exec l d)) = k_fs d).
  { induction l as [|x l IH]; intros H d; cbn [ConvModel.exec]; [reflexivity|]. cbn [forallb] in H. apply andb_true_iff in H. destruct H as (H & Hl).
    destruct (do_step savec x d) as [d1|] eqn:S; [|reflexivity]. rewrite (IH Hl). destruct x; try discriminate; cbn in S; [injection S as <-; reflexivity|].
    destruct (k_sql d); [|discriminate]. destruct (ConvModel.write savec w s); [|discriminate]. injection S as <-. reflexivity. }
  assert (Zf : forall n l, forallb (fun x => match x with DCreate | DPut _ => true | _ => false end) l = true -> forallb (fun x => match x with DCreate | DPut _ => true | _ => false end) (firstn n l) = true).
  { intros n l. revert n. induction l as [|x l IH]; intros [|n] H; cbn in *; auto. apply andb_true_iff in H. destruct H as (-> & H). cbn. auto. }
  assert (Same : forall l ok, forallb (fun x => match x with DCreate | DPut _ => true | _ => false end) l = true ->
     files_have E fs (k_fs (fst (match c with None => let (d', b) := exec l (old_disk fs) in (d', if b && ok then Opened else Failed) | Some n => let (d', b) := exec (firstn n l) (old_disk fs) in (d', if b then Killed else Failed) end))) i).
  { intros l ok Hl. destruct c as [n|].
    - pose proof (Z _ (Zf n l Hl) (old_disk fs)) as Q. destruct (exec (firstn n l) (old_disk fs)). cbn [fst] in *. rewrite Q. apply have_refl.
    - pose proof (Z _ Hl (old_disk fs)) as Q. destruct (exec l (old_disk fs)). cbn [fst] in *. rewrite Q. apply have_refl. }
  destruct (o_reg fs); [|left; apply (Same [DCreate] true eq_refl)].
  destruct (plan fs) as (steps, ok) eqn:P. destruct ok.
  - destruct (plan_all steps P) as (r & w & -> & Hr & Rnd & W & _ & Nr). specialize (Nr N). subst r. cbn [app] in *.
    assert (K : forall n, let (d, b) := exec (firstn n (DCreate :: map DPut w ++ cleanup)) (old_disk fs) in files_have E fs (k_fs d) i \/ exists q, k_sql d = Some q /\ db_has E loadc host fs q i).
    { intros n. pose proof (prefix_states fs [] w n eq_refl) as K. cbn [app] in K. destruct (exec _ (old_disk fs)) as (d, b).
      destruct K as [(_ & ->)|[(_ & _ & -> & _)|[(_ & K & _)|(_ & _ & q & K1 & K2)]]].
      - left. apply have_refl.
      - left. destruct (n - 1)%nat; apply have_refl.
      - left. rewrite K. apply have_refl.
      - right. exists q. split; [exact K1|]. exact (converted E savec loadc host fs Gf _ _ _ Rnd W Ha K2 i). }
    destruct c as [n|].
    + specialize (K n). destruct (exec _ (old_disk fs)). exact K.
    + specialize (K (List.length (DCreate :: map DPut w ++ cleanup))). rewrite firstn_all in K. destruct (exec _ (old_disk fs)). exact K.
  - left. apply Same. unfold ConvModel.plan in P. rewrite !Rn in P. cbn [app fold_left] in P. destruct (writes E host fs) as (w, ok). injection P as <- ->. cbn [forallb]. rewrite app_nil_r.
    induction w; cbn; auto.
Qed.
Lemma some_stays c d q : k_sql d = Some q -> fst (new_storage E savec host c d) = d.
Proof. intros H. unfold new_storage. rewrite H. reflexivity. Qed.
Lemma starts_stay l : forall d q, k_sql d = Some q -> starts E savec host l d = d.
Proof. induction l as [|c l IH]; intros d q H; cbn [starts fold_left]; [reflexivity|]. rewrite (some_stays c d q H). exact (IH d q H). Qed.
Lemma start_zero c d : k_sql d = None -> k_sql (fst (new_storage E savec host c d)) = None -> fst (new_storage E savec host c d) = d.
Proof.
  intros N. unfold new_storage. rewrite N. set (p := if o_reg (k_fs d) then _ else _).
  assert (Hd : exists l, fst p = DCreate :: l) by (subst p; destruct (o_reg (k_fs d)); [|cbn; eauto]; unfold ConvModel.plan; destruct (rename_steps E (k_fs d) Director); [|cbn; eauto]; destruct (rename_steps E (k_fs d) Image); [|cbn; eauto]; destruct (writes E host _); cbn; eauto).
  destruct p as (steps, ok). cbn [fst] in Hd. destruct Hd as (l & ->).
  assert (K : forall l d', k_sql d' <> None -> k_sql (fst (exec l d')) <> None).
  { clear. induction l as [|x l IH]; intros d' H; cbn [ConvModel.exec]; [exact H|]. destruct (do_step savec x d') as [d1|] eqn:S; [|exact H]. apply IH. destruct x; cbn in S; try (injection S as <-; cbn; try discriminate; exact H).
    destruct (k_sql d'); [|discriminate]. destruct (ConvModel.write savec w s); [|discriminate]. injection S as <-. discriminate. }
  destruct c as [[|n]|].
  - reflexivity.
  - cbn [firstn ConvModel.exec do_step]. pose proof (K (firstn n l) {| k_sql := Some sql_empty; k_fs := k_fs d |} ltac:(discriminate)) as Q. destruct (exec (firstn n l) _). cbn [fst] in *. contradiction.
  - cbn [ConvModel.exec do_step]. pose proof (K l {| k_sql := Some sql_empty; k_fs := k_fs d |} ltac:(discriminate)) as Q. destruct (exec l _). cbn [fst] in *. contradiction.
Qed.
Lemma starts_one l : starts E savec host l (old_disk fs) = old_disk fs \/ exists c, starts E savec host l (old_disk fs) = fst (new_storage E savec host c (old_disk fs)).
Proof.
  induction l as [|c l IH]; [left; reflexivity|]. cbn [starts fold_left]. fold (starts E savec host l).
  destruct (k_sql (fst (new_storage E savec host c (old_disk fs)))) as [q|] eqn:K.
  - right. exists c. exact (starts_stay l _ q K).
  - rewrite (start_zero c (old_disk fs) eq_refl K). exact IH.
Qed.
Lemma starts_any l : (forall rp, o_meta fs rp RRoot = None) -> image_not_ahead E fs -> forall i, let d' := starts E savec host l (old_disk fs) in
  files_have E fs (k_fs d') i \/ exists q, k_sql d' = Some q /\ db_has E loadc host fs q i.
Proof.
  intros N Ha i. destruct (starts_one l) as [->|(c & ->)]; [left; apply have_refl|]. now apply start_any.
Qed.
Lemma early_lost n r1 r2 l : o_reg fs = true -> rename_steps E fs Director = Ok r1 -> rename_steps E fs Image = Ok r2 -> (1 <= n <= 1 + List.length r1 + List.length r2)%nat ->
  k_sql (starts E savec host l (fst (new_storage E savec host (Some n) (old_disk fs)))) = Some sql_empty.
Proof.
  intros Rg R1 R2 Hn. assert (K : k_sql (fst (new_storage E savec host (Some n) (old_disk fs))) = Some sql_empty).
  { unfold new_storage. cbn [old_disk k_sql k_fs]. rewrite Rg. fold (old_disk fs). unfold ConvModel.plan. rewrite R1, R2. destruct (writes E host _) as (w, ok).
    destruct n as [|n]; [lia|]. cbn [firstn ConvModel.exec do_step old_disk k_fs]. rewrite app_assoc, firstn_app.
    replace (n - List.length (r1 ++ r2))%nat with 0%nat by (rewrite app_length; lia). cbn [firstn]. rewrite app_nil_r.
    rewrite exec_files; [reflexivity|]. apply firstn_files. rewrite forallb_app, (rename_files _ _ _ R1), (rename_files _ _ _ R2). reflexivity. }
  rewrite (starts_stay l _ _ K). exact K.
Qed.
End Steps.
