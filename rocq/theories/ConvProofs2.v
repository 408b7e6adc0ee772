(** A conversion that comes to its end. *)
From Verif Require Import Base Json TufModel TufProofs MetaStore RepoModel RepoSpec RepoProofs RepoProofs8 CodecModel InstModel InstSpec InstProofs InstProofs2 ConvModel ConvSpec ConvProofs.

Section P.
Context (E : Env) (savec : json -> string) (loadc : string -> option json) (host : string).
Context (fs : files) (Gf : good_files E savec loadc host fs).

Lemma fold_tail {A} (f : A -> wr -> A) l : (forall w a, tailish w -> f a w = a) -> Forall tailish l -> forall a, fold_left f l a = a.
Proof. intros H F. apply fold_id. intros w a Iw. apply H. rewrite Forall_forall in F. auto. Qed.

Lemma F2_length {A B} (R : A -> B -> Prop) l k : Forall2 R l k -> List.length l = List.length k.
Proof. induction 1; cbn; congruence. Qed.

Lemma converted fs1 w q : renamed E fs fs1 -> writes E host fs1 = (w, true) -> image_not_ahead E fs -> runw savec w sql_empty = Some q ->
  forall i, db_has E loadc host fs q i.
Proof.
  intros Rn Hw Ha R. destruct (writes_shape E savec loadc host fs Gf fs1 w Rn Hw Ha) as (sers & vers & rest & S & V & W & Rest).
  assert (Tl : Forall tailish (vers ++ rest)).
  { apply Forall_app. split.
    - rewrite V. destruct (fs_versions E (o_vers fs)) as (ts, cur). apply Forall_forall. intros x Ix. apply (in_versions loadc host) in Ix. destruct Ix as (t & m & ->). exact I.
    - apply Forall_forall. intros x Ix. apply Rest in Ix. destruct Ix as [(? & ? & ? & ? & ? & ->)|(? & ? & ? & ? & ->)]; exact I. }
  assert (Meta : forall x, In x w -> mop x <> [] -> In x rest).
  { intros x Ix Nx. rewrite W in Ix. rewrite !in_app_iff in Ix.
    destruct Ix as [[Q|[Q|[Q|[Q|Q]]]]|[Q|[Q|[Q|Q]]]]; [| | | | | | | |exact Q]; exfalso; apply Nx.
    - destruct (o_pub fs), (o_priv fs); cbn in Q; try tauto. destruct Q as [<-|[]]. reflexivity.
    - apply (in_opt loadc host) in Q. destruct Q as (? & _ & ->). reflexivity.
    - apply (in_opt loadc host) in Q. destruct Q as (? & _ & ->). reflexivity.
    - apply (in_opt loadc host) in Q. destruct Q as (? & _ & ->). reflexivity.
    - apply (in_opt loadc host) in Q. destruct Q as (? & _ & ->). reflexivity.
    - destruct sers; cbn in Q; try tauto. destruct Q as [<-|[]]. reflexivity.
    - destruct (o_reg fs); cbn in Q; try tauto. destruct Q as [<-|[]]. reflexivity.
    - rewrite V in Q. destruct (fs_versions E (o_vers fs)). apply (in_versions loadc host) in Q. destruct Q as (? & ? & ->). reflexivity. }
  assert (Sto : Forall storable (flat_map mop w)).
  { apply Forall_forall. intros o Io. apply in_flat_map in Io. destruct Io as (x & Ix & Io). assert (Nx : mop x <> []) by (intros Q; rewrite Q in Io; destruct Io).
    apply (Meta x Ix) in Nx. apply Rest in Nx. destruct Nx as [(raw & rp & ty & T & M & ->)|(raw & rp & v & M & ->)]; cbn in Io; destruct Io as [<-|[]]; cbn.
    - split; [exact (gf_meta _ _ _ _ fs Gf _ _ _ M)|]. destruct T as [->|[->| ->]]; discriminate.
    - exact (proj1 (root_of_facts E savec loadc host fs Gf _ _ _ M)). }
  destruct (meta_store_refines (flat_map mop w) Sto) as (SR & SN & _).
  assert (Qm : q_meta q = fold_left (fun d o => db_store o d) (flat_map mop w) db_empty) by (rewrite (p_meta savec _ _ _ R); apply meta_ops).
  assert (Qi : q_inst q = fold_left (f_inst savec) w (q_inst sql_empty)) by (apply p_inst; exact R).
  assert (Inst : q_inst q = fold_left (f_inst savec) vers (match sers with Some l => store_ecu_serials l idb_empty | None => idb_empty end)).
  { rewrite Qi, W, !fold_left_app. rewrite (fold_id _ rest).
    2:{ intros x a Ix. apply Rest in Ix. destruct Ix as [(? & ? & ? & ? & ? & ->)|(? & ? & ? & ? & ->)]; reflexivity. }
    f_equal. destruct (o_pub fs), (o_priv fs), (o_ca fs), (o_cert fs), (o_pkey fs), (o_dev fs), sers, (o_reg fs); reflexivity. }
  assert (Reach : ireach savec (good_target savec loadc) (match sers with Some l => store_ecu_serials l idb_empty | None => idb_empty end)).
  { destruct sers as [l|]; [|apply ireach_0]. apply (ireach_S savec _ idb_empty (OpStoreEcus l)); [apply ireach_0|]. cbn. destruct l as [|(p, h) l]; [exact I|].
    split; [|left; intros ? []]. unfold fs_serials in S. destruct (o_serial fs); [|discriminate]. apply bind_ok in S. destruct S as (k & K & S). injection S as ->.
    apply ecu_pairs_ok in K. destruct K as (K & F). rewrite <- K in F. inversion F; auto. }
  rewrite W in R.
  intros [| | | | | | | |rp ty|rp v]; cbn [db_has].
  - intros a b A B. rewrite (p_keys savec _ _ _ R), !app_assoc, <- (app_assoc _ vers rest), fold_left_app, (fold_tail f_keys _ ltac:(intros []; cbn; tauto) Tl), A, B.
    destruct (o_ca fs), (o_cert fs), (o_pkey fs), (o_dev fs), sers, (o_reg fs); reflexivity.
  - intros x X. rewrite (p_ca savec _ _ _ R), !app_assoc, <- (app_assoc _ vers rest), fold_left_app, (fold_tail f_ca _ ltac:(intros []; cbn; tauto) Tl), X.
    destruct (o_pub fs), (o_priv fs), (o_cert fs), (o_pkey fs), (o_dev fs), sers, (o_reg fs); reflexivity.
  - intros x X. rewrite (p_cert savec _ _ _ R), !app_assoc, <- (app_assoc _ vers rest), fold_left_app, (fold_tail f_cert _ ltac:(intros []; cbn; tauto) Tl), X.
    destruct (o_pub fs), (o_priv fs), (o_ca fs), (o_pkey fs), (o_dev fs), sers, (o_reg fs); reflexivity.
  - intros x X. rewrite (p_pkey savec _ _ _ R), !app_assoc, <- (app_assoc _ vers rest), fold_left_app, (fold_tail f_pkey _ ltac:(intros []; cbn; tauto) Tl), X.
    destruct (o_pub fs), (o_priv fs), (o_ca fs), (o_cert fs), (o_dev fs), sers, (o_reg fs); reflexivity.
  - intros x X. rewrite (p_dev savec _ _ _ R), !app_assoc, <- (app_assoc _ vers rest), fold_left_app, (fold_tail f_dev _ ltac:(intros []; cbn; tauto) Tl), X.
    destruct (o_pub fs), (o_priv fs), (o_ca fs), (o_cert fs), (o_pkey fs), sers, (o_reg fs); cbn; eauto.
  - intros Rg. rewrite Rg in R. rewrite !app_assoc, <- (app_assoc _ vers rest) in R. rewrite runw_app in R.
    match type of R with (match runw _ ?l _ with _ => _ end) = _ => destruct (runw savec l sql_empty) as [q1|] eqn:R1; [|discriminate] end.
    rewrite (p_dev savec _ _ _ R), (fold_tail f_dev _ ltac:(intros []; cbn; tauto) Tl). rewrite runw_app in R1.
    match type of R1 with (match runw _ ?l _ with _ => _ end) = _ => destruct (runw savec l sql_empty) as [q0|] eqn:R0; [|discriminate] end.
    cbn [runw ConvModel.write] in R1. destruct (q_dev q0) as [(x & b)|]; [|discriminate]. injection R1 as <-. cbn. eauto.
  - intros l L. destruct (serials_ok host fs l sers L S) as (-> & F). rewrite Inst.
    assert (X : il_ecus (store_ecu_serials l idb_empty) = l).
    { unfold store_ecu_serials. destruct l as [|(p, h) l']; [reflexivity|]. rewrite nodupb_ok; [reflexivity|]. exact (gf_ecus _ _ _ _ fs Gf _ L). }
    rewrite V. destruct (fs_versions E (o_vers fs)) as (ts, cur). clear - X. revert X. generalize (store_ecu_serials l idb_empty) as d. generalize 0%nat as k. 
    induction ts as [|t ts IH]; intros k d X; cbn [version_writes fold_left]; [exact X|]. apply IH. exact X.
  - intros text t Ht (pre & e & post & Eq & Et & Em & Ep). destruct (gf_vers _ _ _ _ fs Gf text Ht) as (ts & Vf & Mk & Gt & ND).
    destruct (read_versions_ok _ _ Vf Mk 0%nat None) as (c & Rd & _ & C2 & _). specialize (C2 pre e post Eq Em Ep). cbn in C2. subst c.
    assert (Fv : fs_versions E (o_vers fs) = (ts, Some (List.length pre))) by (unfold fs_versions; rewrite Ht, Rd; reflexivity). rewrite Fv in V.
    rewrite Inst, V. apply (versions_current savec loadc ts 0 (List.length pre)); auto; [lia|]. rewrite Nat.sub_0_r.
    unfold versions_file in Vf. rewrite Eq in Vf. apply Forall2_app_inv_l in Vf. destruct Vf as (t1 & t2 & F1 & F2 & ->). inversion F2 as [|? y ? t3 Fy F3]; subst.
    rewrite nth_error_app2 by (rewrite (F2_length _ _ _ F1); lia). rewrite (F2_length _ _ _ F1), Nat.sub_diag. cbn. f_equal.
    clear - Fy Et. unfold entry_target in *. destruct (snd e); try congruence; destruct Fy as (n1 & A & B), Et as (n2 & A' & B'); congruence.
  - intros T raw M. rewrite Qm, SN; [|destruct T as [->|[->| ->]]; discriminate]. f_equal. apply mm_meta_in.
    + rewrite W, !in_app_iff. right. right. right. right. apply Rest. left. eauto 6.
    + intros raw' Ir. apply Meta in Ir; [|discriminate]. apply Rest in Ir. destruct Ir as [(r' & rp' & ty' & T' & M' & X)|(? & ? & ? & _ & X)]; [|discriminate]. injection X as -> -> ->. congruence.
  - intros raw M. destruct (root_of_facts E savec loadc host fs Gf _ _ _ M) as (_ & Hv & _). rewrite Qm, SR by exact Hv. f_equal. apply mm_root_in.
    + rewrite W, !in_app_iff. right. right. right. right. apply Rest. right. eauto 6.
    + intros raw' Ir. apply Meta in Ir; [|discriminate]. apply Rest in Ir. destruct Ir as [(? & ? & ? & _ & _ & X)|(r' & rp' & v' & M' & X)]; [discriminate|]. injection X as -> -> ->.
      exact (root_of_fun E fs _ _ _ _ M' M).
Qed.
End P.
