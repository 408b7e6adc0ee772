(** Proofs about the installation of an update, continued: what is recorded at the end. *)
From Verif Require Import Base Json TufModel TufSpec MetaStore RepoModel RepoSpec CodecModel InstModel InstSpec InstProofs InstProofs2 InstLogProofs DevModel DevSpec DevProofs DevProofs2
  ClientModel ClientSpec ClientProofs2 UpdModel UpdSpec UpdProofs UpdProofs2 UpdProofs3.

Lemma good_corr savec loadc t c : good_target savec loadc t -> good_target savec loadc (set_corr t c).
Proof. intros (H1 & H2 & H3 & H4 & H5). repeat split; auto; cbn; try apply H4. Qed.
Lemma sha_corr t c : sha256_hash (set_corr t c) = sha256_hash t. Proof. reflexivity. Qed.
Lemma NoDup_map_filter {A B} (f : A -> B) p l : NoDup (map f l) -> NoDup (map f (filter p l)).
Proof.
  induction l as [|a l IH]; cbn; intros H; [constructor|]. inversion H as [|? ? N D]; subst. destruct (p a); cbn; [constructor|]; auto.
  intros X. apply N. apply in_map_iff in X. destruct X as (b & E & X). apply filter_In in X. apply in_map_iff. exists b. tauto.
Qed.

Section U.
Context (savec : json -> string) (loadc : string -> option json) (E : Env) (fnm : string -> string -> bool).
Context (P : primary) (W : world) (srv : server).
Notation ev_idb := (ev_idb savec).
Notation good := (good_target savec loadc).
Notation wfd := (wf savec good).
Notation load := (load_installed loadc).

Lemma real_ne d s : s <> "" -> real_serial d s = s.
Proof. intros H. unfold real_serial. destruct (String.eqb_spec s ""); [contradiction|reflexivity]. Qed.
(** ** Folding *)
Definition good_ev (e : uev) : Prop := match e with UVersion _ t _ => good t | _ => True end.
Lemma fold_wf evs : forall d, Forall good_ev evs -> wfd d -> wfd (fold_left ev_idb evs d).
Proof. induction evs as [|e evs IH]; intros d F Hw; cbn; [exact Hw|]. inversion F; subst. apply IH; [assumption|]. destruct e; cbn; auto. now apply save_wf. Qed.
Definition no_version (ecu : string) (e : uev) : Prop := match e with UVersion s _ _ => s <> "" /\ s <> ecu | _ => True end.
Lemma fold_other ecu evs : ecu <> "" -> forall d, Forall good_ev evs -> Forall (no_version ecu) evs -> wfd d -> load ecu (fold_left ev_idb evs d) = load ecu d.
Proof.
  intros Ne. induction evs as [|e evs IH]; intros d G N Hw; cbn [fold_left]; [reflexivity|]. inversion G; subst. inversion N; subst. rewrite IH; auto.
  - destruct e; cbn; auto. apply (others_unaffected savec loadc); [exact Hw|]. cbn in *. rewrite !real_ne by tauto. intuition congruence.
  - destruct e; cbn; auto. now apply save_wf.
Qed.
Lemma fold_none evs : forall d, Forall (fun e => match e with UVersion _ _ _ => False | _ => True end) evs -> fold_left ev_idb evs d = d.
Proof. induction evs as [|e evs IH]; intros d F; cbn; [reflexivity|]. inversion F; subst. destruct e; cbn; try apply IH; auto. contradiction. Qed.
Lemma fold_dev_none ecu evs : forall d, Forall (fun e => match e with UEcuRes s _ => s <> ecu | _ => True end) evs -> aget ecu (v_eres (fold_left ev_dev evs d)) = aget ecu (v_eres d).
Proof.
  induction evs as [|e evs IH]; intros d F; cbn; [reflexivity|]. inversion F as [|? ? F1 F2]; subst. rewrite IH by assumption. destruct e; cbn; auto.
  - unfold save_eres. destruct (to_row r); cbn [bind v_eres]; [|reflexivity]. rewrite aget_other; [reflexivity|congruence].
  - unfold store_dres. destruct (to_row r); reflexivity.
Qed.
Lemma fold_dev_keep ecu r w evs : to_row r = Ok w -> forall d, Forall (fun e => match e with UEcuRes s r' => s = ecu -> r' = r | _ => True end) evs -> aget ecu (v_eres d) = Some w ->
  aget ecu (v_eres (fold_left ev_dev evs d)) = Some w.
Proof.
  intros R. induction evs as [|e evs IH]; intros d F H; cbn; [exact H|]. inversion F as [|? ? F1 F2]; subst. apply IH; [assumption|]. destruct e; cbn; auto.
  - unfold save_eres. destruct (to_row r0) eqn:R0; cbn [bind v_eres]; [|exact H]. destruct (string_dec ecu ecu0) as [->|N].
    + rewrite aget_same. rewrite (F1 eq_refl) in R0. congruence.
    + rewrite aget_other by assumption. exact H.
  - unfold store_dres. destruct (to_row r0); exact H.
Qed.

(** ** Outcomes *)
Notation sec_outcome := (sec_outcome loadc).
Notation prim_outcome := (prim_outcome loadc).
Lemma not_current_eq d d' ecu t : load ecu d' = load ecu d -> not_current loadc d ecu t -> not_current loadc d' ecu t.
Proof. intros H N c p X. apply (N c p). congruence. Qed.

Lemma sec_pairs_nodup ts : one_each ts -> NoDup (map snd (sec_pairs P ts)) /\ ~ In (pr_serial P) (map snd (sec_pairs P ts)).
Proof.
  intros H. split.
  - unfold sec_pairs. rewrite map_map. cbn. apply NoDup_map_filter. unfold one_each in H. replace (map (fun x => fst (snd x)) (pairs ts)) with (map fst (flat_map t_ecus ts)); [exact H|].
    unfold pairs. clear. induction ts as [|t ts IH]; [reflexivity|]. cbn [flat_map]. rewrite !map_app, IH, map_map. reflexivity.
  - intros X. apply in_map_iff in X. destruct X as ((t, ecu) & Ee & X). cbn in Ee. subst ecu. apply sec_pairs_in in X. tauto.
Qed.
(** The reports of the Secondaries, in order. *)
Lemma reports_ecus corr ts y : Forall2 (rep_of corr) y (map snd (tasks_of P W corr ts)) -> map ecu_of y = map snd (sec_pairs P ts).
Proof.
  intros F. assert (X : map ecu_of y = map (fun z : target * string * res ires => snd (fst z)) (map snd (tasks_of P W corr ts))).
  { clear - F. induction F as [|((t, e), r) ((t', e'), fr) l l' H F IH]; [reflexivity|]. cbn in *. destruct H as (_ & -> & _). rewrite IH. reflexivity. }
  rewrite X, map_map. unfold tasks_of. rewrite <- (run_tasks_pairs W corr (sec_pairs P ts) 0) at 2. rewrite map_map. reflexivity.
Qed.
Lemma split_report (y : list ecu_report) x : In x y -> NoDup (map ecu_of y) -> exists a b, y = a ++ x :: b /\ ~ In (ecu_of x) (map ecu_of a) /\ ~ In (ecu_of x) (map ecu_of b).
Proof.
  intros H N. apply in_split in H. destruct H as (a & b & ->). exists a, b. split; [reflexivity|]. rewrite map_app in N. cbn in N. apply NoDup_remove_2 in N.
  split; intros X; apply N, in_or_app; auto.
Qed.
Lemma rep_no_version ecu y : ~ In ecu (map ecu_of y) -> ~ In "" (map ecu_of y) -> Forall (no_version ecu) (flat_map rep_writes y) /\
  Forall (fun e => match e with UEcuRes s _ => s <> ecu | _ => True end) (flat_map rep_writes y).
Proof.
  intros H Z. assert (K : forall t e r, In (t, e, r) y -> e <> "" /\ e <> ecu).
  { intros t e r Hi. assert (In e (map ecu_of y)) by (apply in_map_iff; exists (t, e, r); auto). split; intros ->; contradiction. }
  split; apply Forall_forall; intros e He; apply flat_rep_in in He; destruct He as (t & e0 & r & Hy & [X| ->]); cbn; auto; try (now apply (K t e0 r)).
  - apply version_writes_in in X. destruct X as [(_ & ->)|(_ & _ & ->)]; cbn; eauto.
  - apply version_writes_in in X. destruct X as [(_ & ->)|(_ & _ & ->)]; cbn; auto.
Qed.

Notation nonempty_serials := (nonempty_serials P).
Theorem outcome clkd clki now ts s s' dr reps :
  wfd (p_idb s) -> Forall good ts -> one_each ts -> nonempty_serials ->
  uptane_install savec loadc E fnm P W srv clkd clki now ts s = (s', Ok (dr, reps)) ->
  let corr := tg_corr (u_dtargets (p_ust s')) in
  (exists w raw, to_row dr = Ok w /\ v_dres (p_dev s') = Some (w, raw, corr)) /\
  (reps = [] \/ forall t ecu, In t ts -> targets_ecu t ecu -> ecu = pr_serial P \/ secondary P ecu -> In ecu (map ecu_of reps)) /\
  NoDup (map ecu_of reps) /\
  (forall t' ecu r, In (t', ecu, r) reps ->
     (exists u, In u ts /\ targets_ecu u ecu /\ (t' = u \/ t' = set_corr u corr)) /\ stored_result (p_dev s') ecu r /\
     (if String.eqb ecu (pr_serial P) then prim_outcome else sec_outcome) (p_idb s) (p_idb s') ecu t' r) /\
  (forall ecu, ecu <> "" -> ~ In ecu (map ecu_of reps) -> load ecu (p_idb s') = load ecu (p_idb s) /\ aget ecu (v_eres (p_dev s')) = aget ecu (v_eres (p_dev s))).
Proof.
  intros Hw Hg H1 (Np & Ns) H. apply run_spec in H. destruct H as (s1 & yy & tl & B & A & [(_ & e & X)|(r0 & raw & reps0 & w & -> & [= <- <-] & R & ->)]); [discriminate|].
  apply body_spec in B. destruct B as (evs & T & I & D & _ & _ & K). destruct A as (_ & A2 & A3 & A4). cbn [fold_left ev_idb] in A2, A3. rewrite A2, A4. cbv zeta.
  set (corr := tg_corr (u_dtargets (p_ust s1))) in *.
  assert (DR : p_dev s' = fst (store_dres dr raw corr (p_dev s1))) by exact A3.
  assert (ER : v_eres (p_dev s') = v_eres (p_dev s1)) by (rewrite DR; unfold store_dres; rewrite R; reflexivity).
  split; [exists w, raw; split; [exact R|]; rewrite DR; unfold store_dres; rewrite R; reflexivity|].
  rewrite Forall_forall in Hg.
  destruct K as [(C & N)|(_ & _ & pings & metas & inst & y0 & Ee & F1 & F2 & _ & _ & IP & Fin)].
  { assert (reps = []) by (exact (N _ eq_refl)). subst reps. split; [left; reflexivity|]. split; [constructor|]. split; [intros ? ? ? []|]. intros ecu Ne _. split.
    - rewrite I. rewrite fold_none; [reflexivity|]. eapply Forall_impl; [|exact C]. intros e [X|X]; destruct e; destruct X; exact Logic.I.
    - rewrite ER, D. apply fold_dev_none. eapply Forall_impl; [|exact C]. intros e [X|X]; destruct e; destruct X; exact Logic.I. }
  destruct (Fin _ eq_refl) as (-> & _). clear Fin. cbn [snd] in IP.
  destruct IP as (pe & px & PD & [((e & _ & X) & _)|(pr & coll & -> & Ei & done & rest & y & Ed & F & [([= ->] & -> & ->)|((e & X) & _)])]); [discriminate| |discriminate].
  rewrite app_nil_r in Ed. subst done.
  assert (Ey := reports_ecus corr ts y F). destruct (sec_pairs_nodup ts H1) as (ND & NP). rewrite <- Ey in ND, NP.
  (* the reports of Secondaries *)
  assert (SR : forall t' ecu r, In (t', ecu, r) y -> exists u, In u ts /\ targets_ecu u ecu /\ (t' = u \/ t' = set_corr u corr) /\ (exists w, to_row r = Ok w) /\ ecu <> pr_serial P /\ secondary P ecu /\
      (t' = set_corr u corr \/ ir_success r = false /\ ~ waits r)).
  { intros t' ecu r Hi. destruct (Forall2_in_l _ _ _ _ F Hi) as (((u & e) & fr) & Hz & -> & -> & Rw & Tt). apply in_map_iff in Hz. destruct Hz as ((ev & z) & Z & Hz). cbn in Z. subst z.
    apply tasks_in in Hz. destruct Hz as ((U1 & U2 & U3 & U4) & _). exists u. split; [exact U1|]. split; [exact U2|]. split; [tauto|]. split; [exact Rw|]. split; [exact U3|]. split; [exact U4|].
    destruct Tt as [Tt|(_ & S & N)]; [auto|right; split; [exact S|now apply need_false]]. }
  assert (Zy : ~ In "" (map ecu_of y)).
  { intros X. apply in_map_iff in X. destruct X as (((t', ecu), r) & Ze & X). cbn in Ze. subst ecu. destruct (SR _ _ _ X) as (_ & _ & _ & _ & _ & _ & (hw & S) & _). exact (Ns hw S). }
  assert (Gy : Forall good_ev (flat_map rep_writes y)).
  { apply Forall_forall. intros e He. apply flat_rep_in in He. destruct He as (t & ecu & r & Hy & [X| ->]); [|exact Logic.I]. destruct (SR _ _ _ Hy) as (u & U1 & _ & U2 & _).
    assert (good t) by (destruct U2 as [->| ->]; [auto|apply good_corr; auto]). apply version_writes_in in X. destruct X as [(_ & ->)|(_ & _ & ->)]; assumption. }
  (* tables *)
  set (il := interleave (e_sched W) (map fst (tasks_of P W corr ts))) in *.
  assert (Qil : Forall quiet il).
  { apply Forall_forall. intros e He. apply interleave_in in He. destruct He as (l & Hl & He). apply in_map_iff in Hl. destruct Hl as ((ev & ((t1, ecu1), fr)) & Hl & Ht). cbn in Hl. subst ev.
    apply tasks_in in Ht. destruct Ht as (_ & j & Hj). apply task_events_spec in Hj. destruct Hj as (Q & _). rewrite Forall_forall in Q. exact (Q _ He). }
  assert (TI : p_idb s1 = fold_left ev_idb (flat_map rep_writes y) (fold_left ev_idb pe (p_idb s))).
  { rewrite I, Ee, Ei, !fold_left_app. rewrite (fold_none pings), (fold_none metas), (fold_none il); [reflexivity| | |].
    - eapply Forall_impl; [|exact Qil]. intros []; cbn; auto.
    - eapply Forall_impl; [|exact F2]. intros []; cbn; auto.
    - eapply Forall_impl; [|exact F1]. intros []; cbn; auto. }
  assert (TD : forall ecu, aget ecu (v_eres (p_dev s')) = aget ecu (v_eres (fold_left ev_dev (pe ++ il ++ flat_map rep_writes y) (p_dev s)))).
  { intros ecu. rewrite ER, D, Ee, Ei, !fold_left_app. 
    assert (X : forall l d, Forall calm l -> fold_left ev_dev l d = d).
    { induction l as [|e l IH]; intros d Fl; [reflexivity|]. inversion Fl as [|? ? [X|X] Fl']; subst; cbn [fold_left]; destruct e; try destruct X; cbn; auto. }
    rewrite (X pings), (X metas); [reflexivity|now apply meta_calm|now apply ping_calm]. }
  (* the Primary's part *)
  assert (PP : exists prs, pr = prs /\ (prs = [] /\ pe = [] /\ find_for_ecu ts (pr_serial P) = [] \/ exists u r w, prs = [(set_corr u corr, pr_serial P, r)] /\ In u ts /\ targets_ecu u (pr_serial P) /\ to_row r = Ok w /\
      pe = ([UStarted (pr_serial P) corr; UVersion (pr_serial P) (set_corr u corr) ModeNone; UPmInstall (set_corr u corr) r] ++ prim_writes P (set_corr u corr) r) ++ UEcuRes (pr_serial P) r :: prim_end P corr r)).
  { exists pr. split; [reflexivity|]. destruct PD as [(F0 & -> & [= ->])|(u & l & r & F0 & PD)]; [left; auto|]. cbv zeta in PD. destruct PD as [([= ->] & (w1 & Rw) & ->)|((e & X) & _)]; [|discriminate].
    apply in_find in F0. destruct F0 as (Hu & Fu). apply for_ecu_iff in Fu. right. exists u, r, w1. auto. }
  destruct PP as (prs & -> & PP).
  assert (Epr : forall ecu, In ecu (map ecu_of prs) -> ecu = pr_serial P) by (intros ecu; destruct PP as [(-> & _)|(u & r & w1 & -> & _)]; cbn; intuition).
  assert (Gpe : Forall good_ev pe /\ Forall (fun e => match e with UVersion z _ _ | UEcuRes z _ => z = pr_serial P | _ => True end) pe).
  { destruct PP as [(_ & -> & _)|(u & r & w1 & _ & Hu & _ & _ & ->)]; [split; constructor|]. assert (good (set_corr u corr)) by (apply good_corr; auto).
    assert (V : Forall good_ev (prim_writes P (set_corr u corr) r) /\ Forall (fun e => match e with UVersion z _ _ | UEcuRes z _ => z = pr_serial P | _ => True end) (prim_writes P (set_corr u corr) r)).
    { split; apply Forall_forall; intros e He; apply prim_writes_in in He; destruct He as [(_ & ->)|(_ & ->)]; cbn; auto. }
    assert (Z : Forall good_ev (prim_end P corr r) /\ Forall (fun e => match e with UVersion z _ _ | UEcuRes z _ => z = pr_serial P | _ => True end) (prim_end P corr r)).
    { unfold prim_end. destruct (_ =? kNeedCompletion); split; repeat constructor. }
    split; (apply Forall_app; split; [apply Forall_app; split; [repeat (apply Forall_cons; [first [exact Logic.I | reflexivity | assumption]|]); apply Forall_nil|apply V]|constructor; [exact Logic.I || reflexivity|apply Z]]). }
  destruct Gpe as (Gpe & Epe).
  assert (Wpe : wfd (fold_left ev_idb pe (p_idb s))) by (apply fold_wf; assumption).
  assert (NDr : NoDup (map ecu_of (prs ++ y))).
  { rewrite map_app. destruct PP as [(-> & _)|(u & r & w1 & -> & _)]; cbn; [exact ND|]. constructor; assumption. }
  assert (OTH : forall ecu, ecu <> "" -> ecu <> pr_serial P -> load ecu (fold_left ev_idb pe (p_idb s)) = load ecu (p_idb s)).
  { intros ecu Ne Nq. apply fold_other; auto. eapply Forall_impl; [|exact Epe]. intros []; cbn; auto. intros ->. auto. }
  split; [|split; [exact NDr|split]].
  - right. intros t ecu Ht He Hv. rewrite map_app. apply in_or_app. destruct (string_dec ecu (pr_serial P)) as [->|Nq].
    + left. destruct PP as [(_ & _ & X)|(u & r & w1 & -> & _)]; [|left; reflexivity]. exfalso. assert (Z : In t (find_for_ecu ts (pr_serial P))) by (apply filter_In; split; [exact Ht|now apply for_ecu_iff]).
      rewrite X in Z. destruct Z.
    + right. refine (eq_ind_r (In ecu) _ Ey). apply in_map_iff. exists (t, ecu). split; [reflexivity|]. apply sec_pairs_in. intuition.
  - intros t' ecu r Hr. apply in_app_or in Hr. destruct Hr as [Hr|Hr].
    + (* Primary *)
      destruct PP as [(-> & _)|(u & r1 & w1 & -> & Hu & Fu & Rw & Epe')]; [destruct Hr|]. destruct Hr as [[= <- <- <-]|[]]. split; [exists u; auto|]. split.
      * exists w1. split; [exact Rw|]. rewrite TD, Epe', <- app_assoc. rewrite fold_left_app. cbn [app]. cbn [fold_left]. apply (fold_dev_keep _ r1 w1); [exact Rw| |].
        { apply Forall_app. split; [unfold prim_end; destruct (_ =? kNeedCompletion); repeat constructor; auto|]. apply Forall_app. split.
          - eapply Forall_impl; [|exact Qil]. intros []; cbn; tauto.
          - eapply Forall_impl; [|exact (proj2 (rep_no_version (pr_serial P) y NP Zy))]. intros []; cbn; auto. intros X Y. contradiction. }
        { cbn. unfold save_eres. rewrite Rw. cbn. now rewrite String.eqb_refl. }
      * rewrite String.eqb_refl. set (t0 := set_corr u corr) in *. assert (G0 : good t0) by (apply good_corr; auto).
        assert (LD : load (pr_serial P) (p_idb s1) = load (pr_serial P) (fold_left ev_idb pe (p_idb s))).
        { rewrite TI. apply fold_other; auto. apply rep_no_version; assumption. }
        assert (PEv : fold_left ev_idb pe (p_idb s) = fold_left ev_idb (prim_writes P t0 r1) (save_installed savec (pr_serial P) t0 ModeNone (p_idb s))).
        { rewrite Epe', !fold_left_app. cbn [fold_left ev_idb UpdModel.ev_idb]. apply fold_none. unfold prim_end. destruct (_ =? kNeedCompletion); repeat constructor. }
        set (dn := save_installed savec (pr_serial P) t0 ModeNone (p_idb s)) in *. assert (Wn : wfd dn) by (now apply save_wf).
        unfold prim_outcome. rewrite LD, PEv. unfold prim_writes. split; [|split].
        -- intros C. rewrite C. cbn. destruct (current_reported savec loadc dn (pr_serial P) t0 Wn G0) as (x & X1 & X2 & _). eauto.
        -- intros C N c p Hl. rewrite C. cbn. destruct (failure_keeps_current savec loadc _ _ t0 c p Hw G0 Hl N) as (p' & Hn & _).
           assert (N' : not_current loadc dn (pr_serial P) t0). { intros c0 p0 X. fold dn in Hn. rewrite Hn in X. injection X as -> _. exact (N c0 p Hl). }
           destruct (pending_reported savec loadc dn (pr_serial P) t0 c p' Wn G0 Hn N') as (x & X1 & X2 & _). eauto.
        -- intros C1 C2 N c p Hl. apply Z.eqb_neq in C1, C2. rewrite C1, C2. cbn. exact (failure_keeps_current savec loadc _ _ t0 c p Hw G0 Hl N).
    + (* Secondary *)
      destruct (SR _ _ _ Hr) as (u & U1 & U2 & U3 & (w1 & Rw) & U4 & U5 & U6). split; [exists u; auto|].
      assert (Ne : ecu <> "") by (intros ->; apply Zy; apply in_map_iff; exists (t', "", r); auto).
      destruct (split_report y (t', ecu, r) Hr ND) as (a & b & Eab & Na & Nb). cbn [ecu_of fst snd] in Na, Nb.
      assert (Zab : ~ In "" (map ecu_of a) /\ ~ In "" (map ecu_of b)). { rewrite Eab, map_app in Zy. cbn in Zy. split; intros X; apply Zy, in_or_app; auto. right. right. exact X. }
      assert (Gab : Forall good_ev (flat_map rep_writes a) /\ Forall good_ev (version_writes t' ecu r) /\ Forall good_ev (flat_map rep_writes b)).
      { rewrite Eab, flat_map_app in Gy. apply Forall_app in Gy. destruct Gy as (G1 & G2). cbn [flat_map] in G2. apply Forall_app in G2. destruct G2 as (G2 & G3).
        cbn [rep_writes] in G2. apply Forall_app in G2. tauto. }
      split.
      * exists w1. split; [exact Rw|]. rewrite TD, Eab, flat_map_app. cbn [flat_map rep_writes]. rewrite !fold_left_app. cbn [fold_left]. apply (fold_dev_keep _ r w1); [exact Rw| |].
        { eapply Forall_impl; [|exact (proj2 (rep_no_version ecu b Nb (proj2 Zab)))]. intros []; cbn; auto. intros X Y. contradiction. }
        { cbn. unfold save_eres. rewrite Rw. cbn. now rewrite String.eqb_refl. }
      * destruct (String.eqb_spec ecu (pr_serial P)); [contradiction|]. set (da := fold_left ev_idb (flat_map rep_writes a) (fold_left ev_idb pe (p_idb s))).
        assert (La : load ecu da = load ecu (p_idb s)). { unfold da. rewrite fold_other; [apply OTH; assumption|exact Ne|tauto|apply rep_no_version; tauto|exact Wpe]. }
        assert (Wa : wfd da) by (apply fold_wf; tauto).
        assert (Wv : wfd (fold_left ev_idb (version_writes t' ecu r) da)) by (apply fold_wf; tauto).
        assert (Lb : load ecu (p_idb s1) = load ecu (fold_left ev_idb (version_writes t' ecu r) da)).
        { rewrite TI, Eab, flat_map_app. cbn [flat_map rep_writes]. rewrite !fold_left_app. fold da. cbn [fold_left]. cbn [UpdModel.ev_idb]. apply fold_other; [exact Ne|tauto|apply rep_no_version; tauto|exact Wv]. }
        assert (Gt : good t') by (destruct U3 as [->| ->]; [auto|apply good_corr; auto]).
        unfold sec_outcome. rewrite Lb. unfold version_writes. split; [|split].
        -- intros S. rewrite S. cbn. destruct (current_reported savec loadc da ecu t' Wa Gt) as (x & X1 & X2 & _). eauto.
        -- intros S Wt N c p Hl. rewrite S. apply need_waits in Wt. rewrite Wt. cbn. rewrite <- La in Hl.
           destruct (pending_reported savec loadc da ecu t' c p Wa Gt Hl (not_current_eq _ _ _ _ La N)) as (x & X1 & X2 & _). eauto.
        -- intros S Wt. rewrite S. apply need_false in Wt. rewrite Wt. cbn. exact La.
  - intros ecu Ne Ni. rewrite map_app in Ni. assert (Ny : ~ In ecu (map ecu_of y)) by (intros X; apply Ni, in_or_app; auto).
    assert (Npr : pe = [] \/ ecu <> pr_serial P).
    { destruct PP as [(_ & -> & _)|(u & r & w1 & -> & _)]; [auto|]. right. intros ->. apply Ni. left. reflexivity. }
    split.
    + rewrite TI, fold_other; [|exact Ne|exact Gy|apply rep_no_version; assumption|exact Wpe]. destruct Npr as [->|Nq]; [reflexivity|]. now apply OTH.
    + rewrite TD, !fold_left_app. rewrite fold_dev_none by (apply rep_no_version; assumption). rewrite fold_dev_none.
      * destruct Npr as [->|Nq]; [reflexivity|]. apply fold_dev_none. eapply Forall_impl; [|exact Epe]. intros []; cbn; auto. intros ->. auto.
      * eapply Forall_impl; [|exact Qil]. intros []; cbn; tauto.
Qed.
End U.
