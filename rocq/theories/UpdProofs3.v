(** Proofs about the installation of an update, continued: what holds of a run. *)
From Verif Require Import Base Json TufModel TufSpec MetaStore RepoModel RepoSpec CodecModel InstModel InstSpec InstProofs InstProofs2 DevModel DevSpec DevProofs DevProofs2
  ClientModel ClientSpec ClientProofs2 UpdModel UpdSpec UpdProofs UpdProofs2.

Lemma need_total r : exists b, need_completion r = Ok b /\ (b = true <-> waits r).
Proof.
  destruct (Z.eq_dec (rc_num (ir_code r)) kNeedCompletion) as [H|H].
  - apply need_completion_spec. unfold rc_string. rewrite H. destruct (String.eqb (rc_text (ir_code r)) ""); cbn; eauto.
  - exists false. split; [|split; [discriminate|intros (X & _); congruence]]. unfold need_completion, rc_eq. cbn [num rc_num].
    destruct (Z.eqb_spec (rc_num (ir_code r)) kNeedCompletion); [congruence|reflexivity].
Qed.
Lemma need_waits r : need_completion r = Ok true <-> waits r.
Proof. destruct (need_total r) as (b & E & B). rewrite E. split; [intros [= ->]; now apply B|intros H; f_equal; now apply B]. Qed.
Lemma need_false r : need_completion r = Ok false <-> ~ waits r.
Proof. destruct (need_total r) as (b & E & B). rewrite E. destruct b; split; intros H; try discriminate; try reflexivity; try (intros X; apply B in X; discriminate). elim H. now apply B. Qed.

Lemma aget_some_in {A} k (l : list (string * A)) v : aget k l = Some v -> In (k, v) l.
Proof. induction l as [|(k', v') l IH]; cbn; [discriminate|]. destruct (String.eqb_spec k k'); [intros [= ->]; subst; auto|auto]. Qed.
Lemma aget_in_some {A} k (l : list (string * A)) v : In (k, v) l -> exists v', aget k l = Some v'.
Proof. induction l as [|(k', v') l IH]; cbn; [intros []|]. destruct (String.eqb_spec k k'); [eauto|]. intros [[= <- <-]|H]; [congruence|auto]. Qed.
Lemma is_sec_iff P ecu : is_sec P ecu = true <-> secondary P ecu.
Proof.
  unfold is_sec, secondary. destruct (aget ecu (pr_secs P)) as [hw|] eqn:H; split; intros X; auto; try discriminate.
  - exists hw. now apply aget_some_in.
  - destruct X as (hw & X). apply aget_in_some in X. destruct X as (v & X). congruence.
Qed.
Lemma for_ecu_iff t ecu : for_ecu t ecu = true <-> targets_ecu t ecu.
Proof.
  unfold for_ecu, targets_ecu. destruct (aget ecu (t_ecus t)) as [hw|] eqn:H; split; intros X; auto; try discriminate.
  - exists hw. now apply aget_some_in.
  - destruct X as (hw & X). apply aget_in_some in X. destruct X as (v & X). congruence.
Qed.
Lemma held_iff P t : for_ecu t (pr_serial P) || negb (is_ostree t) = true <-> held P t.
Proof. unfold held. rewrite <- for_ecu_iff. destruct (for_ecu t (pr_serial P)), (is_ostree t); cbn; split; auto; intros [?|?]; discriminate. Qed.

Lemma in_replace {A} (x : list A) l e : forall i y, nth_error l i = Some (y :: x) -> In e (List.concat l) -> e = y \/ In e (List.concat (replace_nth i x l)).
Proof.
  induction l as [|z l IH]; intros [|i] y; cbn; try discriminate.
  - intros [= ->] H. cbn in H. destruct H as [H|H]; auto.
  - intros N H. apply in_app_or in H. destruct H as [H|H]; [right; apply in_or_app; auto|]. destruct (IH i y N H) as [->|K]; auto. right. apply in_or_app. auto.
Qed.
Lemma interleave_all sched : forall ts e, In e (List.concat ts) -> In e (interleave sched ts).
Proof.
  induction sched as [|i sched IH]; cbn [interleave]; intros ts e H; [exact H|]. destruct (nth_error ts i) as [[|x rest]|] eqn:N; auto.
  destruct (in_replace _ _ _ _ _ N H) as [->|K]; [left; reflexivity|right; auto].
Qed.

Section U.
Context (savec : json -> string) (loadc : string -> option json) (E : Env) (fnm : string -> string -> bool).
Context (P : primary) (W : world) (srv : server).
Notation ev_idb := (ev_idb savec).
Notation tasks_of := (tasks_of P W).

Lemma sec_pairs_in ts t ecu : In (t, ecu) (sec_pairs P ts) <-> In t ts /\ targets_ecu t ecu /\ ecu <> pr_serial P /\ secondary P ecu.
Proof.
  unfold sec_pairs, pairs, targets_ecu. rewrite in_map_iff. split.
  - intros ((t', (e, hw)) & H & K). cbn in H. injection H as <- <-. apply filter_In in K. destruct K as (K & C). cbn [fst snd] in *. apply in_flat_map in K. destruct K as (t0 & H0 & K).
    apply in_map_iff in K. destruct K as ((e', h') & [= <- <- <-] & K). apply andb_prop in C. destruct C as (C1 & C2). split; [exact H0|]. split; [eauto|]. split.
    + unfold is_prim in C1. destruct (String.eqb_spec e' (pr_serial P)); [discriminate|assumption].
    + now apply is_sec_iff.
  - intros (Ht & (hw & He) & N & S). exists (t, (ecu, hw)). split; [reflexivity|]. apply filter_In. split.
    + apply in_flat_map. exists t. split; [exact Ht|]. apply in_map_iff. eauto.
    + cbn [fst snd]. apply is_sec_iff in S. rewrite S. unfold is_prim. destruct (String.eqb_spec ecu (pr_serial P)); [contradiction|reflexivity].
Qed.
Lemma tasks_in corr ts evs t ecu fr : In (evs, (t, ecu, fr)) (tasks_of corr ts) ->
  (In t ts /\ targets_ecu t ecu /\ ecu <> pr_serial P /\ secondary P ecu) /\ exists j, task_events W j corr ecu t = (evs, fr).
Proof. intros H. unfold tasks_of in H. apply run_tasks_in in H. destruct H as (H & J). apply sec_pairs_in in H. auto. Qed.

Lemma prim_writes_in t r e : In e (prim_writes P t r) -> rc_num (ir_code r) = kOk /\ e = UVersion (pr_serial P) t ModeCurrent \/ rc_num (ir_code r) = kNeedCompletion /\ e = UVersion (pr_serial P) t ModePending.
Proof.
  unfold prim_writes. destruct (Z.eqb_spec (rc_num (ir_code r)) kOk); [intros [<-|[]]; auto|]. destruct (Z.eqb_spec (rc_num (ir_code r)) kNeedCompletion); [intros [<-|[]]; auto|intros []].
Qed.
Lemma version_writes_in t ecu r e : In e (version_writes t ecu r) -> ir_success r = true /\ e = UVersion ecu t ModeCurrent \/ ir_success r = false /\ waits r /\ e = UVersion ecu t ModePending.
Proof.
  unfold version_writes. destruct (ir_success r); [intros [<-|[]]; auto|]. destruct (need_completion r) as [[|]|] eqn:N; [|intros []|intros []].
  intros [<-|[]]. right. apply need_waits in N. auto.
Qed.
Lemma flat_rep_in y e : In e (flat_map rep_writes y) -> exists t ecu r, In (t, ecu, r) y /\ (In e (version_writes t ecu r) \/ e = UEcuRes ecu r).
Proof.
  intros H. apply in_flat_map in H. destruct H as (((t, ecu), r) & Hy & H). exists t, ecu, r. split; [exact Hy|]. cbn [rep_writes] in H. apply in_app_or in H. destruct H as [H|[H|[]]]; auto.
Qed.

(** *** Installing *)
Notation inst_ok := (inst_ok P).
Lemma prim_start_in corr u r e : In e ([UStarted (pr_serial P) corr; UVersion (pr_serial P) (set_corr u corr) ModeNone; UPmInstall (set_corr u corr) r] ++ prim_writes P (set_corr u corr) r) ->
  installs e -> e = UPmInstall (set_corr u corr) r.
Proof.
  intros H I. apply in_app_or in H. destruct H as [[<-|[<-|[<-|[]]]]|H]; try destruct I; [reflexivity|].
  apply prim_writes_in in H. destruct H as [(_ & ->)|(_ & ->)]; destruct I.
Qed.
Lemma inst_events corr ts inst y pre e post : inst_part P W corr ts inst y -> inst = pre ++ e :: post -> installs e -> inst_ok ts corr pre e.
Proof.
  intros (pe & px & D & K) H I.
  assert (PE : forall p q, pe = p ++ e :: q -> inst_ok ts corr pre e).
  { intros p q Hp. assert (He : In e pe) by (rewrite Hp; apply in_elt). destruct D as [(_ & -> & _)|(u & l & r & F & D)]; [destruct He|]. cbv zeta in D.
    apply in_find in F. destruct F as (Hu & Fu). apply for_ecu_iff in Fu.
    assert (X : e = UPmInstall (set_corr u corr) r).
    { destruct D as [(_ & _ & ->)|(_ & ->)]; [|exact (prim_start_in _ _ _ _ He I)]. apply in_app_or in He. destruct He as [He|[<-|He]]; [exact (prim_start_in _ _ _ _ He I)|destruct I|].
      unfold prim_end in He. destruct (_ =? kNeedCompletion); [destruct He as [<-|[]]; destruct I|]. destruct He as [<-|[<-|[]]]; destruct I. }
    subst e. cbn. exists u. auto. }
  destruct K as [(_ & K)|(pr & coll & _ & K & done & rest & yy & Ed & F & R)]; [rewrite K in H; exact (PE _ _ H)|].
  rewrite K in H. destruct (app_cons_split _ _ _ _ _ H) as [(p & H1 & _)|(p & -> & H2)]; [exact (PE _ _ H1)|].
  destruct (app_cons_split _ _ _ _ _ H2) as [(q & H1 & _)|(q & -> & H3)].
  - apply interleave_order in H1. destruct H1 as (l & a & b & Hl & El & In_a). apply in_map_iff in Hl. destruct Hl as ((ev & ((t, ecu), fr)) & Hl & Ht). cbn in Hl. subst ev.
    apply tasks_in in Ht. destruct Ht as ((Ht1 & Ht2 & Ht3 & Ht4) & j & Hj). apply task_events_spec in Hj. destruct Hj as (_ & Hj & _).
    destruct (Hj a e b El I) as (ok & _ & [->|(-> & Hs & r & ->)]); cbn; [auto|]. repeat (split; [assumption|]). apply in_or_app. right. apply In_a. exact Hs.
  - exfalso. assert (He : In e coll) by (rewrite H3; apply in_elt).
    assert (NV : forall t ecu r, In e (version_writes t ecu r) -> False).
    { intros t ecu r X. apply version_writes_in in X. destruct X as [(_ & ->)|(_ & _ & ->)]; destruct I. }
    assert (NF : In e (flat_map rep_writes yy) -> False).
    { intros X. apply flat_rep_in in X. destruct X as (t & ecu & r & _ & [X| ->]); [eauto|destruct I]. }
    destruct R as [(_ & _ & ->)|(_ & t & ecu & fr & rest' & _ & [->|(t' & r & _ & -> & _)])]; auto. apply in_app_or in He. destruct He; eauto.
Qed.

(** *** Recording *)
Notation reason := (reason P).
Lemma task_send ts corr evs t ecu fr : In (evs, (t, ecu, fr)) (tasks_of corr ts) -> incl evs (interleave (e_sched W) (map fst (tasks_of corr ts))).
Proof. intros H e He. apply interleave_all. apply in_concat. exists evs. split; [|exact He]. apply in_map_iff. exists (evs, (t, ecu, fr)). auto. Qed.
Lemma send_false i corr ecu t evs fr : task_events W i corr ecu t = (evs, fr) -> forall r, fr = Ok r -> ir_success r = false -> In (UInstall ecu t r) evs \/ In (USend ecu t false) evs.
Proof.
  unfold task_events, task_result, task_answers. destruct (e_send W i) as [x|x].
  - destruct (ir_success x) eqn:OK; cbn [snd]; intros H r -> S.
    + left. destruct (need_completion _) as [[|]|]; injection H as <- X; try discriminate; subst r; right; right; left; reflexivity.
    + right. destruct (need_completion _) as [[|]|]; injection H as <- X; try discriminate; right; left; reflexivity.
  - cbn. intros H r -> S. right. injection H as <- _. right. left. reflexivity.
Qed.
Lemma answer_reason ts corr pre evs t ecu r m : In (evs, (t, ecu, Ok r)) (tasks_of corr ts) -> incl evs pre ->
  In (UVersion ecu (set_corr t corr) m) (version_writes (set_corr t corr) ecu r) -> reason ts corr pre ecu (set_corr t corr) m.
Proof.
  intros H I V. apply tasks_in in H. destruct H as ((H1 & H2 & H3 & H4) & j & Hj). right. split; [exact H3|]. split; [exact H4|]. exists t. repeat (split; [assumption || reflexivity|]).
  pose proof (task_events_spec _ _ _ _ _ _ _ Hj) as (_ & _ & A & _). apply version_writes_in in V. destruct V as [(S & [= ->])|(S & Wt & [= ->])].
  - destruct (A r eq_refl (or_introl S)) as (ok & _ & [X|(_ & X)]); [|congruence]. exists r. auto.
  - destruct (send_false _ _ _ _ _ _ Hj r eq_refl S) as [X|X]; [left; exists r; auto|right; auto].
Qed.
Lemma inst_versions corr ts inst y pre ecu t m post : inst_part P W corr ts inst y -> inst = pre ++ UVersion ecu t m :: post -> reason ts corr pre ecu t m.
Proof.
  intros (pe & px & D & K) H. set (v := UVersion ecu t m) in *.
  assert (PE : forall p q, pe = p ++ v :: q -> incl p pre -> reason ts corr pre ecu t m).
  { intros p q Hp Ip. destruct D as [(_ & -> & _)|(u & l & r & F & D)]; [destruct p; discriminate|]. cbv zeta in D.
    apply in_find in F. destruct F as (Hu & Fu). apply for_ecu_iff in Fu. set (t0 := set_corr u corr) in *.
    assert (X : exists tl, pe = [UStarted (pr_serial P) corr; UVersion (pr_serial P) t0 ModeNone; UPmInstall t0 r] ++ prim_writes P t0 r ++ tl /\ ~ In v tl).
    { destruct D as [(_ & _ & ->)|(_ & ->)].
      - exists (UEcuRes (pr_serial P) r :: prim_end P corr r). rewrite <- app_assoc. split; [reflexivity|]. intros [X|X]; [discriminate|]. unfold prim_end in X.
        destruct (_ =? kNeedCompletion); [destruct X as [X|[]]; discriminate|]. destruct X as [X|[X|[]]]; discriminate.
      - exists []. rewrite app_nil_r. split; [reflexivity|]. intros []. }
    destruct X as (tl & -> & Ntl). clear D. left.
    destruct p as [|y1 p]; cbn in Hp; [discriminate|]. injection Hp as <- Hp.
    destruct p as [|y1 p]; cbn in Hp.
    { injection Hp as <- <- <- _. split; [reflexivity|]. exists u. auto. }
    injection Hp as <- Hp. destruct p as [|y1 p]; cbn in Hp; [discriminate|]. injection Hp as <- Hp.
    assert (Vi : In v (prim_writes P t0 r)).
    { assert (X : In v (prim_writes P t0 r ++ tl)) by (rewrite Hp; apply in_elt). apply in_app_or in X. destruct X as [X|X]; [exact X|contradiction]. }
    apply prim_writes_in in Vi. assert (Pi : In (UPmInstall t0 r) pre) by (apply Ip; right; right; left; reflexivity).
    destruct Vi as [(C & [= -> -> ->])|(C & [= -> -> ->])]; (split; [reflexivity|]); exists u; repeat (split; [assumption || reflexivity|]); eauto. }
  destruct K as [(_ & K)|(pr & coll & _ & K & done & rest & yy & Ed & F & R)]; [rewrite K in H; exact (PE _ _ H (incl_refl _))|].
  rewrite K in H. destruct (app_cons_split _ _ _ _ _ H) as [(p & H1 & _)|(p & -> & H2)]; [exact (PE _ _ H1 (incl_refl _))|].
  destruct (app_cons_split _ _ _ _ _ H2) as [(q & H1 & _)|(q & -> & H3)].
  - exfalso. assert (He : In v (interleave (e_sched W) (map fst (tasks_of corr ts)))) by (rewrite H1; apply in_elt). apply interleave_in in He. destruct He as (l & Hl & He).
    apply in_map_iff in Hl. destruct Hl as ((ev & ((t1, ecu1), fr)) & Hl & Ht). cbn in Hl. subst ev. apply tasks_in in Ht. destruct Ht as (_ & j & Hj). apply task_events_spec in Hj.
    destruct Hj as (Q & _). rewrite Forall_forall in Q. exact (Q _ He).
  - assert (He : In v coll) by (rewrite H3; apply in_elt).
    assert (ANS : forall t1 ecu1 fr, In (t1, ecu1, fr) (done ++ rest) -> exists evs, In (evs, (t1, ecu1, fr)) (tasks_of corr ts)).
    { intros t1 ecu1 fr X. rewrite <- Ed in X. apply in_map_iff in X. destruct X as ((evs & z) & Z & X). cbn in Z. subst z. eauto. }
    assert (GO : forall t1 ecu1 r, In (t1, ecu1, Ok r) (done ++ rest) -> In v (version_writes (set_corr t1 corr) ecu1 r) -> reason ts corr (pe ++ interleave (e_sched W) (map fst (tasks_of corr ts)) ++ q) ecu t m).
    { intros t1 ecu1 r X V. destruct (ANS _ _ _ X) as (evs & Ht). assert (Eq : ecu = ecu1 /\ t = set_corr t1 corr).
      { apply version_writes_in in V. destruct V as [(_ & V)|(_ & _ & V)]; injection V; auto. }
      destruct Eq as (-> & ->). apply (answer_reason ts corr _ evs t1 ecu1 r m Ht); [|exact V]. intros z Hz. apply in_or_app. right. apply in_or_app. left. exact (task_send _ _ _ _ _ _ Ht z Hz). }
    assert (FL : In v (flat_map rep_writes yy) -> reason ts corr (pe ++ interleave (e_sched W) (map fst (tasks_of corr ts)) ++ q) ecu t m).
    { intros X. apply flat_rep_in in X. destruct X as (t1 & ecu1 & r & Hy & [X|X]); [|discriminate].
      assert (Q : exists z, In z done /\ rep_of corr (t1, ecu1, r) z). { clear - F Hy. induction F as [|a b l l' Hab F IH]; [destruct Hy|]. destruct Hy as [->|Hy]; [exists b; split; [left; reflexivity|exact Hab]|]. destruct (IH Hy) as (z & Z & Z'). exists z. split; [right; exact Z|exact Z']. }
      destruct Q as (((t2, ecu2), fr) & Hd & -> & -> & _ & [->|(-> & S & N)]).
      - apply (GO t2 ecu2 r); [apply in_or_app; auto|exact X].
      - exfalso. unfold version_writes in X. rewrite S, N in X. destruct X. }
    destruct R as [(_ & _ & ->)|(_ & t1 & ecu1 & fr & rest' & -> & [->|(t' & r & -> & -> & ->)])]; auto. apply in_app_or in He. destruct He as [He|He]; auto.
    apply (GO t1 ecu1 r); [apply in_or_app; right; left; reflexivity|exact He].
Qed.

(** ** The run *)
Lemma run_spec clkd clki now ts s s' x : uptane_install savec loadc E fnm P W srv clkd clki now ts s = (s', x) ->
  exists s1 y tl, install_body savec loadc E fnm P W srv clkd clki now ts s = (s1, y) /\ adv savec s1 s' tl /\
    ((tl = [] /\ exists e, x = Throw e) \/ exists r raw reps w, y = Ok (r, raw, reps) /\ x = Ok (r, reps) /\ to_row r = Ok w /\ tl = [UDevRes r raw (tg_corr (u_dtargets (p_ust s1)))]).
Proof.
  unfold uptane_install. intros H. apply pbind_inv in H. destruct H as [(((r, raw), reps) & s1 & B & H)|(e & B & ->)].
  - apply gets_bind in H. apply pbind_inv in H. unfold save_device in H. destruct H as [(u & s2 & H & K)|(e & H & ->)]; apply lift_bind in H.
    + destruct H as [(w & R & H)|(e & _ & _ & X)]; [|discriminate]. apply adv_tell in H. destruct H as (A & _). injection K as <- <-.
      exists s1, (Ok (r, raw, reps)), [UDevRes r raw (tg_corr (u_dtargets (p_ust s1)))]. split; [exact B|]. split; [exact A|]. right. exists r, raw, reps, w. auto.
    + destruct H as [(w & R & H)|(e' & R & -> & _)]; [apply adv_tell in H; destruct H as (_ & H); discriminate|].
      exists s1, (Ok (r, raw, reps)), []. split; [exact B|]. split; [apply adv_refl|]. left. eauto.
  - exists s', (Throw e), []. split; [exact B|]. split; [apply adv_refl|]. left. eauto.
Qed.
Lemma tail_cases (tl evs pre post : list uev) e : (tl = [] \/ exists r raw c, tl = [UDevRes r raw c]) -> evs ++ tl = pre ++ e :: post ->
  (exists q, evs = pre ++ e :: q) \/ exists r raw c, e = UDevRes r raw c.
Proof.
  intros T H. destruct (app_cons_split _ _ _ _ _ H) as [(p & H1 & _)|(p & -> & H2)]; [left; eauto|right].
  destruct T as [->|(r & raw & c & ->)]; [destruct p; discriminate|]. destruct p as [|z p]; [injection H2 as <- _; eauto|destruct p; discriminate].
Qed.
(** What happens is the body of the run, and perhaps the record of the device's result. *)
Lemma run_trace clkd clki now ts s s' x : uptane_install savec loadc E fnm P W srv clkd clki now ts s = (s', x) ->
  exists s1 y evs tl, install_body savec loadc E fnm P W srv clkd clki now ts s = (s1, y) /\ p_tr s1 = p_tr s ++ evs /\ adv savec s1 s' tl /\ p_tr s' = p_tr s ++ evs ++ tl /\ p_ust s' = p_ust s1 /\
    (tl = [] \/ exists r raw c, tl = [UDevRes r raw c]).
Proof.
  intros H. apply run_spec in H. destruct H as (s1 & y & tl & B & A & D). destruct (body_spec _ _ _ _ _ _ _ _ _ _ _ _ _ _ B) as (evs & T & _).
  exists s1, y, evs, tl. split; [exact B|]. split; [exact T|]. split; [exact A|]. destruct A as (A1 & _ & _ & A4). rewrite A1, T, app_assoc. split; [reflexivity|]. split; [exact A4|].
  destruct D as [(-> & _)|(r & raw & reps & w & _ & _ & _ & ->)]; eauto.
Qed.

Theorem nothing_before_checks clkd clki now ts s s' x pre e post :
  uptane_install savec loadc E fnm P W srv clkd clki now ts s = (s', x) -> p_tr s' = p_tr s ++ pre ++ e :: post -> installs e ->
  (director_fresh E clkd (p_ust s') /\ exists top, u_itargets (p_ust s') = Some top /\ image_ok_but_targets E clki (p_ust s') top /\
     forall t, In t ts -> (exists d, In d (tg_targets (u_dtargets (p_ust s'))) /\ same_target d t /\ fits_vehicle (vehicle_of loadc P (p_idb s)) d /\
         exists serial hw, In (serial, hw) (t_ecus d) /\ news_for (vehicle_of loadc P (p_idb s)) d serial) /\
       exists i, vouched E fnm now (u_isnap (p_ust s')) top t i) /\
  (forall t, In t ts -> held P t -> e_verify W t = Ok true) /\
  (forall t ecu, In t ts -> targets_ecu t ecu -> secondary P ecu -> In (UPutMeta ecu t true) pre /\ (ecu <> pr_serial P -> In (UPing ecu) pre)) /\
  inst_ok ts (tg_corr (u_dtargets (p_ust s'))) pre e.
Proof.
  intros H T I. apply run_trace in H. destruct H as (s1 & y & evs & tl & B & T1 & A & T' & U & TL). rewrite T' in T. apply app_inv_head in T.
  destruct (tail_cases _ _ _ _ _ TL T) as [(q & Eq)|(r & raw & c & ->)]; [|destruct I]. clear T TL.
  apply body_spec in B. destruct B as (evs' & T2 & _ & _ & _ & _ & D). rewrite T2 in T1. apply app_inv_head in T1. subst evs'. rewrite <- U in D.
  destruct D as [(C & _)|((oc & CK & ->) & RI & pings & metas & inst & yy & Ee & F1 & F2 & C1 & C2 & IP & _)].
  { exfalso. rewrite Eq in C. apply Forall_app in C. destruct C as (_ & C). apply Forall_inv in C. destruct C as [C|C]; destruct e; solve [destruct C | destruct I]. }
  rewrite Ee in Eq. destruct (app_cons_split _ _ _ _ _ Eq) as [(p & X & _)|(p & -> & Eq2)].
  { exfalso. rewrite X in F1. apply Forall_app in F1. destruct F1 as (_ & F1). apply Forall_inv in F1. destruct e; solve [destruct F1 | destruct I]. }
  destruct (app_cons_split _ _ _ _ _ Eq2) as [(p' & X & _)|(p' & -> & Eq3)].
  { exfalso. rewrite X in F2. apply Forall_app in F2. destruct F2 as (_ & F2). apply Forall_inv in F2. destruct e; solve [destruct F2 | destruct I]. }
  split; [|split; [|split]].
  - apply check_updates_offline_sound in CK. destruct CK as (K1 & top & K2 & K3 & K4). split; [exact K1|]. exists top. split; [exact K2|]. split; [exact K3|].
    intros t Ht. destruct (K4 t Ht) as ((d & D1 & D2 & D3) & V). split; [|exact V]. exists d. split; [exact D1|]. split; [exact D2|]. apply D3. intros serial. cbn.
    destruct (load_installed loadc serial (p_idb s)); discriminate.
  - intros t Ht Hh. apply RI; [exact Ht|]. now apply held_iff.
  - intros t ecu Ht (hw & He) Hs. split.
    + apply in_or_app. right. apply in_or_app. left. apply (C2 t ecu hw); [exact Ht|exact He|now apply is_sec_iff].
    + intros N. apply in_or_app. left. apply C1. unfold targeted. apply nodup_In, filter_In. split.
      * apply in_map_iff. exists (ecu, hw). split; [reflexivity|]. apply in_flat_map. exists t. auto.
      * apply is_sec_iff in Hs. rewrite Hs. unfold is_prim. destruct (String.eqb_spec ecu (pr_serial P)); [contradiction|reflexivity].
  - assert (K := inst_events _ _ _ _ _ _ _ IP Eq3 I). clear - K. destruct e; cbn in *; auto. destruct K as (K1 & K2 & K3 & K4 & K5). repeat (split; [assumption|]). apply in_or_app. right. apply in_or_app. auto.
Qed.

(** Nothing is installed while an update is pending, or if nothing is requested. *)
Theorem nothing_while_pending clkd clki now ts s s' x pre e post :
  uptane_install savec loadc E fnm P W srv clkd clki now ts s = (s', x) -> p_tr s' = p_tr s ++ pre ++ e :: post -> installs e ->
  has_pending (p_idb s) = false /\ ts <> [].
Proof.
  intros H T I. apply run_trace in H. destruct H as (s1 & y & evs & tl & B & T1 & A & T' & U & TL). rewrite T' in T. apply app_inv_head in T.
  destruct (tail_cases _ _ _ _ _ TL T) as [(q & Eq)|(r & raw & c & ->)]; [|destruct I]. clear T TL.
  apply body_spec in B. destruct B as (evs' & T2 & _ & _ & _ & _ & D). rewrite T2 in T1. apply app_inv_head in T1. subst evs'.
  destruct D as [(C & _)|((oc & CK & ->) & _)].
  { exfalso. rewrite Eq in C. apply Forall_app in C. destruct C as (_ & C). apply Forall_inv in C. destruct C as [C|C]; destruct e; solve [destruct C | destruct I]. }
  unfold check_updates_offline in CK. cbn [vehicle_of ClientModel.v_pending] in CK. destruct (has_pending (p_idb s)); [discriminate|]. destruct ts; [discriminate|]. split; [reflexivity|discriminate].
Qed.
(** An ECU gets only what the Director's metadata assigns to it. *)
Notation goes_to := (goes_to P).
Theorem assigned clkd clki now ts s s' x pre e post ecu t :
  uptane_install savec loadc E fnm P W srv clkd clki now ts s = (s', x) -> p_tr s' = p_tr s ++ pre ++ e :: post -> goes_to e ecu t ->
  exists d hw, In d (tg_targets (u_dtargets (p_ust s'))) /\ same_target d t /\ In (ecu, hw) (t_ecus d) /\ ecu_present (vehicle_of loadc P (p_idb s)) ecu hw.
Proof.
  intros H T G. assert (I : installs e) by (destruct e; try destruct G; exact I).
  destruct (nothing_before_checks _ _ _ _ _ _ _ _ _ _ H T I) as ((_ & top & _ & _ & K) & _ & _ & IO).
  assert (Q : exists u, In u ts /\ targets_ecu u ecu /\ (t = u \/ exists c, t = set_corr u c)).
  { destruct e; try destruct G; subst; cbn in IO.
    - destruct IO as (u & U1 & -> & U2). exists u. eauto.
    - exists t0. tauto.
    - exists t0. tauto. }
  destruct Q as (u & U1 & U2 & U3). destruct (K u U1) as ((d & D1 & D2 & D3 & serial & hw & D4 & _) & _).
  assert (S : same_target d t). { destruct U3 as [->|(c & ->)]; [exact D2|]. exact D2. }
  assert (X : exists hw', In (ecu, hw') (t_ecus d)).
  { destruct U2 as (h & U2). destruct D2 as (_ & _ & [(_ & SE)|[(_ & Z & _)|(_ & Z & _)]] & _).
    - destruct (aget_in_some _ _ _ U2) as (v & V). rewrite <- SE in V. exists v. now apply aget_some_in.
    - rewrite Z in D4. destruct D4.
    - rewrite Z in U2. destruct U2. }
  destruct X as (hw' & X). exists d, hw'. auto.
Qed.
Theorem roots_in_order clkd clki now ts s s' x evs : uptane_install savec loadc E fnm P W srv clkd clki now ts s = (s', x) -> p_tr s' = p_tr s ++ evs ->
  roots_ok srv (u_db (p_ust s')) evs /\ metas_ok E (u_db (p_ust s')) evs.
Proof.
  intros H T. apply run_trace in H. destruct H as (s1 & y & evs' & tl & B & T1 & A & T' & U & TL). rewrite T' in T. apply app_inv_head in T. subst evs.
  apply body_spec in B. destruct B as (evs2 & T2 & _ & _ & Q1 & Q2 & _). rewrite T2 in T1. apply app_inv_head in T1. subst evs2. rewrite U. split.
  - apply roots_app; [exact Q1|]. apply roots_none. destruct TL as [->|(r & raw & c & ->)]; repeat constructor.
  - apply metas_app; [exact Q2|]. apply metas_none. destruct TL as [->|(r & raw & c & ->)]; repeat constructor.
Qed.

Theorem versions_justified clkd clki now ts s s' x pre ecu t m post : uptane_install savec loadc E fnm P W srv clkd clki now ts s = (s', x) ->
  p_tr s' = p_tr s ++ pre ++ UVersion ecu t m :: post -> reason ts (tg_corr (u_dtargets (p_ust s'))) pre ecu t m.
Proof.
  intros H T. apply run_trace in H. destruct H as (s1 & y & evs & tl & B & T1 & A & T' & U & TL). rewrite T' in T. apply app_inv_head in T.
  destruct (tail_cases _ _ _ _ _ TL T) as [(q & Eq)|(r & raw & c & X)]; [|discriminate]. clear T TL.
  apply body_spec in B. destruct B as (evs' & T2 & _ & _ & _ & _ & D). rewrite T2 in T1. apply app_inv_head in T1. subst evs'. rewrite <- U in D.
  destruct D as [(C & _)|(_ & _ & pings & metas & inst & yy & Ee & F1 & F2 & _ & _ & IP & _)].
  { exfalso. rewrite Eq in C. apply Forall_app in C. destruct C as (_ & C). apply Forall_inv in C. destruct C as [C|C]; destruct C. }
  rewrite Ee in Eq. destruct (app_cons_split _ _ _ _ _ Eq) as [(p & X & _)|(p & -> & Eq2)].
  { exfalso. rewrite X in F1. apply Forall_app in F1. destruct F1 as (_ & F1). apply Forall_inv in F1. destruct F1. }
  destruct (app_cons_split _ _ _ _ _ Eq2) as [(p' & X & _)|(p' & -> & Eq3)].
  { exfalso. rewrite X in F2. apply Forall_app in F2. destruct F2 as (_ & F2). apply Forall_inv in F2. destruct F2. }
  assert (K := inst_versions _ _ _ _ _ _ _ _ _ IP Eq3).
  assert (L : forall e, In e p' -> In e (pings ++ metas ++ p')) by (intros e He; apply in_or_app; right; apply in_or_app; auto).
  destruct K as [(K1 & u & K2 & K3 & K4 & K5)|(K1 & K2 & u & K3 & K4 & K5 & K6)]; [left|right]; repeat (split; [assumption|]); exists u; repeat (split; [assumption|]).
  - destruct m; auto; destruct K5 as (r & R1 & R2); exists r; auto.
  - destruct m; auto; [destruct K6 as (r & R1 & R2); exists r; auto|]. destruct K6 as [(r & R1 & R2)|R]; [left; exists r; auto|right; auto].
Qed.
(** The tables are what the trace says, at the end and at every point before it. *)
Theorem tables_follow clkd clki now ts s s' x : uptane_install savec loadc E fnm P W srv clkd clki now ts s = (s', x) ->
  exists evs, p_tr s' = p_tr s ++ evs /\ p_idb s' = fold_left ev_idb evs (p_idb s) /\ p_dev s' = fold_left ev_dev evs (p_dev s).
Proof.
  intros H. apply run_spec in H. destruct H as (s1 & y & tl & B & A & _). apply body_spec in B. destruct B as (evs & T & I & D & _). exists (evs ++ tl).
  destruct A as (A1 & A2 & A3 & _). rewrite !fold_left_app, <- I, <- D, A1, T, app_assoc. auto.
Qed.
End U.
