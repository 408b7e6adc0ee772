(** Proofs about the installation of an update, continued: the installation itself and the whole run. *)
From Verif Require Import Base Json TufModel MetaStore RepoModel CodecModel InstModel InstSpec DevModel DevSpec DevProofs ClientModel ClientSpec ClientProofs2
  UpdModel UpdSpec UpdProofs.

(** ** Interleavings *)
Lemma nth_error_replace {A} (x : A) l : forall i y, In y (replace_nth i x l) -> y = x \/ In y l.
Proof. induction l as [|z l IH]; intros [|i] y; cbn; try tauto; intros [->|H]; auto. apply IH in H. tauto. Qed.
Lemma interleave_order sched : forall ts pre e post, interleave sched ts = pre ++ e :: post ->
  exists l a b, In l ts /\ l = a ++ e :: b /\ incl a pre.
Proof.
  induction sched as [|i sched IH]; cbn [interleave]; intros ts pre e post H.
  - revert pre H. induction ts as [|l ts IHt]; cbn [List.concat]; intros pre H; [destruct pre; discriminate|].
    destruct (app_cons_split _ _ _ _ _ H) as [(p & -> & _)|(p & -> & H2)].
    + exists (pre ++ e :: p), pre, p. split; [left; reflexivity|]. split; [reflexivity|]. intros x Hx; exact Hx.
    + destruct (IHt p H2) as (l' & a & b & Hl & E & I). exists l', a, b. split; [right; exact Hl|]. split; [exact E|]. intros x Hx. apply in_or_app. auto.
  - destruct (nth_error ts i) as [[|x rest]|] eqn:N; try (apply IH in H; exact H).
    destruct pre as [|y pre]; cbn in H; injection H as <- H.
    + exists (x :: rest), [], rest. split; [eapply nth_error_In; eauto|]. split; [reflexivity|]. intros ? [].
    + destruct (IH _ _ _ _ H) as (l & a & b & Hl & E & I). apply nth_error_replace in Hl. destruct Hl as [->|Hl].
      * exists (x :: rest), (x :: a), b. split; [eapply nth_error_In; eauto|]. split; [cbn; congruence|]. intros z [<-|Hz]; [left; reflexivity|right; auto].
      * exists l, a, b. split; [exact Hl|]. split; [exact E|]. intros z Hz. right. auto.
Qed.
Lemma interleave_in sched ts e : In e (interleave sched ts) -> exists l, In l ts /\ In e l.
Proof. intros H. apply in_split in H. destruct H as (pre & post & H). apply interleave_order in H. destruct H as (l & a & b & Hl & -> & _). exists (a ++ e :: b). split; [exact Hl|]. apply in_elt. Qed.

Section U.
Context (savec : json -> string) (loadc : string -> option json) (E : Env) (fnm : string -> string -> bool).
Context (P : primary) (W : world) (srv : server).
Notation ev_idb := (ev_idb savec).
Notation adv := (adv savec).

Lemma save_result_spec ecu r s s' x : save_result savec ecu r s = (s', x) ->
  adv s s' [UEcuRes ecu r] /\ x = Ok tt /\ (exists w, to_row r = Ok w) \/ s' = s /\ exists e, x = Throw e.
Proof.
  unfold save_result. intros H. apply lift_bind in H. destruct H as [(w & R & H)|(e & R & -> & ->)].
  - left. apply adv_tell in H. destruct H as (A & ->). repeat split; try apply A; eauto.
  - right. eauto.
Qed.

(** ** The tasks *)
Definition quiet (e : uev) : Prop := match e with UVersion _ _ _ | UEcuRes _ _ | UDevRes _ _ _ | UNull | UPmInstall _ _ | UPutMeta _ _ _ | UPutRoot _ _ _ _ _ => False | _ => True end.
(** Events of one task. *)
Lemma task_events_spec i corr ecu t evs fr : task_events W i corr ecu t = (evs, fr) -> Forall quiet evs /\
  (forall a e b, evs = a ++ e :: b -> installs e ->
     exists ok, In (USend ecu t ok) evs /\ (e = USend ecu t ok \/ ok = true /\ In (USend ecu t true) a /\ exists r, e = UInstall ecu t r)) /\
  (forall r, fr = Ok r -> ir_success r = true \/ need_completion r = Ok true -> exists ok, In (USend ecu t ok) evs /\
     (In (UInstall ecu t r) evs \/ ok = false /\ ir_success r = false)) /\
  (forall r, fr = Ok r -> r = task_result W i).
Proof.
  unfold task_events, task_result, task_answers. destruct (e_send W i) as [x|x] eqn:S.
  - destruct (ir_success x) eqn:OK; cbn [snd].
    + set (r0 := or_internal (e_install W i)). intros H.
      assert (D : exists tl, evs = [UStarted ecu corr; USend ecu t true; UInstall ecu t r0] ++ tl /\ Forall quiet tl /\ Forall (fun e => ~ installs e) tl /\ (fr = Ok r0 \/ exists e, fr = Throw e)).
      { destruct (need_completion r0) as [[|]|e]; injection H as <- <-.
        - exists [UApplied ecu corr]. repeat split; auto; repeat constructor; auto.
        - exists [UCompleted ecu corr (ir_success r0)]. repeat split; auto; repeat constructor; auto.
        - exists []. repeat split; auto. right. eauto. }
      destruct D as (tl & -> & F1 & F2 & F3). split; [repeat (constructor; [exact I|]); exact F1|]. split; [|split].
      * intros a e b He I0. exists true. split; [right; left; reflexivity|].
        destruct a as [|y a]; cbn in He; [injection He as <- _; destruct I0|injection He as <- He].
        destruct a as [|y a]; cbn in He; [injection He as <- _; left; reflexivity|injection He as <- He].
        destruct a as [|y a]; cbn in He; [injection He as <- _|injection He as <- He].
        -- right. split; [reflexivity|]. split; [right; left; reflexivity|]. eauto.
        -- exfalso. rewrite He in F2. apply Forall_app in F2. destruct F2 as (_ & F2). apply Forall_inv in F2. auto.
      * intros r -> _. destruct F3 as [[= ->]|(e & X)]; [|discriminate]. exists true. split; [right; left; reflexivity|]. left. do 2 right. left. reflexivity.
      * intros r ->. destruct F3 as [[= ->]|(e & X)]; [reflexivity|discriminate].
    + intros H. cbn [or_internal] in *.
      assert (D : exists tl, evs = [UStarted ecu corr; USend ecu t false] ++ tl /\ Forall quiet tl /\ Forall (fun e => ~ installs e) tl /\ (fr = Ok x \/ exists e, fr = Throw e)).
      { destruct (need_completion x) as [[|]|e]; injection H as <- <-.
        - exists [UApplied ecu corr]. repeat split; auto; repeat constructor; auto.
        - exists [UCompleted ecu corr (ir_success x)]. repeat split; auto; repeat constructor; auto.
        - exists []. repeat split; auto. right. eauto. }
      destruct D as (tl & -> & F1 & F2 & F3). split; [repeat (constructor; [exact I|]); exact F1|]. split; [|split].
      * intros a e b He I0. exists false. split; [right; left; reflexivity|]. left.
        destruct a as [|y a]; cbn in He; [injection He as <- _; destruct I0|injection He as <- He].
        destruct a as [|y a]; cbn in He; [injection He as <- _; reflexivity|injection He as <- He].
        exfalso. rewrite He in F2. apply Forall_app in F2. destruct F2 as (_ & F2). apply Forall_inv in F2. auto.
      * intros r -> _. destruct F3 as [[= ->]|(e & X)]; [|discriminate]. exists false. split; [right; left; reflexivity|]. auto.
      * intros r ->. destruct F3 as [[= ->]|(e & X)]; [reflexivity|discriminate].
  - intros H. cbn [snd or_internal] in *.
    assert (D : exists tl, evs = [UStarted ecu corr; USend ecu t false] ++ tl /\ Forall quiet tl /\ Forall (fun e => ~ installs e) tl /\ fr = Ok (mk_ires (num kInternalError) "")).
    { cbn in H. injection H as <- <-. eexists [_]. repeat split; auto; repeat constructor; auto. }
    destruct D as (tl & -> & F1 & F2 & ->). split; [repeat (constructor; [exact I|]); exact F1|]. split; [|split].
    + intros a e b He I0. exists false. split; [right; left; reflexivity|]. left.
      destruct a as [|y a]; cbn in He; [injection He as <- _; destruct I0|injection He as <- He].
      destruct a as [|y a]; cbn in He; [injection He as <- _; reflexivity|injection He as <- He].
      exfalso. rewrite He in F2. apply Forall_app in F2. destruct F2 as (_ & F2). apply Forall_inv in F2. auto.
    + intros r [= <-] _. exists false. split; [right; left; reflexivity|]. auto.
    + intros r [= <-]. reflexivity.
Qed.
Lemma run_tasks_in corr l : forall i evs t ecu fr, In (evs, (t, ecu, fr)) (run_tasks W i corr l) -> In (t, ecu) l /\ exists j, task_events W j corr ecu t = (evs, fr).
Proof.
  induction l as [|(t0, e0) l IH]; cbn [run_tasks]; intros i evs t ecu fr; [intros []|].
  destruct (task_events W i corr e0 t0) as [ev r] eqn:T. intros [H|H].
  - injection H as <- <- <- <-. split; [left; reflexivity|eauto].
  - apply IH in H. destruct H as (H & J). split; [right; exact H|exact J].
Qed.
Lemma run_tasks_pairs corr l : forall i, map (fun x => fst (snd x)) (run_tasks W i corr l) = l.
Proof. induction l as [|(t0, e0) l IH]; cbn [run_tasks]; intros i; [reflexivity|]. destruct (task_events W i corr e0 t0). cbn. rewrite IH. reflexivity. Qed.

(** ** Results *)
(** What is written for a report of a Secondary. *)
Definition version_writes (t : target) (ecu : string) (r : ires) : list uev :=
  if ir_success r then [UVersion ecu t ModeCurrent] else match need_completion r with Ok true => [UVersion ecu t ModePending] | _ => [] end.
Definition rep_writes (x : ecu_report) : list uev := let '(t, ecu, r) := x in version_writes t ecu r ++ [UEcuRes ecu r].
(** A report belongs to the answer of a task. *)
Definition rep_of (corr : string) (x : ecu_report) (y : target * string * res ires) : Prop :=
  let '(t', ecu', r) := x in let '(t, ecu, fr) := y in fr = Ok r /\ ecu' = ecu /\ (exists w, to_row r = Ok w) /\
    (t' = set_corr t corr \/ t' = t /\ ir_success r = false /\ need_completion r = Ok false).
Lemma collect_spec l : forall s s' x, collect savec l s = (s', x) -> exists evs, adv s s' evs /\
  (exists done rest y, l = done ++ rest /\ Forall2 (rep_of (tg_corr (u_dtargets (p_ust s)))) y done /\
     (x = Ok y /\ rest = [] /\ evs = flat_map rep_writes y \/
      (exists e, x = Throw e) /\ exists t ecu fr rest', rest = (t, ecu, fr) :: rest' /\
        (evs = flat_map rep_writes y \/ exists t' r, fr = Ok r /\ evs = flat_map rep_writes y ++ version_writes t' ecu r /\ t' = set_corr t (tg_corr (u_dtargets (p_ust s)))))).
Proof.
  induction l as [|((t, ecu), fr) l IH]; cbn [collect]; intros s s' x H.
  - injection H as <- <-. exists []. split; [apply adv_refl|]. exists [], [], []. split; [reflexivity|]. split; [constructor|]. left. auto.
  - assert (HERE : forall e, s' = s -> x = Throw e -> exists evs, adv s s' evs /\
      (exists done rest y, (t, ecu, fr) :: l = done ++ rest /\ Forall2 (rep_of (tg_corr (u_dtargets (p_ust s)))) y done /\
       (x = Ok y /\ rest = [] /\ evs = flat_map rep_writes y \/ (exists e, x = Throw e) /\ exists t0 ecu0 fr0 rest', rest = (t0, ecu0, fr0) :: rest' /\
        (evs = flat_map rep_writes y \/ exists t' r, fr0 = Ok r /\ evs = flat_map rep_writes y ++ version_writes t' ecu0 r /\ t' = set_corr t0 (tg_corr (u_dtargets (p_ust s))))))).
    { intros e -> ->. exists []. split; [apply adv_refl|]. exists [], ((t, ecu, fr) :: l), []. split; [reflexivity|]. split; [constructor|]. right. split; [eauto|].
      exists t, ecu, fr, l. auto. }
    apply lift_bind in H. destruct H as [(r & -> & H)|(e & -> & A & B)]; [|exact (HERE e A B)].
    apply lift_bind in H. destruct H as [(nc & N & H)|(e & N & A & B)]; [|exact (HERE e A B)].
    apply gets_bind in H. set (corr := tg_corr (u_dtargets (p_ust s))) in *. cbv zeta in H. set (t' := if ir_success r || nc then set_corr t corr else t) in *.
    assert (HV : exists s1, adv s s1 (version_writes t' ecu r) /\ (save_result savec ecu r !; let! rest := collect savec l in pret ((t', ecu, r) :: rest)) s1 = (s', x) /\
      (t' = set_corr t corr \/ t' = t /\ ir_success r = false /\ need_completion r = Ok false) /\ (version_writes t' ecu r = [] \/ t' = set_corr t corr)).
    { unfold version_writes. subst t'. destruct (ir_success r) eqn:OK; cbn [orb].
      - apply tell_bind in H. destruct H as (s1 & A & H). exists s1. auto.
      - destruct nc; rewrite N.
        + apply tell_bind in H. destruct H as (s1 & A & H). exists s1. auto.
        + exists s. split; [apply adv_refl|]. split; [exact H|]. auto. }
    clear H. destruct HV as (s1 & A1 & H & T' & V'). assert (U1 : p_ust s1 = p_ust s) by apply A1.
    apply pbind_inv in H. destruct H as [(u & s2 & H & K)|(e & H & ->)]; apply save_result_spec in H.
    2:{ destruct H as [(_ & X & _)|(-> & _)]; [discriminate|]. exists (version_writes t' ecu r). split; [exact A1|]. exists [], ((t, ecu, Ok r) :: l), [].
        split; [reflexivity|]. split; [constructor|]. right. split; [eauto|]. exists t, ecu, (Ok r), l. split; [reflexivity|].
        destruct V' as [->| ->]; [left; reflexivity|right; eexists; exists r; cbn; eauto]. }
    destruct H as [(A2 & _ & R)|(_ & e & X)]; [|discriminate]. assert (U2 : p_ust s2 = p_ust s) by (destruct A2 as (_ & _ & _ & X); congruence).
    assert (RP : rep_of corr (t', ecu, r) (t, ecu, Ok r)) by (cbn; auto).
    apply pbind_inv in K. destruct K as [(y & s3 & K & K')|(e & K & ->)]; apply IH in K; rewrite U2 in K; fold corr in K; destruct K as (e3 & A3 & done & rest & y0 & -> & F & D).
    + injection K' as <- <-. destruct D as [([= <-] & -> & ->)|((e & X) & _)]; [|discriminate].
      exists (rep_writes (t', ecu, r) ++ flat_map rep_writes y). split; [exact (adv_trans _ _ _ _ _ _ (adv_trans _ _ _ _ _ _ A1 A2) A3)|].
      exists ((t, ecu, Ok r) :: done), [], ((t', ecu, r) :: y). split; [reflexivity|]. split; [constructor; auto|]. left. auto.
    + exists (rep_writes (t', ecu, r) ++ e3). split; [exact (adv_trans _ _ _ _ _ _ (adv_trans _ _ _ _ _ _ A1 A2) A3)|].
      exists ((t, ecu, Ok r) :: done), rest, ((t', ecu, r) :: y0). split; [reflexivity|]. split; [constructor; auto|]. right. split; [eauto|].
      destruct D as [(X & _)|(_ & t0 & ecu0 & fr0 & rest' & -> & [->|(t1 & r1 & -> & -> & Ht)])]; [discriminate| |];
        exists t0, ecu0, fr0, rest' || exists t0, ecu0, (Ok r1), rest'; (split; [reflexivity|]); cbn [flat_map].
      * left. reflexivity.
      * right. exists t1, r1. split; [reflexivity|]. split; [apply app_assoc|exact Ht].
Qed.

(** ** The Primary *)
Definition prim_writes (t : target) (r : ires) : list uev :=
  if rc_num (ir_code r) =? kOk then [UVersion (pr_serial P) t ModeCurrent] else if rc_num (ir_code r) =? kNeedCompletion then [UVersion (pr_serial P) t ModePending] else [].
Definition prim_end (corr : string) (r : ires) : list uev :=
  if rc_num (ir_code r) =? kNeedCompletion then [UApplied (pr_serial P) corr] else [UEcuRes (pr_serial P) r; UCompleted (pr_serial P) corr (rc_num (ir_code r) =? kOk)].
Lemma in_find ts u l : find_for_ecu ts (pr_serial P) = u :: l -> In u ts /\ for_ecu u (pr_serial P) = true.
Proof. intros H. assert (I : In u (find_for_ecu ts (pr_serial P))) by (rewrite H; left; reflexivity). unfold find_for_ecu in I. apply filter_In in I. exact I. Qed.
Lemma install_primary_spec ts s s' x : install_primary savec P W ts s = (s', x) -> exists evs, adv s s' evs /\
  (find_for_ecu ts (pr_serial P) = [] /\ evs = [] /\ x = Ok [] \/
   exists u l r, find_for_ecu ts (pr_serial P) = u :: l /\ let corr := tg_corr (u_dtargets (p_ust s)) in let t := set_corr u corr in
     let start := [UStarted (pr_serial P) corr; UVersion (pr_serial P) t ModeNone; UPmInstall t r] ++ prim_writes t r in
     x = Ok [(t, pr_serial P, r)] /\ (exists w, to_row r = Ok w) /\ evs = start ++ UEcuRes (pr_serial P) r :: prim_end corr r \/
     (exists e, x = Throw e) /\ evs = start).
Proof.
  unfold install_primary. destruct (find_for_ecu ts (pr_serial P)) as [|u l] eqn:F; intros H.
  - injection H as <- <-. exists []. split; [apply adv_refl|]. left. auto.
  - apply gets_bind in H. set (corr := tg_corr (u_dtargets (p_ust s))) in *. cbv zeta in H. set (t := set_corr u corr) in *.
    apply tell_bind in H. destruct H as (s1 & A1 & H).
    set (r := match e_pm W t with Ok x => x | Throw _ => mk_ires (num kInstallFailed) "" end).
    assert (PK : forall y s2, package_install savec P W t s1 = (s2, y) -> exists evs, adv s1 s2 evs /\
      (y = Ok r /\ (exists w, to_row r = Ok w) /\ evs = [UVersion (pr_serial P) t ModeNone; UPmInstall t r] ++ prim_writes t r ++ [UEcuRes (pr_serial P) r] \/
       (exists e, y = Throw e) /\ evs = [UVersion (pr_serial P) t ModeNone; UPmInstall t r] ++ prim_writes t r)).
    { intros y s2 K. unfold package_install in K. fold r in K. cbv zeta in K. apply tell_bind in K. destruct K as (s3 & B1 & K). apply tell_bind in K. destruct K as (s4 & B2 & K).
      assert (HV : exists s5, adv s4 s5 (prim_writes t r) /\ (save_result savec (pr_serial P) r !; pret r) s5 = (s2, y)).
      { unfold prim_writes. destruct (rc_num (ir_code r) =? kOk); [|destruct (rc_num (ir_code r) =? kNeedCompletion)].
        - apply tell_bind in K. exact K.
        - apply tell_bind in K. exact K.
        - exists s4. split; [apply adv_refl|exact K]. }
      destruct HV as (s5 & B3 & K'). assert (B := adv_trans _ _ _ _ _ _ (adv_trans _ _ _ _ _ _ B1 B2) B3). clear K.
      apply pbind_inv in K'. destruct K' as [(v & s6 & K' & K)|(e & K' & ->)]; apply save_result_spec in K'.
      - destruct K' as [(B4 & _ & R)|(_ & e & X)]; [|discriminate]. injection K as <- <-. eexists. split; [exact (adv_trans _ _ _ _ _ _ B B4)|]. left.
        split; [reflexivity|]. split; [exact R|]. rewrite <- app_assoc. reflexivity.
      - destruct K' as [(_ & X & _)|(-> & _)]; [discriminate|]. eexists. split; [exact B|]. right. split; [eauto|]. reflexivity. }
    apply pbind_inv in H. destruct H as [(r' & s2 & H & K)|(e & H & ->)]; apply PK in H; destruct H as (e1 & A2 & D).
    2:{ destruct D as [(X & _)|(_ & ->)]; [discriminate|]. eexists. split; [exact (adv_trans _ _ _ _ _ _ A1 A2)|]. right. exists u, l, r. split; [reflexivity|]. right. split; [eauto|]. reflexivity. }
    destruct D as [([= ->] & (w & R) & ->)|((e & X) & _)]; [|discriminate].
    assert (HE : exists s3, adv s2 s3 (prim_end corr r) /\ pret [(t, pr_serial P, r)] s3 = (s', x)).
    { unfold prim_end. destruct (rc_num (ir_code r) =? kNeedCompletion); [apply tell_bind in K; exact K|].
      assert (HS : forall b (k : unit -> PM (list ecu_report)) , pbind (pbind (save_result savec (pr_serial P) r) (fun _ => tell savec (UCompleted (pr_serial P) corr b))) k s2 = (s', x) ->
        exists s3, adv s2 s3 [UEcuRes (pr_serial P) r; UCompleted (pr_serial P) corr b] /\ k tt s3 = (s', x)).
      { intros b k Hk. apply pbind_inv in Hk. destruct Hk as [(v & s3 & Hk & K')|(e & Hk & ->)]; apply pbind_inv in Hk.
        - destruct Hk as [(v' & s4 & Hs & Ht)|(e & _ & X)]; [|discriminate]. apply save_result_spec in Hs. destruct Hs as [(B4 & _)|(_ & e & X)]; [|discriminate].
          apply adv_tell in Ht. destruct Ht as (B5 & [= ->]). exists s3. split; [exact (adv_trans _ _ _ _ _ _ B4 B5)|exact K'].
        - destruct Hk as [(v' & s4 & Hs & Ht)|(e' & Hs & X)].
          + apply adv_tell in Ht. destruct Ht as (_ & Ht). discriminate.
          + unfold save_result, plift, pbind in Hs. rewrite R in Hs. discriminate. }
      destruct (rc_num (ir_code r) =? kOk); exact (HS _ _ K). }
    destruct HE as (s3 & A3 & X). injection X as <- <-. eexists. split; [exact (adv_trans _ _ _ _ _ _ (adv_trans _ _ _ _ _ _ A1 A2) A3)|]. right. exists u, l, r.
    split; [reflexivity|]. left. split; [reflexivity|]. split; [eauto|]. rewrite <- !app_assoc. reflexivity.
Qed.

(** ** Secondaries *)
Definition tasks_of (corr : string) (ts : list target) := run_tasks W 0 corr (sec_pairs P ts).
Lemma send_images_spec ts s s' x : send_images savec P W ts s = (s', x) ->
  let corr := tg_corr (u_dtargets (p_ust s)) in exists s1 evs, adv s s1 (interleave (e_sched W) (map fst (tasks_of corr ts))) /\ adv s1 s' evs /\
    collect savec (map snd (tasks_of corr ts)) s1 = (s', x) /\ p_ust s1 = p_ust s.
Proof.
  unfold send_images. intros H. apply gets_bind in H. cbv zeta. set (corr := tg_corr (u_dtargets (p_ust s))) in *. cbv zeta in H. fold (tasks_of corr ts) in H.
  apply pbind_inv in H. destruct H as [(u & s1 & H & K)|(e & H & _)]; apply tell_all_spec in H; destruct H as (A & R); [|discriminate].
  destruct (collect_spec _ _ _ _ K) as (evs & B & _). exists s1, evs. split; [exact A|]. split; [exact B|]. split; [exact K|]. apply A.
Qed.

(** ** The whole run *)
Definition calm (e : uev) : Prop := is_ping e \/ meta_ev e.
(** The part of the trace from the first installation on. *)
Definition inst_part (corr : string) (ts : list target) (inst : list uev) (x : res (list ecu_report)) : Prop :=
  exists pe px, 
    (find_for_ecu ts (pr_serial P) = [] /\ pe = [] /\ px = Ok [] \/
     exists u l r, find_for_ecu ts (pr_serial P) = u :: l /\ let t := set_corr u corr in
       let start := [UStarted (pr_serial P) corr; UVersion (pr_serial P) t ModeNone; UPmInstall t r] ++ prim_writes t r in
       px = Ok [(t, pr_serial P, r)] /\ (exists w, to_row r = Ok w) /\ pe = start ++ UEcuRes (pr_serial P) r :: prim_end corr r \/
       (exists e, px = Throw e) /\ pe = start) /\
    ((exists e, px = Throw e /\ x = Throw e) /\ inst = pe \/
     exists pr coll, px = Ok pr /\ inst = pe ++ interleave (e_sched W) (map fst (tasks_of corr ts)) ++ coll /\
       exists done rest y, map snd (tasks_of corr ts) = done ++ rest /\ Forall2 (rep_of corr) y done /\
        (x = Ok (pr ++ y) /\ rest = [] /\ coll = flat_map rep_writes y \/
         (exists e, x = Throw e) /\ exists t ecu fr rest', rest = (t, ecu, fr) :: rest' /\
           (coll = flat_map rep_writes y \/ exists t' r, fr = Ok r /\ coll = flat_map rep_writes y ++ version_writes t' ecu r /\ t' = set_corr t corr))).
Lemma ping_calm l : Forall is_ping l -> Forall calm l.
Proof. apply Forall_impl. unfold calm. auto. Qed.
Lemma meta_calm l : Forall meta_ev l -> Forall calm l.
Proof. apply Forall_impl. unfold calm. auto. Qed.
Lemma body_spec clkd clki now ts s s' x : install_body savec loadc E fnm P W srv clkd clki now ts s = (s', x) ->
  exists evs, p_tr s' = p_tr s ++ evs /\ p_idb s' = fold_left ev_idb evs (p_idb s) /\ p_dev s' = fold_left ev_dev evs (p_dev s) /\
  roots_ok srv (u_db (p_ust s')) evs /\ metas_ok E (u_db (p_ust s')) evs /\
  ((Forall calm evs /\ forall a, x = Ok a -> snd a = []) \/
   (exists oc, check_updates_offline E fnm srv clkd clki now (vehicle_of loadc P (p_idb s)) ts (p_ust s) = (p_ust s', Ok oc) /\ oc = OcAvailable) /\
   (forall t, In t ts -> for_ecu t (pr_serial P) || negb (is_ostree t) = true -> e_verify W t = Ok true) /\
   exists pings metas inst y, evs = pings ++ metas ++ inst /\ Forall is_ping pings /\ Forall meta_ev metas /\
     (forall e, In e (targeted P ts) -> In (UPing e) pings) /\
     (forall t ecu hw, In t ts -> In (ecu, hw) (t_ecus t) -> is_sec P ecu = true -> In (UPutMeta ecu t true) metas) /\
     inst_part (tg_corr (u_dtargets (p_ust s'))) ts inst y /\
     (forall a, x = Ok a -> y = Ok (snd a) /\ device_result (client_of P) (p_dev s') = Ok (fst a))).
Proof.
  unfold install_body. intros H. apply gets_bind in H. apply pbind_inv in H.
  set (chk := check_updates_offline E fnm srv clkd clki now (vehicle_of loadc P (p_idb s)) ts) in *.
  set (s0 := {| p_ust := fst (chk (p_ust s)); p_idb := p_idb s; p_dev := p_dev s; p_tr := p_tr s |}).
  assert (CH : (let (s1, r) := pust chk s in match r with Ok o => (s1, Ok o) | Throw _ => (s1, Ok OcError) end) =
               (s0, match snd (chk (p_ust s)) with Ok o => Ok o | Throw _ => Ok OcError end)).
  { unfold pust, s0. destruct (chk (p_ust s)) as [u [o|e]]; reflexivity. }
  assert (SAVE : forall evs, adv s0 s' evs -> p_tr s' = p_tr s ++ evs /\ p_idb s' = fold_left ev_idb evs (p_idb s) /\ p_dev s' = fold_left ev_dev evs (p_dev s)).
  { intros evs (A1 & A2 & A3 & _). auto. }
  assert (UST : forall evs, adv s0 s' evs -> p_ust s' = fst (chk (p_ust s))) by (intros evs (_ & _ & _ & A); exact A).
  match goal with |- ?g => set (G0 := g) end.
  assert (QUIT : forall evs, adv s0 s' evs -> Forall calm evs -> roots_ok srv (u_db (p_ust s')) evs -> metas_ok E (u_db (p_ust s')) evs -> (forall a, x = Ok a -> snd a = []) ->
    G0).
  { intros evs A C Q1 Q2 N. unfold G0. exists evs. destruct (SAVE evs A) as (B1 & B2 & B3). repeat (split; [assumption|]). left. auto. }
  assert (NIL : s' = s0 -> (forall a, x = Ok a -> snd a = []) -> exists evs, adv s0 s' evs /\ Forall calm evs /\ roots_ok srv (u_db (p_ust s')) evs /\ metas_ok E (u_db (p_ust s')) evs).
  { intros -> _. exists []. split; [apply adv_refl|]. split; [constructor|]. split; [apply roots_none; constructor|apply metas_none; constructor]. }
  assert (NIL' : s' = s0 -> (forall a, x = Ok a -> snd a = []) -> G0) by (intros Hs Ha; destruct (NIL Hs Ha) as (evs & A1 & A2 & A3 & A4); exact (QUIT evs A1 A2 A3 A4 Ha)).
  clear NIL. destruct H as [(oc & s1 & C & H)|(e & C & ->)]; rewrite CH in C.
  2:{ destruct (chk (p_ust s)) as [u [o|e']]; cbn in C; discriminate. }
  injection C as <- C.
  destruct oc; try (injection H as <- <-; apply NIL'; [reflexivity|intros a [= <-]; reflexivity]).
  assert (CK : chk (p_ust s) = (fst (chk (p_ust s)), Ok OcAvailable)) by (destruct (chk (p_ust s)) as [u [o|e']]; cbn in C; [injection C as ->; reflexivity|discriminate]).
  apply pbind_inv in H. destruct H as [(good & s1 & RI & H)|(e & RI & ->)]; apply recheck_spec in RI; destruct RI as (-> & RI).
  2:{ apply NIL'; [reflexivity|discriminate]. }
  destruct good; cbn [negb] in H; [|injection H as <- <-; apply NIL'; [reflexivity|intros a [= <-]; reflexivity]]. specialize (RI eq_refl).
  apply pbind_inv in H. destruct H as [(up & s1 & WR & H)|(e & WR & ->)]; apply wait_spec in WR; destruct WR as (pings & A1 & F1 & b & [= Hb] & C1). subst b.
  assert (NMp : Forall no_root pings /\ Forall no_meta pings) by (split; eapply Forall_impl; try exact F1; intros []; cbn; auto).
  destruct up; cbn [negb] in H.
  2:{ injection H as <- <-. apply (QUIT pings A1); [now apply ping_calm|apply roots_none, NMp|apply metas_none, NMp|intros a [= <-]; reflexivity]. }
  specialize (C1 eq_refl). assert (U1 : p_ust s1 = p_ust s0) by apply A1.
  apply pbind_inv in H. unfold send_metadata_to_ecus in H.
  assert (MT : forall y s2, (let! err := send_metadata savec E P W srv (pairs ts) "" in
                pret (if String.eqb err "" then None else Some (mk_ires {| rc_num := kVerificationFailed; rc_text := err |} "Sending metadata to one or more ECUs failed"))) s1 = (s2, y) ->
     exists metas, adv s1 s2 metas /\ roots_ok srv (u_db (p_ust s0)) metas /\ metas_ok E (u_db (p_ust s0)) metas /\ Forall meta_ev metas /\
       (y = Ok None -> forall t ecu hw, In t ts -> In (ecu, hw) (t_ecus t) -> is_sec P ecu = true -> In (UPutMeta ecu t true) metas)).
  { intros y s2 K. apply pbind_inv in K. destruct K as [(err & s3 & K & K')|(e & K & ->)]; apply meta_spec in K; rewrite U1 in K; destruct K as (metas & B1 & B2 & B3 & B4 & _ & B6).
    - injection K' as <- <-. exists metas. repeat (split; [assumption|]). destruct (String.eqb_spec err ""); [|discriminate]. subst err. intros _ t ecu hw Ht Hi Hs.
      destruct (B6 eq_refl) as (_ & B7). apply (B7 t ecu hw); [|exact Hs]. unfold pairs. apply in_flat_map. exists t. split; [exact Ht|]. apply in_map_iff. eauto.
    - exists metas. repeat (split; [assumption|]). discriminate. }
  destruct H as [(m & s2 & SM & H)|(e & SM & ->)]; apply MT in SM; clear MT; destruct SM as (metas & A2 & Q1 & Q2 & F2 & C2); assert (A12 := adv_trans _ _ _ _ _ _ A1 A2).
  2:{ pose proof (UST _ A12) as U'. apply (QUIT _ A12); [apply Forall_app; split; [now apply ping_calm|now apply meta_calm]| | |discriminate]; rewrite U'.
      - apply roots_app; [apply roots_none, NMp|exact Q1].
      - apply metas_app; [apply metas_none, NMp|exact Q2]. }
  destruct m as [mr|].
  { injection H as <- <-. pose proof (UST _ A12) as U'. apply (QUIT _ A12); [apply Forall_app; split; [now apply ping_calm|now apply meta_calm]| | |intros a [= <-]; reflexivity]; rewrite U'.
    - apply roots_app; [apply roots_none, NMp|exact Q1].
    - apply metas_app; [apply metas_none, NMp|exact Q2]. }
  specialize (C2 eq_refl). assert (U2 : p_ust s2 = p_ust s0) by (destruct A2 as (_ & _ & _ & X); congruence).
  set (corr := tg_corr (u_dtargets (p_ust s0))).
  (* the installation *)
  assert (INST : exists inst y, adv s2 s' inst /\ inst_part corr ts inst y /\ (forall a, x = Ok a -> y = Ok (snd a) /\ device_result (client_of P) (p_dev s') = Ok (fst a))).
  { apply pbind_inv in H. destruct H as [(pr & s3 & IP & H)|(e & IP & ->)]; apply install_primary_spec in IP; rewrite U2 in IP; fold corr in IP; destruct IP as (pe & A3 & D).
    2:{ exists pe, (Throw e). split; [exact A3|]. split; [|discriminate]. exists pe, (Throw e). split; [exact D|]. left. split; [eauto|reflexivity]. }
    assert (U3 : p_ust s3 = p_ust s0) by (destruct A3 as (_ & _ & _ & X); congruence).
    apply pbind_inv in H.
    assert (SI : forall z s4, send_images savec P W ts s3 = (s4, z) -> exists coll, adv s3 s4 (interleave (e_sched W) (map fst (tasks_of corr ts)) ++ coll) /\
        exists done rest y, map snd (tasks_of corr ts) = done ++ rest /\ Forall2 (rep_of corr) y done /\
        (z = Ok y /\ rest = [] /\ coll = flat_map rep_writes y \/
         (exists e, z = Throw e) /\ exists t ecu fr rest', rest = (t, ecu, fr) :: rest' /\
           (coll = flat_map rep_writes y \/ exists t' r, fr = Ok r /\ coll = flat_map rep_writes y ++ version_writes t' ecu r /\ t' = set_corr t corr))).
    { intros z s4 K. apply send_images_spec in K. cbv zeta in K. rewrite U3 in K. fold corr in K. destruct K as (s5 & coll & B1 & _ & K & U5).
      apply collect_spec in K. rewrite U5 in K. fold corr in K. destruct K as (coll' & B3 & K). exists coll'. split; [exact (adv_trans _ _ _ _ _ _ B1 B3)|exact K]. }
    destruct H as [(sr & s4 & SE & H)|(e & SE & ->)]; apply SI in SE; clear SI; destruct SE as (coll & A4 & done & rest & y & Ed & F & K).
    2:{ destruct K as [(X & _)|K]; [discriminate|]. exists (pe ++ interleave (e_sched W) (map fst (tasks_of corr ts)) ++ coll), (Throw e).
        split; [exact (adv_trans _ _ _ _ _ _ A3 A4)|]. split; [|discriminate]. exists pe, (Ok pr). split; [exact D|]. right. exists pr, coll. split; [reflexivity|]. split; [reflexivity|].
        exists done, rest, y. split; [exact Ed|]. split; [exact F|]. right. destruct K as (_ & K). split; [eauto|exact K]. }
    destruct K as [([= <-] & -> & ->)|((e & X) & _)]; [|discriminate].
    apply gets_bind in H. apply lift_bind in H.
    assert (GO : s' = s4 -> (forall a, x = Ok a -> snd a = pr ++ sr /\ device_result (client_of P) (p_dev s') = Ok (fst a)) ->
      exists inst y, adv s2 s' inst /\ inst_part corr ts inst y /\ (forall a, x = Ok a -> y = Ok (snd a) /\ device_result (client_of P) (p_dev s') = Ok (fst a))).
    { intros -> Ha. exists (pe ++ interleave (e_sched W) (map fst (tasks_of corr ts)) ++ flat_map rep_writes sr), (Ok (pr ++ sr)).
      split; [exact (adv_trans _ _ _ _ _ _ A3 A4)|]. split.
      - exists pe, (Ok pr). split; [exact D|]. right. exists pr, (flat_map rep_writes sr). split; [reflexivity|]. split; [reflexivity|]. exists done, [], sr. split; [exact Ed|]. split; [exact F|]. left. auto.
      - intros a Hx. destruct (Ha a Hx) as (-> & X). auto. }
    destruct H as [(dx & DR & H)|(e & DR & -> & ->)].
    - injection H as <- <-. apply GO; [reflexivity|]. intros a [= <-]. cbn [fst snd]. split; [reflexivity|]. rewrite DR. destruct dx; reflexivity.
    - apply GO; [reflexivity|discriminate]. }
  destruct INST as (inst & y & A3 & IP & Fin). assert (A := adv_trans _ _ _ _ _ _ A12 A3). rewrite <- app_assoc in A.
  unfold G0. exists (pings ++ metas ++ inst). destruct (SAVE _ A) as (B1 & B2 & B3). pose proof (UST _ A) as U'. split; [exact B1|]. split; [exact B2|]. split; [exact B3|].
  assert (NI : Forall no_root inst /\ Forall no_meta inst).
  { assert (PW : forall t r, Forall no_root (prim_writes t r) /\ Forall no_meta (prim_writes t r)).
    { intros t r. unfold prim_writes. destruct (_ =? kOk); [split; repeat constructor|]. destruct (_ =? kNeedCompletion); split; repeat constructor. }
    assert (PE : forall r, Forall no_root (prim_end corr r) /\ Forall no_meta (prim_end corr r)).
    { intros r. unfold prim_end. destruct (_ =? kNeedCompletion); split; repeat constructor. }
    assert (VW : forall t ecu r, Forall no_root (version_writes t ecu r) /\ Forall no_meta (version_writes t ecu r)).
    { intros t ecu r. unfold version_writes. destruct (ir_success r); [split; repeat constructor|]. destruct (need_completion r) as [[|]|]; split; repeat constructor. }
    assert (RW : forall l, Forall no_root (flat_map rep_writes l) /\ Forall no_meta (flat_map rep_writes l)).
    { induction l as [|((t, ecu), r) l IH]; [split; constructor|]. cbn [flat_map rep_writes]. split; repeat (apply Forall_app; split); try apply VW; try apply IH; repeat constructor. }
    assert (IL : Forall no_root (interleave (e_sched W) (map fst (tasks_of corr ts))) /\ Forall no_meta (interleave (e_sched W) (map fst (tasks_of corr ts)))).
    { split; apply Forall_forall; intros e He; apply interleave_in in He; destruct He as (l & Hl & He); apply in_map_iff in Hl; destruct Hl as ((ev & ((t, ecu), fr)) & <- & Hl);
        apply run_tasks_in in Hl; destruct Hl as (_ & j & Hj); apply task_events_spec in Hj; destruct Hj as (Q & _); rewrite Forall_forall in Q; specialize (Q e He); destruct e; cbn in *; auto. }
    destruct IP as (pe & px & D & K).
    assert (PEv : Forall no_root pe /\ Forall no_meta pe).
    { destruct D as [(_ & -> & _)|(u & l & r & _ & D)]; [split; constructor|]. cbv zeta in D. destruct D as [(_ & _ & ->)|(_ & ->)]; split; repeat (apply Forall_app; split);
        try apply PW; repeat (constructor; [exact I|]); try apply PE; constructor. }
    destruct K as [(_ & ->)|(pr & coll & _ & -> & done & rest & yy & _ & _ & K)]; [exact PEv|].
    assert (CO : Forall no_root coll /\ Forall no_meta coll).
    { destruct K as [(_ & _ & ->)|(_ & t & ecu & fr & rest' & _ & [->|(t' & r & _ & -> & _)])]; try apply RW. split; apply Forall_app; split; try apply RW; apply VW. }
    split; repeat (apply Forall_app; split); try apply PEv; try apply IL; apply CO. }
  split; [rewrite U'; apply roots_app; [apply roots_none, NMp|apply roots_app; [exact Q1|apply roots_none, NI]]|].
  split; [rewrite U'; apply metas_app; [apply metas_none, NMp|apply metas_app; [exact Q2|apply metas_none, NI]]|]. right.
  split; [exists OcAvailable; split; [rewrite CK, U'; reflexivity|reflexivity]|]. split; [exact RI|]. exists pings, metas, inst, y. split; [reflexivity|].
  split; [exact F1|]. split; [exact F2|]. split; [exact C1|]. split; [exact C2|]. split; [|exact Fin]. rewrite U'. exact IP.
Qed.
End U.
