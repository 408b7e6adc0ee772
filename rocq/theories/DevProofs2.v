From Verif Require Import Base Json CodecModel CodecSpec CodecProofs DlProofs DevModel DevSpec DevProofs.

(** ** Rows *)
Lemma row_round r w : int32 (rc_num (ir_code r)) -> to_row r = Ok w -> exists r', of_row w = Ok r' /\ rc_same (ir_code r') (ir_code r) /\
  ir_success r' = ir_success r /\ ir_desc r' = ir_desc r /\ exists s, rc_string (ir_code r) = Ok s.
Proof.
  intros I H. unfold to_row in H. destruct (to_repr (ir_code r)) as [t|] eqn:T; [|discriminate]. injection H as <-.
  destruct (result_code_round_trip _ _ I T) as (c' & F & S). unfold of_row. cbn [rw_code rw_success rw_desc]. rewrite F. cbn [bind].
  eexists. split; [reflexivity|]. cbn. repeat split; try apply S. unfold to_repr in T. destruct (rc_string (ir_code r)) as [s|]; [eauto|discriminate].
Qed.
Lemma of_row_json r w : int32 (rc_num (ir_code r)) -> to_row r = Ok w -> exists r', of_row w = Ok r' /\ to_res_json r' = Ok (shown r).
Proof.
  intros I H. destruct (row_round r w I H) as (r' & O & [N S] & A & B & s & E). exists r'. split; [exact O|].
  unfold to_res_json, shown, code_text. rewrite S, E. cbn [bind]. now rewrite A, B.
Qed.

Lemma aget_same {A} k (v : A) t : aget k (aset k v t) = Some v.
Proof. rewrite aget_aset, String.eqb_refl. reflexivity. Qed.
Lemma aget_other {A} k k' (v : A) t : k <> k' -> aget k (aset k' v t) = aget k t.
Proof. intros N. rewrite aget_aset. destruct (String.eqb_spec k k'); [contradiction|reflexivity]. Qed.

(** The row that stands for the outstanding result. *)
Definition stored_row (o : option ires) (w : option row) : Prop :=
  match o, w with
  | None, None => True
  | Some r, Some w => to_row r = Ok w /\ int32 (rc_num (ir_code r))
  | _, _ => False
  end.
Record hinv (ecus : list (string * string)) (h : list dev_ev) (d : dev) : Prop := {
  hi_ecus : v_ecus d = ecus;
  hi_eres : forall s, stored_row (outstanding_ecu s h) (aget s (v_eres d));
  hi_dres : match outstanding h, v_dres d with
            | None, None => True
            | Some (r, raw, corr), Some (w, raw', corr') => raw' = raw /\ corr' = corr /\ to_row r = Ok w /\ int32 (rc_num (ir_code r))
            | _, _ => False
            end }.

Lemma out_snoc h e : outstanding (h ++ [e]) = match e with VStored r raw corr => Some (r, raw, corr) | VCleared => None | _ => outstanding h end.
Proof. unfold outstanding. rewrite fold_left_app. reflexivity. Qed.
Lemma oute_snoc s h e : outstanding_ecu s (h ++ [e]) = match e with VEcu s' r => if String.eqb s s' then Some r else outstanding_ecu s h | VCleared => None | _ => outstanding_ecu s h end.
Proof. unfold outstanding_ecu. rewrite fold_left_app. reflexivity. Qed.

Lemma items_spec h d : (forall s, stored_row (outstanding_ecu s h) (aget s (v_eres d))) -> forall ecus,
  exists x, of_rows (joined ecus (v_eres d)) = Ok x /\
    report_items x = Ok (flat_map (fun e => match outstanding_ecu (fst e) h with Some x => [(fst e, shown x)] | None => [] end) ecus).
Proof.
  intros H ecus. induction ecus as [|[s hw] ecus (x & X & Y)]; [exists []; split; reflexivity|].
  cbn [joined flat_map fst] in *. specialize (H s). destruct (outstanding_ecu s h) as [r|] eqn:O; destruct (aget s (v_eres d)) as [w|] eqn:W; cbn [stored_row] in H; try contradiction.
  - destruct H as [T I]. destruct (of_row_json r w I T) as (r' & P & Q). exists ((s, r') :: x). cbn [app of_rows]. unfold joined in X. rewrite P. cbn [bind]. rewrite X. cbn [bind].
    split; [reflexivity|]. cbn [report_items]. rewrite Q. cbn [bind]. rewrite Y. reflexivity.
  - exists x. cbn [app]. split; assumption.
Qed.
Lemma make_report_due ecus h d : hinv ecus h d -> make_report d = Ok (due_report ecus h).
Proof.
  intros [E R D]. unfold make_report, due_report. destruct (outstanding h) as [[[r raw] corr]|]; destruct (v_dres d) as [[[w raw'] corr']|]; try contradiction; [|reflexivity].
  destruct D as (-> & -> & T & I). destruct (of_row_json r w I T) as (r' & -> & Q). cbn [bind]. rewrite Q. cbn [bind].
  destruct (items_spec h d R ecus) as (x & X & Y). unfold load_eres. rewrite E.
  destruct (joined ecus (v_eres d)) as [|e l]; [cbn in X; injection X as <-; cbn [bind]; rewrite Y; reflexivity|].
  rewrite X. cbn [bind]. rewrite Y. reflexivity.
Qed.

Section Run.
Context (savec : json -> string) (loadc : string -> json) (verifies : string -> json -> bool).
Notation dstep := (dstep savec loadc verifies). Notation drun := (drun savec loadc verifies). Notation assemble := (assemble savec loadc verifies).

Lemma hinv_ext ecus h d d' : hinv ecus h d -> v_ecus d' = v_ecus d -> v_eres d' = v_eres d -> v_dres d' = v_dres d -> hinv ecus h d'.
Proof. intros [A B C] E1 E2 E3. split; [congruence|intros s; rewrite E2; apply B|rewrite E3; exact C]. Qed.
Lemma assemble_frame c an sv d : let d' := fst (assemble c an sv d) in v_ecus d' = v_ecus d /\ v_eres d' = v_eres d /\ v_dres d' = v_dres d /\ v_pending d' = v_pending d.
Proof.
  unfold DevModel.assemble. destruct (joined (v_ecus d) (v_cnt d)) as [|[s n] l].
  - destruct (sec_versions savec loadc verifies (c_secs c) an (v_cache d)). cbn. auto.
  - destruct sv; cbn [v_cache with_cnt]; destruct (sec_versions savec loadc verifies (c_secs c) an (v_cache d)); cbn; auto.
Qed.
Lemma assemble_ok c an sv d ecus h : hinv ecus h d -> exists m, snd (assemble c an sv d) = Ok m /\ m_report m = due_report ecus h.
Proof.
  intros H. pose proof (assemble_frame c an sv d) as (A & B & C & _). unfold DevModel.assemble in *.
  destruct (match joined (v_ecus d) (v_cnt d) with [] => _ | _ => _ end) as [cnt d1] eqn:X.
  destruct (sec_versions savec loadc verifies (c_secs c) an (v_cache d1)) as [vs ca]. cbn [fst snd] in *.
  rewrite (make_report_due ecus h _ (hinv_ext ecus h d _ H A B C)). cbn [bind]. eexists. split; reflexivity.
Qed.

(** In the history [h] every sent manifest carries the report that was due and results are cleared only after an accepted one. *)
Definition faithful (ecus : list (string * string)) (h : list dev_ev) : Prop :=
  (forall h1 m ok an h2, h = h1 ++ VSent m ok an :: h2 -> m_report m = due_report ecus h1) /\
  (forall h1 h2, h = h1 ++ VCleared :: h2 -> exists h0 m an, h1 = h0 ++ [VSent m true an]).
Lemma snoc_split {A} (h : list A) e h1 x h2 : h ++ [e] = h1 ++ x :: h2 -> (h2 = [] /\ h1 = h /\ x = e) \/ exists h2', h2 = h2' ++ [e] /\ h = h1 ++ x :: h2'.
Proof.
  destruct (@exists_last _ (x :: h2) ltac:(discriminate)) as (l & y & E). intros H. rewrite E, app_assoc in H. apply app_inj_tail in H. destruct H as [-> <-].
  destruct l as [|z l]; cbn in E; injection E as <- ->; [left; rewrite app_nil_r; auto|]. right. exists l. auto.
Qed.
Lemma faithful_snoc ecus h e : faithful ecus h ->
  (forall m ok an, e = VSent m ok an -> m_report m = due_report ecus h) ->
  (e = VCleared -> exists h0 m an, h = h0 ++ [VSent m true an]) -> faithful ecus (h ++ [e]).
Proof.
  intros [F1 F2] A B. split.
  - intros h1 m ok an h2 E. destruct (snoc_split _ _ _ _ _ E) as [(-> & -> & X)|(h2' & _ & X)]; [exact (A m ok an (eq_sym X))|exact (F1 _ _ _ _ _ X)].
  - intros h1 h2 E. destruct (snoc_split _ _ _ _ _ E) as [(-> & -> & X)|(h2' & _ & X)]; [exact (B (eq_sym X))|exact (F2 _ _ X)].
Qed.

Lemma stored_row_none : stored_row None None. Proof. exact I. Qed.
Lemma hinv_store ecus h d r raw corr d' ev : hinv ecus h d -> int32 (rc_num (ir_code r)) -> store_dres r raw corr d = (d', ev) ->
  hinv ecus (h ++ ev) d' /\ (faithful ecus h -> faithful ecus (h ++ ev)).
Proof.
  intros H I S. unfold store_dres in S. destruct (to_row r) as [w|] eqn:T; injection S as <- <-.
  2:{ rewrite app_nil_r. auto. }
  destruct H as [A B C]. split.
  - split; cbn; [exact A|intros s; rewrite oute_snoc; apply B|rewrite out_snoc; auto].
  - intros F. apply faithful_snoc; [exact F|discriminate|discriminate].
Qed.
Lemma computed_int32 c d r raw : device_result c d = Ok (r, raw) -> int32 (rc_num (ir_code r)).
Proof.
  unfold device_result. destruct (load_eres d) as [[l|]|]; cbn [bind]; [| |discriminate].
  2:{ intros H. injection H as <- _. vm_compute. split; discriminate. }
  assert (L : forall l cur raw err x raw' err', int32 (rc_num (ir_code cur)) -> result_loop c l cur raw err = Ok (x, raw', err') -> int32 (rc_num (ir_code x))).
  { clear. induction l as [|[s r] l IH]; intros cur raw err x raw' err' I H; cbn [result_loop] in H; [injection H as <- _ _; exact I|].
    destruct (ecu_hw c s) as [hw|]; [|injection H as <- _ _; vm_compute; split; discriminate].
    destruct (need_completion r) as [[|]|]; cbn [bind] in H; [injection H as <- _ _; vm_compute; split; discriminate| |discriminate].
    destruct (ir_success r); [eapply IH; eassumption|]. destruct (rc_string (ir_code r)); cbn [bind] in H; [eapply IH; eassumption|discriminate]. }
  destruct (result_loop c l _ _ _) as [[[x raw'] err]|] eqn:R; cbn [bind]; [|discriminate].
  apply L in R; [|vm_compute; split; discriminate].
  destruct (String.eqb err ""); intros H; injection H as <- _; [exact R|vm_compute; split; discriminate].
Qed.

Lemma dstep_hinv c ecus h d o d' ev : ints o -> hinv ecus h d -> faithful ecus h -> dstep c d o = (d', ev) -> hinv ecus (h ++ ev) d' /\ faithful ecus (h ++ ev).
Proof.
  intros I H F S. destruct o as [s r|corr|r raw corr|b|ok crash sv an]; cbn [DevModel.dstep] in S.
  - unfold save_eres in S. destruct (to_row r) as [w|] eqn:T; cbn [bind] in S; injection S as <- <-.
    2:{ rewrite app_nil_r. auto. }
    destruct H as [A B C]. split; [|apply faithful_snoc; [exact F|discriminate|discriminate]].
    split; cbn [v_ecus v_eres v_dres]; [exact A| |rewrite out_snoc; exact C].
    intros s'. rewrite oute_snoc. destruct (String.eqb_spec s' s) as [->|N].
    + rewrite aget_same. cbn. auto.
    + rewrite aget_other by exact N. apply B.
  - destruct (device_result c d) as [[r raw]|] eqn:R.
    + destruct (hinv_store ecus h d r raw corr d' ev H (computed_int32 _ _ _ _ R) S). auto.
    + injection S as <- <-. rewrite app_nil_r. auto.
  - destruct (hinv_store ecus h d r raw corr d' ev H I S). auto.
  - injection S as <- <-. rewrite app_nil_r. split; [|exact F]. eapply hinv_ext; [exact H|reflexivity..].
  - destruct (v_pending d). { injection S as <- <-. rewrite app_nil_r. auto. }
    destruct (assemble_ok c an sv d ecus h H) as (m & M & R). pose proof (assemble_frame c an sv d) as (A & B & C & _).
    destruct (assemble c an sv d) as [d1 rm]. cbn [fst snd] in *. subst rm.
    assert (H1 : hinv ecus (h ++ [VSent m ok an]) d1).
    { pose proof (hinv_ext ecus h d d1 H A B C) as [A' B' C']. split; [exact A'|intros s; rewrite oute_snoc; apply B'|rewrite out_snoc; exact C']. }
    assert (F1 : faithful ecus (h ++ [VSent m ok an])).
    { apply faithful_snoc; [exact F|intros ? ? ? E; injection E as <- _ _; exact R|discriminate]. }
    destruct (ok && negb crash)%bool eqn:K; injection S as <- <-; [|auto].
    change [VSent m ok an; VCleared] with ([VSent m ok an] ++ [VCleared]). rewrite app_assoc. split.
    + split; cbn; [apply H1|intros s; rewrite oute_snoc; exact I|rewrite out_snoc; exact I].
    + apply faithful_snoc; [exact F1|discriminate|]. intros _. apply andb_prop in K. destruct K as [-> _]. eauto.
Qed.
Lemma drun_hinv c ecus ops : forall h d d' ev, Forall ints ops -> hinv ecus h d -> faithful ecus h -> drun c d ops = (d', ev) -> hinv ecus (h ++ ev) d' /\ faithful ecus (h ++ ev).
Proof.
  induction ops as [|o ops IH]; intros h d d' ev I H F R; cbn [DevModel.drun] in R.
  - injection R as <- <-. rewrite app_nil_r. auto.
  - inversion I as [|? ? I1 I2]; subst. destruct (dstep c d o) as [d1 e1] eqn:S. destruct (drun c d1 ops) as [d2 e2] eqn:R2. injection R as <- <-.
    destruct (dstep_hinv c ecus h d o d1 e1 I1 H F S) as [H1 F1]. rewrite app_assoc. eapply IH; eassumption.
Qed.
Lemma hinv_init ecus cnt : hinv ecus [] (dev_init ecus cnt).
Proof. split; cbn; [reflexivity|intros s; exact I|exact I]. Qed.
Lemma faithful_nil ecus : faithful ecus [].
Proof. split; intros h1; intros; destruct h1; discriminate. Qed.

(** ** Counters *)
Lemma joined_head_aset ecus t s n l k : @joined Z ecus t = (s, n) :: l -> exists l', joined ecus (aset s k t) = (s, k) :: l'.
Proof.
  induction ecus as [|[e hw] ecus IH]; cbn [joined flat_map fst]; [discriminate|].
  destruct (aget e t) as [v|] eqn:A; cbn [app].
  - intros H. injection H as <- <- <-. rewrite aget_same. eexists. reflexivity.
  - intros H. destruct (String.eqb_spec e s) as [->|N].
    + exfalso. assert (X : In (s, n) (joined ecus t)) by (unfold joined; rewrite H; left; reflexivity).
      unfold joined in X. apply in_flat_map in X. destruct X as ([e hw'] & _ & X). cbn [fst] in X. destruct (aget e t) eqn:Y; [|contradiction].
      destruct X as [X|[]]. injection X as -> <-. congruence.
    + rewrite aget_other by exact N. rewrite A. cbn [app]. apply IH. exact H.
Qed.
Definition sent_counters (h : list dev_ev) : list Z :=
  flat_map (fun (e : dev_ev) => match e with VSent m _ _ => match m_counter m with Some z => [z] | None => [] end | _ => [] end) h.
(** The stored counter is at least every counter sent. *)
Definition cinv (h : list dev_ev) (d : dev) : Prop :=
  match joined (v_ecus d) (v_cnt d) with
  | [] => sent_counters h = []
  | (_, n) :: _ => Forall (fun z => z <= n) (sent_counters h)
  end.
Lemma sent_app h1 h2 : sent_counters (h1 ++ h2) = sent_counters h1 ++ sent_counters h2.
Proof. apply flat_map_app. Qed.
Fixpoint increasing (l : list Z) : Prop := match l with [] => True | x :: l' => Forall (fun y => x < y) l' /\ increasing l' end.
Lemma increasing_snoc l x : increasing l -> Forall (fun y => y < x) l -> increasing (l ++ [x]).
Proof.
  induction l as [|a l IH]; cbn; intros H F; [auto|]. destruct H as [H1 H2]. inversion F; subst. split; [apply Forall_app; auto|apply IH; auto].
Qed.
Lemma sent_nil_noncnt ev : Forall (fun e => match e with VSent _ _ _ => False | _ => True end) ev -> sent_counters ev = [].
Proof. induction 1 as [|e ev H _ IH]; [reflexivity|]. destruct e; try contradiction; exact IH. Qed.
Lemma store_dres_frame r raw corr d : let d' := fst (store_dres r raw corr d) in v_ecus d' = v_ecus d /\ v_cnt d' = v_cnt d /\ v_cache d' = v_cache d /\
  Forall (fun e => match e with VSent _ _ _ => False | _ => True end) (snd (store_dres r raw corr d)).
Proof. unfold store_dres. destruct (to_row r); cbn; auto 10. Qed.
Lemma dstep_cinv c h d o d' ev : writes_ok o -> cinv h d -> increasing (sent_counters h) -> dstep c d o = (d', ev) -> cinv (h ++ ev) d' /\ increasing (sent_counters (h ++ ev)).
Proof.
  intros W H J S.
  assert (quiet : v_ecus d' = v_ecus d -> v_cnt d' = v_cnt d -> sent_counters ev = [] -> cinv (h ++ ev) d' /\ increasing (sent_counters (h ++ ev))).
  { intros A B C. unfold cinv. rewrite A, B, sent_app, C, app_nil_r. auto. }
  destruct o as [s r|corr|r raw corr|b|ok crash sv an]; cbn [DevModel.dstep] in S.
  - unfold save_eres in S. destruct (to_row r) as [w|]; cbn [bind] in S; injection S as <- <-; apply quiet; reflexivity.
  - destruct (device_result c d) as [[r raw]|].
    + pose proof (store_dres_frame r raw corr d) as (A & B & C & D). rewrite S in *. cbn [fst snd] in *. apply quiet; auto. apply sent_nil_noncnt; auto.
    + injection S as <- <-. apply quiet; reflexivity.
  - pose proof (store_dres_frame r raw corr d) as (A & B & C & D). rewrite S in *. cbn [fst snd] in *. apply quiet; auto. apply sent_nil_noncnt; auto.
  - injection S as <- <-. apply quiet; reflexivity.
  - cbn in W. subst sv. destruct (v_pending d). { injection S as <- <-. apply quiet; reflexivity. }
    unfold DevModel.assemble in S.
    destruct (joined (v_ecus d) (v_cnt d)) as [|[s n] l] eqn:Jd.
    + destruct (sec_versions savec loadc verifies (c_secs c) an (v_cache d)) as [vs ca].
      unfold cinv in *. rewrite Jd in H.
      destruct (make_report (with_cache d ca)) as [r|]; cbn [bind] in S.
      * destruct (ok && negb crash)%bool; injection S as <- <-; cbn [v_ecus v_cnt clear_results with_cache]; rewrite Jd, sent_app, H; cbn; auto.
      * injection S as <- <-. apply quiet; reflexivity.
    + cbn [v_cache with_cnt] in S. destruct (sec_versions savec loadc verifies (c_secs c) an (v_cache d)) as [vs ca].
      unfold cinv in *. rewrite Jd in H. destruct (joined_head_aset _ _ _ _ _ (n + 1) Jd) as (l' & Jd').
      assert (LT : Forall (fun z => z < n + 1) (sent_counters h)) by (eapply Forall_impl; [|exact H]; cbn; intros; lia).
      assert (LE : Forall (fun z => z <= n + 1) (sent_counters h)) by (eapply Forall_impl; [|exact H]; cbn; intros; lia).
      destruct (make_report (with_cache _ ca)) as [r|]; cbn [bind] in S.
      * destruct (ok && negb crash)%bool; injection S as <- <-; cbn [v_ecus v_cnt clear_results with_cache with_cnt]; rewrite Jd', sent_app;
          cbn [sent_counters flat_map m_counter app]; (split; [apply Forall_app; split; [exact LE|repeat constructor; lia]|apply increasing_snoc; auto]).
      * injection S as <- <-. cbn [v_ecus v_cnt with_cache with_cnt]. rewrite Jd', app_nil_r. auto.
Qed.
Lemma drun_cinv c ops : forall h d d' ev, Forall writes_ok ops -> cinv h d -> increasing (sent_counters h) -> drun c d ops = (d', ev) -> increasing (sent_counters (h ++ ev)).
Proof.
  induction ops as [|o ops IH]; intros h d d' ev I H F R; cbn [DevModel.drun] in R.
  - injection R as <- <-. rewrite app_nil_r. auto.
  - inversion I as [|? ? I1 I2]; subst. destruct (dstep c d o) as [d1 e1] eqn:S. destruct (drun c d1 ops) as [d2 e2] eqn:R2. injection R as <- <-.
    destruct (dstep_cinv c h d o d1 e1 I1 H F S) as [H1 F1]. rewrite app_assoc. eapply IH; eassumption.
Qed.
Lemma increasing_split l a x b y c : increasing l -> l = a ++ x :: b ++ y :: c -> x < y.
Proof.
  revert a. induction l as [|z l IH]; intros a H E; [destruct a; discriminate|]. destruct H as [H1 H2]. destruct a as [|w a]; injection E as -> E.
  - rewrite E in H1. apply Forall_app in H1. destruct H1 as [_ H1]. inversion H1. assumption.
  - eapply IH; eassumption.
Qed.

(** ** Version reports of Secondaries *)
Lemma sec_versions_sound secs an : forall ca s m, In (s, m) (fst (sec_versions savec loadc verifies secs an ca)) -> verifies s m = true.
Proof.
  induction secs as [|[s0 h0] secs IH]; intros ca s m; cbn [sec_versions]; [contradiction|].
  assert (N : forall ca' vs, (forall s m, In (s, m) vs -> verifies s m = true) ->
     In (s, m) (fst (let '(l, c) := sec_versions savec loadc verifies secs an ca' in (vs ++ l, c))) -> verifies s m = true).
  { intros ca' vs V H. specialize (IH ca' s m). destruct (sec_versions savec loadc verifies secs an ca') as [l c']. cbn [fst] in *.
    apply in_app_or in H. destruct H as [H|H]; auto. }
  destruct (is_empty_json (an s0)).
  - destruct (aget s0 ca) as [txt|].
    + destruct (verifies s0 (loadc txt)) eqn:V; apply N; [|intros ? ? []]. intros s' m' [E|[]]. injection E as <- <-. exact V.
    + apply N. intros ? ? [].
  - destruct (verifies s0 (an s0)) eqn:V; apply N; [|intros ? ? []]. intros s' m' [E|[]]. injection E as <- <-. exact V.
Qed.
(** What a Secondary contributes, given its answer and the cached text. *)
Definition contribution (s : string) (a : json) (cached : option string) : option json :=
  if is_empty_json a then match cached with Some t => if verifies s (loadc t) then Some (loadc t) else None | None => None end
  else if verifies s a then Some a else None.
Definition cached_after (s : string) (a : json) (cached : option string) : option string :=
  if negb (is_empty_json a) && verifies s a then Some (savec a) else cached.
Lemma aget_app_l {A} s (l1 l2 : list (string * A)) : aget s (l1 ++ l2) = match aget s l1 with Some v => Some v | None => aget s l2 end.
Proof. induction l1 as [|[k v] l1 IH]; cbn; [reflexivity|]. destruct (String.eqb s k); [reflexivity|exact IH]. Qed.
Lemma sec_versions_spec secs an : NoDup (map fst secs) -> forall ca,
  let r := sec_versions savec loadc verifies secs an ca in
  forall s, (In s (map fst secs) -> aget s (fst r) = contribution s (an s) (aget s ca) /\ aget s (snd r) = cached_after s (an s) (aget s ca)) /\
            (~ In s (map fst secs) -> aget s (fst r) = None /\ aget s (snd r) = aget s ca).
Proof.
  induction secs as [|[s0 h0] secs IH]; intros ND ca r s; subst r; cbn [sec_versions map fst];
    [|set (r := if is_empty_json (an s0) then _ else _)].
  { split; [intros []|]. intros _. split; reflexivity. }
  inversion ND as [|? ? NI ND']; subst.
  assert (X : forall ca' vs, (forall s', s' <> s0 -> aget s' ca' = aget s' ca /\ aget s' vs = None) ->
     aget s0 vs = contribution s0 (an s0) (aget s0 ca) -> aget s0 ca' = cached_after s0 (an s0) (aget s0 ca) ->
     r = (let '(l, c) := sec_versions savec loadc verifies secs an ca' in (vs ++ l, c)) ->
     (In s (s0 :: map fst secs) -> aget s (fst r) = contribution s (an s) (aget s ca) /\ aget s (snd r) = cached_after s (an s) (aget s ca)) /\
            (~ In s (s0 :: map fst secs) -> aget s (fst r) = None /\ aget s (snd r) = aget s ca)).
  { intros ca' vs O A B ->. specialize (IH ND' ca' s). destruct (sec_versions savec loadc verifies secs an ca') as [l c']. cbn [fst snd] in *.
    rewrite aget_app_l. destruct IH as [IH1 IH2]. destruct (String.eqb_spec s s0) as [->|N].
    - destruct (IH2 NI) as [P Q]. split; [|intros Z; exfalso; apply Z; left; reflexivity]. intros _. rewrite P, Q, A, B. destruct (contribution s0 (an s0) (aget s0 ca)); auto.
    - destruct (O s N) as [O1 O2]. rewrite O2. split.
      + intros [Z|Z]; [congruence|]. rewrite <- O1. apply IH1. exact Z.
      + intros Z. rewrite <- O1. apply IH2. intros Y. apply Z. right. exact Y. }
  assert (single : forall (v : json) s', s' <> s0 -> aget s' [(s0, v)] = None).
  { intros v s' N. cbn. destruct (String.eqb_spec s' s0); [contradiction|reflexivity]. }
  unfold contribution, cached_after in X. destruct (is_empty_json (an s0)) eqn:E; cbn [negb andb] in X.
  - destruct (aget s0 ca) as [txt|] eqn:G.
    + destruct (verifies s0 (loadc txt)) eqn:V.
      * apply (X ca [(s0, loadc txt)]); auto. cbn. now rewrite String.eqb_refl.
      * apply (X ca []); auto.
    + apply (X ca []); auto.
  - destruct (verifies s0 (an s0)) eqn:V; cbn [andb] in X.
    + apply (X (aset s0 (savec (an s0)) ca) [(s0, an s0)]); auto.
      * intros s' N. split; [apply aget_other; exact N|apply single; exact N].
      * cbn. now rewrite String.eqb_refl.
      * apply aget_same.
    + apply (X ca []); auto.
Qed.

(** The cache holds the last report sent. *)
Context (reads_back : forall j, loadc (savec j) = j).
Definition kinv (c : client) (h : list dev_ev) (d : dev) : Prop :=
  forall s, In s (map fst (c_secs c)) -> aget s (v_cache d) = option_map savec (last_version s h) /\ (forall j, last_version s h = Some j -> verifies s j = true).
Definition versions_ok (c : client) (h : list dev_ev) : Prop :=
  forall h1 m ok an h2, h = h1 ++ VSent m ok an :: h2 -> forall s, In s (map fst (c_secs c)) ->
    aget s (m_versions m) = (if is_empty_json (an s) then last_version s h1 else if verifies s (an s) then Some (an s) else None).
Lemma last_snoc s h e : last_version s (h ++ [e]) = match e with VSent m _ _ => match aget s (m_versions m) with Some j => Some j | None => last_version s h end | _ => last_version s h end.
Proof. unfold last_version. rewrite fold_left_app. reflexivity. Qed.
Lemma versions_quiet c h ev : Forall (fun e => match e with VSent _ _ _ => False | _ => True end) ev -> versions_ok c h ->
  versions_ok c (h ++ ev) /\ forall s, last_version s (h ++ ev) = last_version s h.
Proof.
  intros Q. revert h. induction Q as [|e ev He Q IH]; intros h V; [rewrite app_nil_r; auto|].
  change (e :: ev) with ([e] ++ ev). rewrite app_assoc. destruct (IH (h ++ [e])) as [A B].
  - intros h1 m ok an h2 E. destruct (snoc_split _ _ _ _ _ E) as [(-> & -> & X)|(h2' & _ & X)]; [subst e; contradiction|exact (V _ _ _ _ _ X)].
  - split; [exact A|]. intros s. rewrite B, last_snoc. destruct e; try reflexivity; contradiction.
Qed.
Lemma dstep_kinv c ecus h d o d' ev : NoDup (map fst (c_secs c)) -> hinv ecus h d -> kinv c h d -> versions_ok c h -> dstep c d o = (d', ev) ->
  kinv c (h ++ ev) d' /\ versions_ok c (h ++ ev).
Proof.
  intros ND HI H V S.
  assert (quiet : v_cache d' = v_cache d -> Forall (fun e => match e with VSent _ _ _ => False | _ => True end) ev -> kinv c (h ++ ev) d' /\ versions_ok c (h ++ ev)).
  { intros A B. destruct (versions_quiet c h ev B V) as [P Q]. split; [|exact P]. intros s Hs. rewrite A, Q. apply H. exact Hs. }
  destruct o as [s r|corr|r raw corr|b|ok crash sv an]; cbn [DevModel.dstep] in S.
  - unfold save_eres in S. destruct (to_row r) as [w|]; cbn [bind] in S; injection S as <- <-; apply quiet; auto.
  - destruct (device_result c d) as [[r raw]|].
    + pose proof (store_dres_frame r raw corr d) as (A & B & C & D). rewrite S in *. cbn [fst snd] in *. apply quiet; auto.
    + injection S as <- <-. apply quiet; auto.
  - pose proof (store_dres_frame r raw corr d) as (A & B & C & D). rewrite S in *. cbn [fst snd] in *. apply quiet; auto.
  - injection S as <- <-. apply quiet; auto.
  - destruct (v_pending d). { injection S as <- <-. apply quiet; auto. }
    destruct (assemble_ok c an sv d ecus h HI) as (m & M & _).
    assert (X : m_versions m = fst (sec_versions savec loadc verifies (c_secs c) an (v_cache d)) /\
                v_cache (fst (assemble c an sv d)) = snd (sec_versions savec loadc verifies (c_secs c) an (v_cache d))).
    { unfold DevModel.assemble in *. destruct (joined (v_ecus d) (v_cnt d)) as [|[s n] l]; [|destruct sv];
        cbn [v_cache with_cnt] in *; destruct (sec_versions savec loadc verifies (c_secs c) an (v_cache d)) as [vs ca]; cbn [fst snd] in *;
        destruct (make_report _) as [r|]; cbn [bind] in M; try discriminate; injection M as <-; split; reflexivity. }
    destruct (assemble c an sv d) as [d1 rm]. cbn [fst snd] in *. subst rm. destruct X as [X1 X2].
    pose proof (sec_versions_spec (c_secs c) an ND (v_cache d)) as SP. cbv zeta in SP. rewrite <- X1, <- X2 in SP.
    assert (CV : forall s, In s (map fst (c_secs c)) ->
       aget s (m_versions m) = (if is_empty_json (an s) then last_version s h else if verifies s (an s) then Some (an s) else None)).
    { intros s Hs. destruct (SP s) as [SP1 _]. destruct (SP1 Hs) as [P _]. rewrite P. unfold contribution. destruct (H s Hs) as [K1 K2]. rewrite K1.
      destruct (is_empty_json (an s)); [|reflexivity]. destruct (last_version s h) as [j|] eqn:L; cbn [option_map]; [|reflexivity]. rewrite reads_back, (K2 j eq_refl). reflexivity. }
    assert (V1 : versions_ok c (h ++ [VSent m ok an])).
    { intros h1 m' ok' an' h2 E. destruct (snoc_split _ _ _ _ _ E) as [(-> & -> & Y)|(h2' & _ & Y)]; [injection Y as -> -> ->; exact CV|exact (V _ _ _ _ _ Y)]. }
    assert (K1 : kinv c (h ++ [VSent m ok an]) d1).
    { intros s Hs. destruct (SP s) as [SP1 _]. destruct (SP1 Hs) as [_ Q]. rewrite Q, last_snoc, (CV s Hs). unfold cached_after. destruct (H s Hs) as [K1 K2]. rewrite K1.
      destruct (is_empty_json (an s)); cbn [negb andb].
      - destruct (last_version s h); cbn [option_map]; auto.
      - destruct (verifies s (an s)) eqn:Y; cbn [andb option_map]; [|auto]. split; [reflexivity|]. intros j J. injection J as <-. exact Y. }
    destruct (ok && negb crash)%bool; injection S as <- <-; [|auto].
    change [VSent m ok an; VCleared] with ([VSent m ok an] ++ [VCleared]). rewrite app_assoc.
    destruct (versions_quiet c (h ++ [VSent m ok an]) [VCleared] ltac:(repeat constructor) V1) as [P Q]. split; [|exact P].
    intros s Hs. rewrite Q. apply K1. exact Hs.
Qed.
Lemma drun_kinv c ecus ops : NoDup (map fst (c_secs c)) -> forall h d d' ev, Forall ints ops -> hinv ecus h d -> faithful ecus h -> kinv c h d -> versions_ok c h ->
  drun c d ops = (d', ev) -> versions_ok c (h ++ ev).
Proof.
  intros ND. induction ops as [|o ops IH]; intros h d d' ev I H F K V R; cbn [DevModel.drun] in R.
  - injection R as <- <-. rewrite app_nil_r. auto.
  - inversion I as [|? ? I1 I2]; subst. destruct (dstep c d o) as [d1 e1] eqn:S. destruct (drun c d1 ops) as [d2 e2] eqn:R2. injection R as <- <-.
    destruct (dstep_hinv c ecus h d o d1 e1 I1 H F S) as [H1 F1]. destruct (dstep_kinv c ecus h d o d1 e1 ND H K V S) as [K1 V1].
    rewrite app_assoc. eapply IH; eassumption.
Qed.
End Run.
