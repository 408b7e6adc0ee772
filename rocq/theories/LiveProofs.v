(** Proofs: an installation in which all cooperate succeeds. *)
From Verif Require Import Base Json TufModel MetaStore RepoModel CodecModel InstModel InstSpec DevModel DevSpec DevProofs InstProofs ClientModel UpdModel UpdSpec UpdProofs UpdProofs2 UpdProofs3 UpdProofs4 UpdProofs5 UpdProofs6 LiveSpec.

Definition okres (r : ires) : Prop := exists text, r = mk_ires (num kOk) text.
(** A result that was read back has the text of its code. *)
Definition okread (r : ires) : Prop := ir_success r = true /\ need_completion r = Ok false.
Lemma ok_row r : okres r -> exists w, to_row r = Ok w /\ exists r', okread r' /\ of_row w = Ok r'.
Proof. intros (text & ->). eexists. split; [reflexivity|]. eexists. split; [|vm_compute; reflexivity]. split; vm_compute; reflexivity. Qed.
Lemma ok_internal r : says_ok r -> okres (or_internal r).
Proof. intros (text & ->). exists text. reflexivity. Qed.
Lemma ok_success r : okres r -> ir_success r = true. Proof. now intros (t & ->). Qed.
Lemma ok_need r : okres r -> need_completion r = Ok false. Proof. now intros (t & ->). Qed.
Lemma ok_num r : okres r -> rc_num (ir_code r) = kOk. Proof. now intros (t & ->). Qed.

Lemma nodup_right {A} (a b : list A) : NoDup (a ++ b) -> NoDup b.
Proof. induction a as [|x a IH]; cbn; [auto|]. intros H. inversion H; auto. Qed.
Lemma nodup_apart {A} (a b : list A) x : NoDup (a ++ b) -> In x a -> In x b -> False.
Proof. induction a as [|y a IH]; cbn; intros H A1 B; [destruct A1|]. inversion H; subst. destruct A1 as [->|A1]; [apply H2, in_or_app; now right|auto]. Qed.

Section L.
Context (savec : json -> string) (loadc : string -> option json) (E : Env) (fnm : string -> string -> bool).
Context (P : primary) (W : UpdModel.world) (srv : server).

(** The stored results of ECUs are good, and those of ECUs of the vehicle. *)
Definition eres_ok (d : dev) : Prop := forall ecu w, In (ecu, w) (v_eres d) -> (ecu = pr_serial P \/ secondary P ecu) /\ exists r, okread r /\ of_row w = Ok r.
Definition okm (s s' : pst) : Prop := p_ust s' = p_ust s /\ v_ecus (p_dev s') = v_ecus (p_dev s) /\ (eres_ok (p_dev s) -> eres_ok (p_dev s')).
Lemma okm_refl s : okm s s. Proof. unfold okm. auto. Qed.
Lemma okm_trans a b c : okm a b -> okm b c -> okm a c.
Proof. intros (A1 & A2 & A3) (B1 & B2 & B3). unfold okm. split; [congruence|]. split; [congruence|auto]. Qed.
Definition harmless (e : uev) : Prop := match e with UEcuRes ecu r => (ecu = pr_serial P \/ secondary P ecu) /\ okres r | _ => True end.
Lemma in_aset {A} k (v : A) l x : In x (aset k v l) -> x = (k, v) \/ In x l.
Proof. intros [<-|H]; auto. Qed.
Lemma okm_tell e s : harmless e -> exists s', tell savec e s = (s', Ok tt) /\ okm s s'.
Proof.
  intros H. eexists. split; [reflexivity|]. unfold okm. cbn. split; [reflexivity|]. destruct e; cbn [ev_dev]; try (split; [reflexivity|auto]; fail).
  - destruct H as (Hk & Hr). destruct (ok_row r Hr) as (w & R & R'). unfold save_eres. rewrite R. cbn. split; [reflexivity|]. intros D e x He. cbn [v_eres] in He. apply in_aset in He. destruct He as [[= -> ->]|He]; eauto.
  - unfold store_dres. destruct (to_row r); cbn; auto.
Qed.
Lemma live_tell {A} e (k : unit -> PM A) s Q : harmless e -> (forall s1, okm s s1 -> exists s' a, k tt s1 = (s', Ok a) /\ okm s1 s' /\ Q a) ->
  exists s' a, (tell savec e !; k tt) s = (s', Ok a) /\ okm s s' /\ Q a.
Proof.
  intros H HK. destruct (okm_tell e s H) as (s1 & T & M). unfold pbind. rewrite T. destruct (HK s1 M) as (s' & a & K & M' & HQ). exists s', a.
  split; [exact K|]. split; [exact (okm_trans _ _ _ M M')|exact HQ].
Qed.
Lemma live_bind {A B} (m : PM A) (k : A -> PM B) s (R : A -> Prop) Q : (exists s1 a, m s = (s1, Ok a) /\ okm s s1 /\ R a) ->
  (forall a s1, okm s s1 -> R a -> exists s' b, k a s1 = (s', Ok b) /\ okm s1 s' /\ Q b) -> exists s' b, (pbind m k) s = (s', Ok b) /\ okm s s' /\ Q b.
Proof.
  intros (s1 & a & M & O & HR) K. unfold pbind. rewrite M. destruct (K a s1 O HR) as (s' & b & K' & O' & HQ). exists s', b.
  split; [exact K'|]. split; [exact (okm_trans _ _ _ O O')|exact HQ].
Qed.
Lemma live_ret {A} (a : A) s (Q : A -> Prop) : Q a -> exists s' b, pret a s = (s', Ok b) /\ okm s s' /\ Q b.
Proof. intros H. exists s, a. split; [reflexivity|]. split; [apply okm_refl|exact H]. Qed.
Lemma live_save ecu r s : ecu = pr_serial P \/ secondary P ecu -> okres r -> exists s' a, save_result savec ecu r s = (s', Ok a) /\ okm s s' /\ a = tt.
Proof.
  intros Hk Hr. destruct (ok_row r Hr) as (w & R & _). unfold save_result, plift, pbind. rewrite R. destruct (okm_tell (UEcuRes ecu r) s (conj Hk Hr)) as (s' & T & M). eauto.
Qed.
Lemma live_tell_all l : Forall harmless l -> forall s, exists s' a, tell_all savec l s = (s', Ok a) /\ okm s s' /\ a = tt.
Proof.
  induction 1 as [|e l He _ IH]; intros s; cbn [tell_all]; [now apply live_ret|]. apply (live_tell e (fun _ => tell_all savec l)); [exact He|]. intros s1 _. apply IH.
Qed.

Lemma live_recheck ts s : (forall t, In t ts -> held P t -> e_verify W t = Ok true) -> recheck_images P W ts s = (s, Ok true).
Proof.
  induction ts as [|t ts IH]; intros H; cbn [recheck_images]; [reflexivity|].
  destruct (for_ecu t (pr_serial P) || negb (is_ostree t)) eqn:C.
  - unfold pbind, plift. rewrite (H t (or_introl eq_refl) (proj1 (held_iff P t) C)). apply IH. intros x Hx. apply H. now right.
  - apply IH. intros x Hx. apply H. now right.
Qed.
Lemma harmless_pings l : Forall harmless (map UPing l).
Proof. induction l; cbn; constructor; auto. exact Logic.I. Qed.
Lemma live_rounds after : after <> [] -> forall before left s, (forall ecu, In ecu left -> exists up, In up before /\ up ecu = true) ->
  exists s' a, wait_rounds savec (before ++ after) left s = (s', Ok a) /\ okm s s' /\ a = true.
Proof.
  intros NA. induction before as [|up before IH]; intros left s H.
  - destruct left as [|e left]; [|destruct (H e (or_introl eq_refl)) as (? & [] & _)]. destruct after as [|u a]; [contradiction|]. cbn. now apply live_ret.
  - cbn [app wait_rounds]. destruct left as [|e left]; [now apply live_ret|].
    apply (live_bind _ (fun _ => wait_rounds savec (before ++ after) (filter (fun e0 => negb (up e0)) (e :: left))) s (fun a => a = tt)).
    + apply live_tell_all, harmless_pings.
    + intros _ s1 _ _. apply IH. intros x Hx. apply filter_In in Hx. destruct Hx as (Hx & N). destruct (H x Hx) as (u & [<-|Hu] & U); [rewrite U in N; discriminate|eauto].
Qed.
Lemma live_wait ts s : all_answer P (e_pings W) -> exists s' a, wait_reachable savec P W ts s = (s', Ok a) /\ okm s s' /\ a = true.
Proof.
  intros (before & after & Eq & NA & H). unfold wait_reachable. destruct (targeted P ts) as [|e l] eqn:T; [now apply live_ret|]. rewrite Eq. apply live_rounds; [exact NA|].
  intros x Hx. rewrite <- T in Hx. unfold targeted in Hx. apply nodup_In, filter_In in Hx. destruct Hx as (_ & Hx). apply andb_true_iff in Hx. destruct Hx as (_ & Hx). apply H. now apply is_sec_iff.
Qed.

Section D.
Context (d : db).
Hypothesis HC : ecus_cooperate E P W srv d.
Hypothesis HN : forall rp, exists last, newest_root E d rp last.
Lemma live_roots ecu rp : secondary P ecu -> forall n v lastr s, u_db (p_ust s) = d -> okres lastr ->
  (forall w, v <= w < v + Z.of_nat n -> exists root, root_at d srv rp w root) ->
  exists s' a, send_roots savec W srv n v ecu rp lastr s = (s', Ok a) /\ okm s s' /\ okres a.
Proof.
  intros Hs. destruct HC as (_ & _ & PR & _). induction n as [|n IH]; intros v lastr s D HL HR; cbn [send_roots]; [now apply live_ret|].
  unfold pbind at 1. rewrite D. destruct (HR v) as (root & RA); [lia|].
  assert (Q : exists st, load_root rp v d = Ok st /\ (match st with Some r => Some r | None => match srv rp "root" v with Ok r => Some r | Throw _ => None end end) = Some root).
  { destruct RA as [A|(A & B)]; [exists (Some root); auto|exists None; rewrite B; auto]. }
  destruct Q as (st & -> & ->). unfold pbind at 1, pgets.
  set (r := or_internal (e_putroot W (p_tr s) ecu rp root)). assert (Hr : okres r) by apply ok_internal, PR, Hs.
  rewrite (ok_success r Hr). apply (live_tell _ (fun _ => send_roots savec W srv n (v + 1) ecu rp r)); [exact Logic.I|]. intros s1 (M & _). apply IH; [congruence|exact Hr|].
  intros w Hw. apply HR. lia.
Qed.
Lemma live_rotate rp ecu s : secondary P ecu -> u_db (p_ust s) = d -> exists s' a, rotate_root savec E W srv rp ecu s = (s', Ok a) /\ okm s s' /\ okres a.
Proof.
  intros Hs D. destruct HC as (_ & RA & _). destruct (HN rp) as (last & NR). assert (NR' := NR). destruct NR as (raw & L & V). unfold rotate_root. unfold pbind at 1. rewrite D, L.
  unfold pbind at 1, plift at 1. rewrite V. unfold pbind at 1, pgets. destruct (RA rp (p_tr s) ecu Hs) as (sv & S1 & S2). unfold pbind at 1, plift. rewrite S1.
  match goal with |- exists _ _, (tell savec ?e !; ?b) s = _ /\ _ => apply (live_tell e (fun _ => b)) end; [exact Logic.I|]. intros s1 (M & _).
  destruct ((0 <? sv) && (1 <? last - sv)) eqn:C; [|apply live_ret; now exists ""].
  apply andb_true_iff in C. destruct C as (C1 & C2). apply Z.ltb_lt in C1, C2. apply live_roots; auto; [congruence|now exists ""|].
  intros w Hw. apply (S2 C1 last w NR'). lia.
Qed.
Lemma live_meta_one t ecu s : secondary P ecu -> u_db (p_ust s) = d -> exists s' a, send_metadata_one savec E W srv t ecu s = (s', Ok a) /\ okm s s' /\ okres a.
Proof.
  intros Hs D. unfold send_metadata_one. eapply live_bind; [apply (live_rotate Director ecu s Hs D)|]. cbv beta. intros r s1 (U1 & _) Hr. rewrite (ok_success r Hr). cbn [negb].
  eapply live_bind; [apply (live_rotate Image ecu s1 Hs); congruence|]. cbv beta. intros r2 s2 (U2 & _) Hr2. rewrite (ok_success r2 Hr2). cbn [negb].
  unfold pbind at 1, pgets. cbv zeta. destruct HC as (_ & _ & _ & PM & _).
  set (r3 := or_internal (e_putmeta W (p_tr s2) ecu t)). assert (Hr3 : okres r3) by apply ok_internal, PM, Hs.
  apply (live_tell _ (fun _ => pret r3)); [exact Logic.I|]. intros s3 _. now apply live_ret.
Qed.
Lemma live_meta l : forall s, u_db (p_ust s) = d -> exists s' a, send_metadata savec E P W srv l "" s = (s', Ok a) /\ okm s s' /\ a = "".
Proof.
  induction l as [|(t, (ecu, hw)) l IH]; intros s D; cbn [send_metadata]; [now apply live_ret|].
  destruct (is_sec P ecu) eqn:S; [|now apply IH]. apply is_sec_iff in S.
  eapply live_bind; [apply (live_meta_one t ecu s S D)|]. cbv beta. intros r s1 (U & _) Hr. rewrite (ok_success r Hr). apply IH. congruence.
Qed.
Lemma live_send_meta ts s : u_db (p_ust s) = d -> exists s' a, send_metadata_to_ecus savec E P W srv ts s = (s', Ok a) /\ okm s s' /\ a = None.
Proof.
  intros D. unfold send_metadata_to_ecus. eapply live_bind; [apply (live_meta (pairs ts) s D)|]. cbv beta. intros a s1 _ ->. now apply live_ret.
Qed.

(** ** Installing *)
Definition good_rep (x : ecu_report) : Prop := okres (snd x).
Lemma live_primary ts s : exists s' a, install_primary savec P W ts s = (s', Ok a) /\ okm s s' /\ (Forall good_rep a /\ (find_for_ecu ts (pr_serial P) = [] \/ a <> [])).
Proof.
  destruct HC as (_ & _ & _ & _ & PM & _). unfold install_primary. destruct (find_for_ecu ts (pr_serial P)) as [|u l]; [apply live_ret; split; [constructor|auto]|].
  unfold pbind at 1, corr_id, pgets. set (corr := tg_corr (u_dtargets (p_ust s))). cbv zeta. set (t := set_corr u corr).
  match goal with |- exists _ _, (tell savec ?e !; ?b) s = _ /\ _ => apply (live_tell e (fun _ => b)) end; [exact Logic.I|]. intros s1 _.
  set (r := match e_pm W t with Ok x => x | Throw _ => mk_ires (num kInstallFailed) "" end).
  assert (Hr : okres r). { unfold r. destruct (PM t) as (text & ->). now exists text. }
  apply (live_bind _ _ s1 (fun x => x = r)).
  - unfold package_install. fold r. cbv zeta.
    match goal with |- exists _ _, (tell savec ?e !; ?b) _ = _ /\ _ => apply (live_tell e (fun _ => b)) end; [exact Logic.I|]. intros s2 _.
    match goal with |- exists _ _, (tell savec ?e !; ?b) _ = _ /\ _ => apply (live_tell e (fun _ => b)) end; [exact Logic.I|]. intros s3 _.
    rewrite (ok_num r Hr), Z.eqb_refl.
    match goal with |- exists _ _, (tell savec ?e !; ?b) _ = _ /\ _ => apply (live_tell e (fun _ => b)) end; [exact Logic.I|]. intros s4 _.
    eapply live_bind; [apply (live_save (pr_serial P) r s4); auto|]. intros. now apply live_ret.
  - intros x s2 _ ->. rewrite (ok_num r Hr). cbn [Z.eqb kOk kNeedCompletion].
    apply (live_bind _ _ s2 (fun a => a = tt)).
    + eapply live_bind; [apply (live_save (pr_serial P) r s2); auto|]. intros ? s3 _ _. destruct (okm_tell (UCompleted (pr_serial P) corr true) s3 Logic.I) as (s4 & T & M). eauto.
    + intros ? s3 _ _. apply live_ret. split; [constructor; [exact Hr|constructor]|right; discriminate].
Qed.
Lemma task_ok i : okres (task_result W i).
Proof.
  destruct HC as (_ & _ & _ & _ & _ & SD & IN). unfold task_result, task_answers. destruct (SD i) as (t1 & ->). destruct (IN i) as (t2 & ->). cbn. now exists t2.
Qed.
Lemma tasks_ok corr l : forall i, Forall (fun x => Forall harmless (fst x) /\ exists r, snd (snd x) = Ok r /\ okres r) (run_tasks W i corr l).
Proof.
  induction l as [|(t, ecu) l IH]; intros i; cbn [run_tasks]; [constructor|]. destruct (task_events W i corr ecu t) as (evs, r) eqn:T. constructor; [|apply IH].
  unfold task_events in T. assert (HT := task_ok i). rewrite (ok_need _ HT) in T. injection T as <- <-. cbn [fst snd]. split; [|eauto].
  constructor; [exact Logic.I|]. constructor; [exact Logic.I|]. apply Forall_app. split; [|constructor; [exact Logic.I|constructor]]. destruct (snd (task_answers W i)); constructor; [exact Logic.I|constructor].
Qed.
Lemma live_collect l : Forall (fun x => secondary P (snd (fst x)) /\ exists r, snd x = Ok r /\ okres r) l -> forall s, exists s' a, collect savec l s = (s', Ok a) /\ okm s s' /\ (Forall good_rep a /\ List.length a = List.length l).
Proof.
  induction 1 as [|((t, ecu), fr) l (Hs & r & Q & Hr) _ IH]; intros s; cbn [collect]; [apply live_ret; split; [constructor|reflexivity]|]. cbn [fst snd] in Hs, Q. subst fr.
  unfold pbind at 1, plift at 1. rewrite (ok_success r Hr). unfold pbind at 1, plift at 1. unfold pbind at 1, corr_id, pgets. cbv zeta. cbn [orb].
  match goal with |- exists _ _, (tell savec ?e !; ?b) s = _ /\ _ => apply (live_tell e (fun _ => b)) end; [exact Logic.I|]. intros s1 _.
  eapply live_bind; [apply (live_save ecu r s1); auto|]. cbv beta. intros ? s2 _ _.
  eapply live_bind; [apply IH|]. cbv beta. intros rest s3 _ (HF & HL). apply live_ret. split; [constructor; [exact Hr|exact HF]|cbn; congruence].
Qed.
Lemma live_images ts s : exists s' a, send_images savec P W ts s = (s', Ok a) /\ okm s s' /\ (Forall good_rep a /\ List.length a = List.length (sec_pairs P ts)).
Proof.
  unfold send_images. unfold pbind at 1, corr_id, pgets. set (corr := tg_corr (u_dtargets (p_ust s))). cbv zeta. assert (TK := tasks_ok corr (sec_pairs P ts) 0).
  eapply live_bind; [apply live_tell_all|].
  - apply Forall_forall. intros e He. apply interleave_in in He. destruct He as (l & Hl & He). apply in_map_iff in Hl. destruct Hl as (x & <- & Hx). rewrite Forall_forall in TK.
    destruct (TK x Hx) as (A & _). rewrite Forall_forall in A. auto.
  - intros ? s1 _ _. assert (LEN : List.length (map snd (run_tasks W 0 corr (sec_pairs P ts))) = List.length (sec_pairs P ts)).
    { rewrite map_length. rewrite <- (run_tasks_pairs W corr (sec_pairs P ts) 0) at 2. now rewrite map_length. }
    rewrite <- LEN. apply live_collect. apply Forall_forall. intros ((t, ecu), fr) Hx. apply in_map_iff in Hx. destruct Hx as ((evs, y) & Q & Hx). cbn [snd] in Q. subst y. rewrite Forall_forall in TK.
    destruct (TK _ Hx) as (_ & r & A & B). cbn [snd] in A. apply run_tasks_in in Hx. destruct Hx as (Hp & _). apply sec_pairs_in in Hp. cbn [fst snd]. split; [apply Hp|eauto].
Qed.
End D.

(** ** The result of the vehicle *)
Lemma joined_in {A} (t : list (string * A)) ecus x : In x (joined ecus t) -> In x t.
Proof.
  unfold joined. intros H. apply in_flat_map in H. destruct H as (e & _ & H). destruct (aget (fst e) t) eqn:G; [|destruct H]. destruct H as [<-|[]]. now apply aget_some_in.
Qed.
Lemma rows_ok l : (forall ecu w, In (ecu, w) l -> (ecu = pr_serial P \/ secondary P ecu) /\ exists r, okread r /\ of_row w = Ok r) ->
  exists y, of_rows l = Ok y /\ List.length y = List.length l /\ Forall (fun x => (fst x = pr_serial P \/ secondary P (fst x)) /\ okread (snd x)) y.
Proof.
  induction l as [|(ecu, w) l IH]; intros H; [exists []; repeat split; constructor|]. cbn [of_rows]. destruct (H ecu w (or_introl eq_refl)) as (K & r & R & Q). rewrite Q. cbn [bind].
  destruct IH as (y & Y & L & F); [intros e v Hv; apply H; now right|]. rewrite Y. cbn. eexists. split; [reflexivity|]. cbn. split; [congruence|]. constructor; auto.
Qed.
Lemma loop_ok l cur raw : pr_hw P <> "Unknown" -> Forall (fun x => (fst x = pr_serial P \/ secondary P (fst x)) /\ okread (snd x)) l ->
  result_loop (client_of P) l cur raw "" = Ok (cur, raw, "").
Proof.
  intros HW. induction 1 as [|(ecu, r) l (K & R) _ IH]; [reflexivity|]. cbn [result_loop fst snd] in *.
  assert (exists hw, ecu_hw (client_of P) ecu = Some hw) as (hw & ->).
  { unfold ecu_hw, client_of. cbn. destruct (String.eqb ecu (pr_serial P) || String.eqb ecu "") eqn:C.
    - destruct (String.eqb_spec (pr_hw P) "Unknown"); [contradiction|eauto].
    - apply orb_false_iff in C. destruct C as (C & _). apply String.eqb_neq in C. destruct K as [->|(hw & K)]; [congruence|]. now apply aget_in_some in K. }
  destruct R as (R1 & R2). rewrite R1, R2. exact IH.
Qed.
Lemma live_device d : pr_hw P <> "Unknown" -> eres_ok d -> exists r raw, device_result (client_of P) d = Ok (r, raw) /\ (exists w, to_row r = Ok w) /\
  (joined (v_ecus d) (v_eres d) <> [] -> okres r).
Proof.
  intros HW HE. unfold device_result, load_eres. destruct (joined (v_ecus d) (v_eres d)) as [|x l] eqn:J.
  - cbn. eexists _, _. split; [reflexivity|]. split; [eexists; reflexivity|]. contradiction.
  - destruct (rows_ok (x :: l)) as (y & Y & _ & F). { intros ecu w Hw. apply HE. rewrite <- J in Hw. now apply joined_in in Hw. }
    rewrite Y. cbn [bind]. rewrite (loop_ok y _ _ HW F). cbn. eexists _, _. split; [reflexivity|]. split; [eexists; reflexivity|]. intros _. eexists. reflexivity.
Qed.

(** ** The whole installation *)
Definition some_ecu (ts : list target) : Prop := exists t ecu, In t ts /\ targets_ecu t ecu /\ (ecu = pr_serial P \/ secondary P ecu).
Lemma some_report ts (pr sr : list ecu_report) : find_for_ecu ts (pr_serial P) = [] \/ pr <> [] -> List.length sr = List.length (sec_pairs P ts) -> some_ecu ts -> pr ++ sr <> [].
Proof.
  intros N L (t & ecu & Ht & He & K) Q. apply app_eq_nil in Q. destruct Q as (-> & ->). destruct N as [N|N]; [|now apply N]. cbn in L.
  destruct (string_dec ecu (pr_serial P)) as [->|NE].
  - assert (In t (find_for_ecu ts (pr_serial P))) by (apply filter_In; split; [exact Ht|now apply for_ecu_iff]). rewrite N in H. exact H.
  - destruct K as [K|K]; [contradiction|]. assert (In (t, ecu) (sec_pairs P ts)) by (apply sec_pairs_in; auto). destruct (sec_pairs P ts); [exact H|discriminate L].
Qed.
Lemma live_install clkd clki now ts s u : 
  check_updates_offline E fnm srv clkd clki now (vehicle_of loadc P (p_idb s)) ts (p_ust s) = (u, Ok OcAvailable) ->
  ecus_cooperate E P W srv (u_db u) -> (forall rp, exists last, newest_root E (u_db u) rp last) -> (forall t, In t ts -> held P t -> e_verify W t = Ok true) ->
  pr_hw P <> "Unknown" -> eres_ok (p_dev s) ->
  exists s' dr reps, uptane_install savec loadc E fnm P W srv clkd clki now ts s = (s', Ok (dr, reps)) /\ Forall good_rep reps /\ (some_ecu ts -> reps <> []) /\
    eres_ok (p_dev s') /\ v_ecus (p_dev s') = v_ecus (p_dev s) /\ p_ust s' = u /\ (joined (v_ecus (p_dev s')) (v_eres (p_dev s')) <> [] -> okres dr) /\
    (exists raw, device_result (client_of P) (p_dev s') = Ok (dr, raw)).
Proof.
  intros HO HC HNR HV HW HE. set (s0 := {| p_ust := u; p_idb := p_idb s; p_dev := p_dev s; p_tr := p_tr s |}).
  assert (B : exists s1 x, install_body savec loadc E fnm P W srv clkd clki now ts s = (s1, Ok x) /\ okm s0 s1 /\
    (device_result (client_of P) (p_dev s1) = Ok (fst x) /\ (exists w, to_row (fst (fst x)) = Ok w) /\ (joined (v_ecus (p_dev s1)) (v_eres (p_dev s1)) <> [] -> okres (fst (fst x))) /\ Forall good_rep (snd x) /\ (some_ecu ts -> snd x <> []))).
  { unfold install_body. unfold pbind at 1, pgets at 1. unfold pbind at 1, pust. rewrite HO. fold s0.
    unfold pbind at 1. rewrite (live_recheck ts s0 HV). cbn [negb].
    assert (U0 : u_db (p_ust s0) = u_db u) by reflexivity. assert (PA := proj1 HC).
    destruct (live_wait ts s0 PA) as (s1 & a1 & R1 & M1 & ->). unfold pbind at 1. rewrite R1. cbn [negb].
    assert (U1 : u_db (p_ust s1) = u_db u) by (destruct M1 as (M1 & _); congruence).
    destruct (live_send_meta _ HC HNR ts s1 U1) as (s2 & a2 & R2 & M2 & ->). unfold pbind at 1. rewrite R2.
    destruct (live_primary _ HC ts s2) as (s3 & pr & R3 & M3 & F3 & N3). unfold pbind at 1. rewrite R3.
    destruct (live_images _ HC ts s3) as (s4 & sr & R4 & M4 & F4 & N4). unfold pbind at 1. rewrite R4.
    assert (M : okm s0 s4) by (eapply okm_trans; [exact M1|]; eapply okm_trans; [exact M2|]; eapply okm_trans; [exact M3|exact M4]).
    unfold pbind at 1, pgets. destruct (live_device (p_dev s4) HW) as (r & raw & R & T & J); [apply M, HE|]. unfold pbind, plift. rewrite R.
    exists s4, (r, raw, pr ++ sr). split; [reflexivity|]. split; [exact M|]. cbn [fst snd]. split; [exact R|]. split; [exact T|]. split; [exact J|]. split; [now apply Forall_app|]. now apply (some_report ts pr sr). }
  destruct B as (s1 & ((r, raw), reps) & B & M & R & (w & T) & J & F & N). cbn [fst snd] in R, T, J, F, N.
  unfold uptane_install. unfold pbind at 1. rewrite B. unfold pbind at 1, corr_id, pgets. set (corr := tg_corr (u_dtargets (p_ust s1))).
  unfold save_device. unfold pbind at 1, plift. unfold pbind at 1. rewrite T.
  destruct (okm_tell (UDevRes r raw corr) s1 Logic.I) as (s2 & T2 & M2). rewrite T2. exists s2, r, reps. split; [reflexivity|]. split; [exact F|]. split; [exact N|].
  assert (M' := okm_trans _ _ _ M M2). destruct M' as (MU & ME & MR). split; [apply MR, HE|]. split; [exact ME|]. split; [exact MU|].
  assert (D2 : p_dev s2 = fst (store_dres r raw corr (p_dev s1))) by (unfold tell in T2; injection T2 as <-; reflexivity).
  split; [|exists raw; rewrite D2, device_result_store; exact R]. intros Q. apply J. rewrite D2 in Q. unfold store_dres in Q. rewrite T in Q. exact Q.
Qed.

Theorem install_works clkd clki now ts s u :
  check_updates_offline E fnm srv clkd clki now (vehicle_of loadc P (p_idb s)) ts (p_ust s) = (u, Ok OcAvailable) ->
  ecus_cooperate E P W srv (u_db u) -> (forall rp, exists last, newest_root E (u_db u) rp last) -> (forall t, In t ts -> held P t -> e_verify W t = Ok true) ->
  registered P (p_dev s) -> v_eres (p_dev s) = [] ->
  wf savec (good_target savec loadc) (p_idb s) -> Forall (good_target savec loadc) ts -> one_each ts -> nonempty_serials P ->
  exists s' dr reps, uptane_install savec loadc E fnm P W srv clkd clki now ts s = (s', Ok (dr, reps)) /\ (some_ecu ts -> ir_success dr = true) /\
    (exists w raw, to_row dr = Ok w /\ v_dres (p_dev s') = Some (w, raw, tg_corr (u_dtargets (p_ust s')))) /\
    (forall t ecu, In t ts -> targets_ecu t ecu -> ecu = pr_serial P \/ secondary P ecu -> runs loadc (p_idb s') ecu t) /\ p_ust s' = u.
Proof.
  intros HO HC HNR HV (HW & HR) HE Hw Hg H1 HN.
  assert (HE' : eres_ok (p_dev s)) by (intros ecu w Hin; rewrite HE in Hin; destruct Hin).
  destruct (live_install clkd clki now ts s u HO HC HNR HV HW HE') as (s' & dr & reps & R & F & NN & EO & EC & U & J & _).
  destruct (outcome savec loadc E fnm P W srv clkd clki now ts s s' dr reps Hw Hg H1 HN R) as (OD & OC0 & ND & OR & OX).
  assert (OC : forall t ecu, In t ts -> targets_ecu t ecu -> ecu = pr_serial P \/ secondary P ecu -> In ecu (map ecu_of reps)).
  { intros t ecu Ht He K. destruct OC0 as [Z|OC]; [|eauto]. exfalso. apply NN; [|exact Z]. exists t, ecu. auto. }
  exists s', dr, reps. split; [exact R|].
  assert (LOOK : forall t ecu, In t ts -> targets_ecu t ecu -> ecu = pr_serial P \/ secondary P ecu ->
    exists t' r, In (t', ecu, r) reps /\ same_key t' t).
  { intros t ecu Ht He K. assert (In ecu (map ecu_of reps)) as HI by eauto. apply in_map_iff in HI. destruct HI as (((t', e'), r) & Q & HI). cbn in Q. subst e'.
    exists t', r. split; [exact HI|]. destruct (OR t' ecu r HI) as ((u0 & Hu & Hue & Ht') & _).
    assert (u0 = t).
    { unfold one_each in H1. clear -H1 Hu Ht Hue He. induction ts as [|a l IH]; [destruct Ht|]. cbn [flat_map] in H1. rewrite map_app in H1. 
      assert (X := nodup_right _ _ H1). destruct He as (h1 & He). destruct Hue as (h2 & Hue).
      assert (D : forall y h h', In y l -> In (ecu, h) (t_ecus a) -> In (ecu, h') (t_ecus y) -> False).
      { intros y h h' Hy Ha Hy'. apply (nodup_apart _ _ ecu H1); apply in_map_iff; [exists (ecu, h); auto|]. exists (ecu, h'). split; [reflexivity|]. apply in_flat_map. eauto. }
      destruct Hu as [<-|Hu], Ht as [<-|Ht].
      - reflexivity.
      - exfalso. eauto.
      - exfalso. eauto.
      - now apply IH. }
    subst u0. destruct Ht' as [->| ->]; split; reflexivity. }
  assert (RUN : forall t ecu, In t ts -> targets_ecu t ecu -> ecu = pr_serial P \/ secondary P ecu -> runs loadc (p_idb s') ecu t).
  { intros t ecu Ht He K. destruct (LOOK t ecu Ht He K) as (t' & r & HI & SK). rewrite Forall_forall in F. assert (Hr := F _ HI). cbn in Hr. unfold good_rep in Hr. cbn [snd] in Hr.
    destruct (OR t' ecu r HI) as (_ & _ & O). destruct (String.eqb ecu (pr_serial P)).
    - destruct O as (O & _). destruct (O (ok_num r Hr)) as (x & L & (X1 & X2) & _). exists x. split; [exact L|]. destruct SK as (S1 & S2). split; congruence.
    - destruct O as (O & _). destruct (O (ok_success r Hr)) as (x & L & (X1 & X2) & _). exists x. split; [exact L|]. destruct SK as (S1 & S2). split; congruence. }
  split; [|split; [exact OD|split; [exact RUN|exact U]]].
  intros (t & ecu & Ht & He & K). apply ok_success, J. destruct (LOOK t ecu Ht He K) as (t' & r & HI & _). destruct (OR t' ecu r HI) as (_ & (w & _ & G) & _).
  intros Q. assert (In ecu (map fst (v_ecus (p_dev s')))) as HI' by (rewrite EC; auto). apply in_map_iff in HI'. destruct HI' as ((e, h) & QE & HI'). cbn in QE. subst e.
  assert (In (ecu, w) (joined (v_ecus (p_dev s')) (v_eres (p_dev s')))). { unfold joined. apply in_flat_map. exists (ecu, h). split; [exact HI'|]. cbn. rewrite G. now left. }
  rewrite Q in H. exact H.
Qed.
End L.
