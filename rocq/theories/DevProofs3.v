From Verif Require Import Base Json CodecModel CodecSpec CodecProofs DevModel DevSpec DevProofs DevProofs2.

(** A result as it comes back from storage. *)
Definition same_res (a b : ires) : Prop := rc_same (ir_code a) (ir_code b) /\ ir_success a = ir_success b /\ ir_desc a = ir_desc b /\ exists s, rc_string (ir_code b) = Ok s.
Lemma waits_iff r : waits r <-> rc_num (ir_code r) = kNeedCompletion /\ rc_string (ir_code r) = Ok "NEED_COMPLETION".
Proof.
  unfold waits, rc_string. destruct (String.eqb_spec (rc_text (ir_code r)) "") as [E|E]; cbn [negb].
  - split; intros [A B]; split; auto. rewrite A. reflexivity.
  - split; intros [A B]; split; auto; [destruct B as [B|B]; [contradiction|now rewrite B]|injection B as B; auto].
Qed.
Lemma same_waits a b : same_res a b -> (waits a <-> waits b).
Proof. intros ([N S] & _). rewrite !waits_iff, N, S. tauto. Qed.
Lemma loaded_results ecus h d : hinv ecus h d ->
  match outstanding_list ecus h with
  | [] => load_eres d = Ok None
  | l => exists l', load_eres d = Ok (Some l') /\ Forall2 (fun a b => fst a = fst b /\ same_res (snd a) (snd b)) l' l
  end.
Proof.
  intros [E R _]. unfold load_eres. rewrite E.
  assert (X : exists l', of_rows (joined ecus (v_eres d)) = Ok l' /\ Forall2 (fun a b => fst a = fst b /\ same_res (snd a) (snd b)) l' (outstanding_list ecus h) /\
                         (joined ecus (v_eres d) = [] <-> outstanding_list ecus h = [])).
  { clear E. induction ecus as [|[s hw] ecus (l' & X & Y & Z)]; [exists []; repeat split; constructor|].
    cbn [joined outstanding_list flat_map fst] in *. specialize (R s).
    destruct (outstanding_ecu s h) as [r|] eqn:O; destruct (aget s (v_eres d)) as [w|] eqn:W; cbn [stored_row] in R; try contradiction.
    - destruct R as [T I]. destruct (row_round r w I T) as (r' & P & Q). exists ((s, r') :: l'). cbn [app of_rows]. unfold joined in X. rewrite P. cbn [bind]. rewrite X. cbn [bind].
      split; [reflexivity|]. split; [constructor; [split; [reflexivity|]; unfold same_res; tauto|exact Y]|split; discriminate].
    - exists l'. cbn [app]. auto. }
  destruct X as (l' & X & Y & Z). destruct (joined ecus (v_eres d)) as [|x l] eqn:J.
  - destruct Z as [Z _]. rewrite (Z eq_refl). reflexivity.
  - rewrite X. cbn [bind]. destruct (outstanding_list ecus h) as [|y m] eqn:O; [destruct Z as [_ Z]; discriminate (Z eq_refl)|]. exists l'. auto.
Qed.
Lemma forall2_codes l' l : Forall2 (fun a b => fst a = fst b /\ same_res (snd a) (snd b)) l' l -> codes_ok l'.
Proof. unfold codes_ok. induction 1 as [|a b l' l [_ ([_ S] & _ & _ & s & E)] _ IH]; constructor; auto. exists s. congruence. Qed.
Lemma forall2_failures c l' l : Forall2 (fun a b => fst a = fst b /\ same_res (snd a) (snd b)) l' l -> failures c l' = failures c l.
Proof.
  unfold failures. induction 1 as [|[s a] [s' b] l' l [E ([_ S] & U & _ & t & T)] _ IH]; [reflexivity|]. cbn [fst snd] in *. subst s'.
  cbn [filter snd]. rewrite U. destruct (ir_success b); cbn [negb]; [exact IH|]. cbn [map fst snd]. rewrite IH. f_equal. unfold code_text. now rewrite S.
Qed.
Lemma forall2_free c l' l : Forall2 (fun a b => fst a = fst b /\ same_res (snd a) (snd b)) l' l ->
  (Forall (fun e => known c (fst e) /\ ~ waits (snd e)) l' <-> Forall (fun e => known c (fst e) /\ ~ waits (snd e)) l).
Proof.
  induction 1 as [|[s a] [s' b] l' l [E S] _ IH]; [split; constructor|]. cbn [fst snd] in *. subst s'. pose proof (same_waits a b S) as W.
  split; intros F; inversion F as [|? ? [A B] C]; subst; cbn [fst snd] in *; constructor; try (apply IH; exact C); cbn [fst snd]; tauto.
Qed.

Lemma history_success c ecus h d r raw : hinv ecus h d -> device_result c d = Ok (r, raw) ->
  (ir_success r = true <-> outstanding_list ecus h <> [] /\ Forall (fun e => known c (fst e) /\ succeeded (snd e)) (outstanding_list ecus h)).
Proof.
  intros H D. pose proof (loaded_results ecus h d H) as L. destruct (outstanding_list ecus h) as [|x l0] eqn:O.
  - unfold device_result in D. rewrite L in D. cbn [bind] in D. injection D as <- _. split; [discriminate|intros [A _]; congruence].
  - assert (NE : outstanding_list ecus h <> []) by (rewrite O; discriminate). destruct L as (l' & L & F). rewrite <- O in *. clear O x l0. set (l := outstanding_list ecus h) in *.
    pose proof (forall2_codes _ _ F) as C. pose proof (forall2_free c _ _ F) as K. pose proof (forall2_failures c _ _ F) as FE.
    destruct (first_blocked c l' C) as [A|(pre & e & post & -> & A & B)].
    + destruct (device_result_all c d l' L C A) as (r0 & raw0 & D0 & _ & S). rewrite D in D0. injection D0 as <- <-. rewrite S, FE.
      destruct (failures c l) as [|y fs] eqn:Fl.
      * split; [intros _|reflexivity]. split; [exact NE|]. apply K in A. apply failures_nil in Fl. rewrite Forall_forall in *. intros e He. specialize (A e He). specialize (Fl e He). cbv beta in *. unfold succeeded. tauto.
      * split; [discriminate|]. intros [_ G]. assert (Fn : failures c l = []) by (apply failures_nil; eapply Forall_impl; [|exact G]; intros e [_ [X _]]; exact X). congruence.
    + destruct (device_result_blocked c d pre e post L C A B) as (r0 & raw0 & D0 & S & _). rewrite D in D0. injection D0 as <- <-. rewrite S. split; [discriminate|].
      intros [_ G]. assert (K2 : Forall (fun e => known c (fst e) /\ ~ waits (snd e)) (pre ++ e :: post)) by (apply K; eapply Forall_impl; [|exact G]; intros y [P [_ Q]]; tauto).
      apply Forall_app in K2. destruct K2 as [_ K2]. inversion K2; subst. tauto.
Qed.
Lemma history_failures c ecus h d : hinv ecus h d -> outstanding_list ecus h <> [] -> Forall (fun e => known c (fst e) /\ ~ waits (snd e)) (outstanding_list ecus h) ->
  exists r raw, device_result c d = Ok (r, raw) /\
    ir_code r = match failures c (outstanding_list ecus h) with [] => num kOk | fs => {| rc_num := kInstallFailed; rc_text := String.concat "|" fs |} end.
Proof.
  intros H N A. pose proof (loaded_results ecus h d H) as L. destruct (outstanding_list ecus h) as [|x l0] eqn:O; [congruence|]. destruct L as (l' & L & F).
  rewrite <- O in *. apply (forall2_free c _ _ F) in A. destruct (device_result_all c d l' L (forall2_codes _ _ F) A) as (r & raw & D & C & _).
  rewrite (forall2_failures c _ _ F) in C. eauto.
Qed.
Lemma forall2_split {A B} (P : A -> B -> Prop) l' pre e post : Forall2 P l' (pre ++ e :: post) -> exists pre' e' post', l' = pre' ++ e' :: post' /\ Forall2 P pre' pre /\ P e' e /\ Forall2 P post' post.
Proof. intros H. apply Forall2_app_inv_r in H. destruct H as (a & b & H1 & H2 & ->). inversion H2; subst. eauto 10. Qed.
Lemma history_blocked c ecus h d pre e post : hinv ecus h d -> outstanding_list ecus h = pre ++ e :: post -> Forall (fun e => known c (fst e) /\ ~ waits (snd e)) pre ->
  ~ known c (fst e) \/ known c (fst e) /\ waits (snd e) ->
  exists r raw, device_result c d = Ok (r, raw) /\ ir_success r = false /\
    ir_code r = match failures c pre with [] => num (blocked_code c e) | fs => {| rc_num := kInstallFailed; rc_text := String.concat "|" fs |} end.
Proof.
  intros H O A B. pose proof (loaded_results ecus h d H) as L. rewrite O in L.
  assert (L2 : exists l', load_eres d = Ok (Some l') /\ Forall2 (fun a b => fst a = fst b /\ same_res (snd a) (snd b)) l' (pre ++ e :: post)) by (destruct pre; exact L).
  clear L. destruct L2 as (l' & L & F). pose proof (forall2_codes _ _ F) as C. destruct (forall2_split _ _ _ _ _ F) as (pre' & e' & post' & -> & F1 & [E1 E2] & _).
  apply (forall2_free c _ _ F1) in A. rewrite <- E1 in B. rewrite <- (same_waits _ _ E2) in B.
  destruct (device_result_blocked c d pre' e' post' L C A B) as (r & raw & D & S & Q). rewrite (forall2_failures c _ _ F1) in Q. unfold blocked_code in *. rewrite E1 in Q. eauto 10.
Qed.
