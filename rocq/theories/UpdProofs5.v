(** Proofs about pending updates of Secondaries. *)
From Verif Require Import Base Json TufModel TufSpec MetaStore RepoModel RepoSpec CodecModel InstModel InstSpec InstProofs InstProofs2 InstLogProofs DevModel DevSpec DevProofs DevProofs2
  ClientModel ClientSpec ClientProofs2 UpdModel UpdSpec UpdProofs UpdProofs2 UpdProofs3 UpdProofs4.

Lemma hash_confirms h j t : h_type h = Sha256 -> h_val h = to_upper (sha256_hash t) -> (hash_eqb h (installed_image_hash j) = true <-> reports_hash j (sha256_hash t)).
Proof.
  intros H1 H2. unfold hash_eqb, installed_image_hash, reports_hash. rewrite H1, H2. split.
  - intros H. match type of H with context [match ?p with Ok _ => _ | Throw _ => _ end] => destruct p as [s|e] end; cbn in H; [|discriminate].
    exists s. split; [reflexivity|]. apply String.eqb_eq in H. auto.
  - intros (s & -> & H). cbn. apply String.eqb_eq. auto.
Qed.

(** Pending versions, as read back, can be recorded again. *)
Definition re_recordable (savec : json -> string) (loadc : string -> option json) (d : idb) : Prop :=
  forall ecu t, ecu <> "" -> pending_on loadc d ecu t -> good_target savec loadc t.
Lemma update_custom_custom t c x : update_custom t c = Ok x -> t_custom x = c.
Proof.
  unfold update_custom. intros H. repeat (apply bind_ok in H; destruct H as (? & _ & H)). injection H as <-. reflexivity.
Qed.
Lemma stable_recordable savec loadc d : json_stable savec loadc -> wf savec (good_target savec loadc) d -> re_recordable savec loadc d.
Proof.
  intros J Hw ecu t Ne (c & H). unfold load_installed in H. apply bind_ok in H. destruct H as (c0 & _ & H). apply bind_ok in H. destruct H as (p0 & Hp & H).
  injection H as -> ->. destruct (pend_row (real_serial d ecu) (il_log d)) as [r|] eqn:Er; [|discriminate]. apply pend_row_spec in Er. destruct Er as (Hr & _).
  cbn [read_opt] in Hp. apply bind_ok in Hp. destruct Hp as (x & Hx & [= ->]). destruct (wf_rows _ _ d Hw r Hr) as (u & D).
  destruct (read_describes savec loadc d (real_serial d ecu) r u D) as (y & Hy & Y1 & Y2 & Y3 & _). assert (y = t) by congruence. subst y.
  destruct D as ((G1 & G2 & G3 & G4 & G5) & _). split; [now rewrite Y2|]. split; [now rewrite Y2|]. split; [now rewrite Y2|]. split; [now rewrite Y3|].
  assert (Q : t_custom t = JNull \/ exists z, loadc z = Some (t_custom t) /\ exists t1, update_custom t1 (t_custom t) = Ok t).
  { unfold read_target in Hx. destruct (String.eqb (i_custom r) ""); [injection Hx as <-; left; reflexivity|]. destruct (loadc (i_custom r)) as [cc|] eqn:El; [|injection Hx as <-; left; reflexivity].
    right. pose proof (update_custom_custom _ _ _ Hx) as Ec. exists (i_custom r). rewrite Ec. eauto. }
  intros cc Hc. assert (cc = t_custom t) as -> by (apply (J (t_custom t) cc); [destruct Q as [Q|(z & Q & _)]; eauto|exact Hc]).
  destruct Q as [->|(_ & _ & t1 & Q)]; [eexists; reflexivity|]. destruct (update_custom_ok (target_blank "") _ _ _ Q) as (y & Hy' & _). eauto.
Qed.

Section U.
Context (savec : json -> string) (loadc : string -> option json) (verifies : string -> json -> bool).
Context (P : primary) (W : world).
Notation ev_idb := (ev_idb savec).
Notation good := (good_target savec loadc).
Notation wfd := (wf savec good).
Notation load := (load_installed loadc).
Notation adv := (adv savec).

(** The events for one pending ECU. *)
Inductive one_case (ecu : string) (t : target) (evs : list uev) (r : res unit) : Prop :=
| oc_prim : ecu = pr_serial P -> evs = [] -> r = Ok tt -> one_case ecu t evs r
| oc_null : ecu <> pr_serial P -> ~ secondary P ecu -> evs = [UNull] -> r = Throw EStd -> one_case ecu t evs r
| oc_silent : ecu <> pr_serial P -> secondary P ecu -> evs = [] -> r = Ok tt -> (exists tr e, e_manifest W tr ecu = Throw e) -> one_case ecu t evs r
| oc_other j : ecu <> pr_serial P -> secondary P ecu -> evs = [UManifest ecu j] -> r = Ok tt -> (exists tr, e_manifest W tr ecu = Ok j) -> ~ confirms verifies ecu j t -> one_case ecu t evs r
| oc_done j tl : ecu <> pr_serial P -> secondary P ecu -> (exists tr, e_manifest W tr ecu = Ok j) -> confirms verifies ecu j t ->
    evs = [UManifest ecu j; UEcuRes ecu (mk_ires (num kOk) ""); UVersion ecu t ModeCurrent; UCompleted ecu (t_corr t) true] ++ tl ->
    (tl = [] /\ (exists e, r = Throw e) \/ exists dr raw, tl = [UDevRes dr raw (t_corr t)] /\ r = Ok tt) -> one_case ecu t evs r.
Lemma device_result_store c r raw corr d : device_result c (fst (store_dres r raw corr d)) = device_result c d.
Proof. unfold store_dres. destruct (to_row r); reflexivity. Qed.
Lemma no_ver (evs : list uev) : Forall (fun x => ~ is_version x) evs -> (exists x, In x evs /\ is_version x) -> False.
Proof. rewrite Forall_forall. intros F (x & X & V). exact (F x X V). Qed.
Lemma check_one_spec ecu h t s s' r : h_type h = Sha256 -> h_val h = to_upper (sha256_hash t) -> pending_on loadc (p_idb s) ecu t ->
  check_one savec loadc verifies P W ecu h s = (s', r) -> exists evs, adv s s' evs /\ one_case ecu t evs r /\ (r = Ok tt -> (exists x, In x evs /\ is_version x) -> settled P (p_dev s')).
Proof.
  intros H1 H2 (c & Hl) H. unfold check_one in H. unfold is_prim in H. destruct (String.eqb_spec ecu (pr_serial P)) as [Eq|Nq].
  { injection H as <- <-. exists []. split; [apply adv_refl|]. split; [now apply oc_prim|intros _ (x & [] & _)]. }
  destruct (is_sec P ecu) eqn:S; cbn [negb] in H.
  2:{ apply tell_bind in H. destruct H as (s1 & A & H). injection H as <- <-. exists [UNull]. split; [exact A|]. split; [|discriminate]. apply oc_null; auto. intros X. apply is_sec_iff in X. congruence. }
  apply is_sec_iff in S. apply gets_bind in H. destruct (e_manifest W (p_tr s) ecu) as [j|e] eqn:M.
  2:{ injection H as <- <-. exists []. split; [apply adv_refl|]. split; [apply oc_silent; eauto|intros _ (x & [] & _)]. }
  apply tell_bind in H. destruct H as (s1 & A & H).
  assert (OTH : ~ confirms verifies ecu j t -> (s', r) = (s1, Ok tt) -> exists evs, adv s s' evs /\ one_case ecu t evs r /\ (r = Ok tt -> (exists x, In x evs /\ is_version x) -> settled P (p_dev s'))).
  { intros N [= -> ->]. exists [UManifest ecu j]. split; [exact A|]. split; [apply (oc_other _ _ _ _ j); eauto|intros _ (x & [<-|[]] & [])]. }
  destruct (is_empty_json j) eqn:Em; [apply OTH; [intros (X & _); congruence|symmetry; exact H]|].
  destruct (verifies ecu j) eqn:V; cbn [negb] in H; [|apply OTH; [intros (_ & X & _); congruence|symmetry; exact H]].
  destruct (hash_eqb h (installed_image_hash j)) eqn:Hh; [|apply OTH; [intros (_ & _ & X); apply (hash_confirms h j t H1 H2) in X; congruence|symmetry; exact H]].
  apply (hash_confirms h j t H1 H2) in Hh. assert (CF : confirms verifies ecu j t) by (repeat split; assumption).
  apply gets_bind in H. assert (I1 : p_idb s1 = p_idb s) by (destruct A as (_ & A & _); exact A). rewrite I1, Hl in H.
  apply lift_bind in H. destruct H as [(x & [= <-] & H)|(e & X & _)]; [|discriminate]. cbn [snd] in H.
  apply pbind_inv in H. unfold save_result in H. change (to_row (mk_ires (num kOk) "")) with (Ok {| rw_success := true; rw_code := (match to_repr (num kOk) with Ok c => c | Throw _ => "" end); rw_desc := "" |}) in H.
  destruct H as [(u & s2 & H & K)|(e & H & _)]; (apply lift_bind in H; destruct H as [(w & _ & H)|(e' & X & _)]; [|discriminate]; apply adv_tell in H; destruct H as (A2 & H)); [|discriminate].
  apply tell_bind in K. destruct K as (s3 & A3 & K). apply tell_bind in K. destruct K as (s4 & A4 & K). apply gets_bind in K.
  assert (A' := adv_trans _ _ _ _ _ _ (adv_trans _ _ _ _ _ _ (adv_trans _ _ _ _ _ _ A A2) A3) A4). cbn [app] in A'.
  apply lift_bind in K. destruct K as [((dr & raw) & Dr & K)|(e & _ & -> & ->)].
  - unfold save_device in K. apply lift_bind in K. destruct K as [(w' & Rw & K)|(e & _ & -> & ->)].
    + apply adv_tell in K. destruct K as (A5 & ->). cbn [fst snd] in *. eexists. split; [exact (adv_trans _ _ _ _ _ _ A' A5)|]. split.
      * apply (oc_done _ _ _ _ j [UDevRes dr raw (t_corr t)]); eauto 6.
      * intros _ _. destruct A5 as (_ & _ & A5 & _). cbn [fold_left ev_dev] in A5. exists dr, raw, w', (t_corr t). rewrite A5, device_result_store. repeat split; auto. unfold store_dres. rewrite Rw. reflexivity.
    + eexists. split; [exact A'|]. split; [|discriminate]. eapply (oc_done _ _ _ _ j []); eauto.
  - eexists. split; [exact A'|]. split; [|discriminate]. eapply (oc_done _ _ _ _ j []); eauto.
Qed.

Definition entry_ok (d : idb) (x : string * hash) : Prop :=
  fst x <> "" /\ h_type (snd x) = Sha256 /\ exists t, pending_on loadc d (fst x) t /\ good t /\ h_val (snd x) = to_upper (sha256_hash t).
Lemma pending_fun d e a b : pending_on loadc d e a -> pending_on loadc d e b -> a = b.
Proof. intros (c & X) (c' & Y). congruence. Qed.
Lemma case_good ecu t evs r : one_case ecu t evs r -> good t -> Forall (good_ev savec loadc) evs.
Proof. intros C G. destruct C; subst; try (repeat constructor; fail). destruct H4 as [(-> & _)|(dr & raw & -> & _)]; cbn; repeat (apply Forall_cons; [first [exact I|exact G]|]); constructor. Qed.
Lemma case_others ecu t evs r e : one_case ecu t evs r -> ecu <> "" -> e <> ecu -> Forall (no_version e) evs.
Proof.
  intros C Ne N. destruct C; subst; try (repeat constructor; fail). destruct H4 as [(-> & _)|(dr & raw & -> & _)]; cbn; repeat (apply Forall_cons; [first [exact I | cbn; split; congruence]|]); constructor.
Qed.
Lemma case_version ecu t evs r pre e u m post : one_case ecu t evs r -> evs = pre ++ UVersion e u m :: post ->
  e = ecu /\ u = t /\ m = ModeCurrent /\ ecu <> pr_serial P /\ secondary P ecu /\ exists j, In (UManifest ecu j) pre /\ confirms verifies ecu j t /\ exists tr, e_manifest W tr ecu = Ok j.
Proof.
  intros C X. destruct C; subst evs; try (destruct pre as [|? [|]]; discriminate X).
  assert (V : In (UVersion e u m) tl -> False). { destruct H4 as [(-> & _)|(dr & raw & -> & _)]; [intros []|intros [Y|[]]; discriminate]. }
  destruct pre as [|a pre]; [discriminate|]. injection X as <- X. destruct pre as [|a pre]; [discriminate|]. injection X as <- X.
  destruct pre as [|a pre]; [injection X as <- <- <- _; repeat split; auto; exists j; cbn; auto|]. injection X as <- X. destruct pre as [|a pre]; [discriminate|]. injection X as <- X.
  exfalso. apply V. rewrite X. apply in_or_app. cbn. auto.
Qed.
Lemma case_null ecu t evs r : one_case ecu t evs r -> In UNull evs -> ecu <> pr_serial P /\ ~ secondary P ecu.
Proof.
  intros C X. destruct C; subst evs; auto; try (destruct X as [X|[]]; discriminate X); try (destruct X; fail).
  exfalso. apply in_app_or in X. destruct X as [X|X].
  - repeat (destruct X as [X|X]; [discriminate X|]). destruct X.
  - destruct H4 as [(-> & _)|(dr & raw & -> & _)]; [destruct X|destruct X as [X|[]]; discriminate X].
Qed.
Lemma case_dev ecu t evs r : one_case ecu t evs r -> Forall (fun x => ~ is_version x) evs -> forall d, fold_left ev_dev evs d = d.
Proof.
  intros C F d. destruct C; subst evs; try reflexivity. exfalso. rewrite Forall_forall in F. apply (F (UVersion ecu t ModeCurrent)); [cbn; auto|exact I].
Qed.
(** What happens to the ECU itself. *)
Lemma case_load ecu t evs r d : one_case ecu t evs r -> wfd d -> good t ->
  fold_left ev_idb evs d = d /\ (r = Ok tt -> ecu = pr_serial P \/ secondary P ecu /\ exists tr, (exists e, e_manifest W tr ecu = Throw e) \/ exists j, e_manifest W tr ecu = Ok j /\ ~ confirms verifies ecu j t) \/
  secondary P ecu /\ ecu <> pr_serial P /\ exists x, load ecu (fold_left ev_idb evs d) = Ok (Some x, None) /\ reported x t.
Proof.
  intros C Hw G. destruct C; subst evs; cbn.
  - left. split; auto.
  - left. subst r. split; [reflexivity|discriminate].
  - left. destruct H3 as (tr & e & H3). split; [reflexivity|]. intros _. right. split; [assumption|]. exists tr. eauto.
  - left. destruct H3 as (tr & H3). split; [reflexivity|]. intros _. right. split; [assumption|]. exists tr. eauto.
  - right. split; [assumption|]. split; [assumption|]. destruct (current_reported savec loadc d ecu t Hw G) as (x & X1 & X2 & _). exists x. split; [|exact X2].
    destruct H4 as [(-> & _)|(dr & raw & -> & _)]; exact X1.
Qed.

(** ** All pending ECUs *)
Notation left_alone := (left_alone verifies W).
Lemma cp_spec : forall l s s' r, wfd (p_idb s) -> NoDup (map fst l) -> Forall (entry_ok (p_idb s)) l ->
  check_pending savec loadc verifies P W l s = (s', r) ->
  exists evs, adv s s' evs /\ Forall (good_ev savec loadc) evs /\
    (forall e, ~ In e (map fst l) -> Forall (no_version e) evs) /\
    (forall pre ecu t m post, evs = pre ++ UVersion ecu t m :: post ->
       m = ModeCurrent /\ ecu <> pr_serial P /\ secondary P ecu /\ pending_on loadc (p_idb s) ecu t /\ exists j, In (UManifest ecu j) pre /\ confirms verifies ecu j t /\ exists tr, e_manifest W tr ecu = Ok j) /\
    (In UNull evs -> exists x, In x l /\ fst x <> pr_serial P /\ ~ secondary P (fst x)) /\
    (forall x t, In x l -> pending_on loadc (p_idb s) (fst x) t ->
       load (fst x) (p_idb s') = load (fst x) (p_idb s) /\ (r = Ok tt -> fst x = pr_serial P \/ secondary P (fst x) /\ left_alone (fst x) t) \/
       secondary P (fst x) /\ fst x <> pr_serial P /\ exists y, load (fst x) (p_idb s') = Ok (Some y, None) /\ reported y t) /\
    (r = Ok tt -> (exists x, In x evs /\ is_version x) -> settled P (p_dev s')) /\ (Forall (fun x => ~ is_version x) evs -> p_dev s' = p_dev s).
Proof.
  induction l as [|(ecu, h) l IH]; intros s s' r Hw ND F H; cbn [check_pending] in H.
  { injection H as <- <-. exists []. split; [apply adv_refl|]. split; [constructor|]. split; [constructor|]. split; [intros [|] ? ? ? ?; discriminate|]. split; [intros []|]. split; [intros ? ? []|]. split; [intros _ (x & [] & _)|reflexivity]. }
  inversion ND as [|? ? N1 N2]; subst. inversion F as [|? ? (F1 & F2 & t & F3 & F4 & F5) F6]; subst. cbn [fst snd] in *.
  apply pbind_inv in H.
  assert (K : exists s1 r1, check_one savec loadc verifies P W ecu h s = (s1, r1) /\ ((exists e, r1 = Throw e /\ s' = s1 /\ r = Throw e) \/ r1 = Ok tt /\ check_pending savec loadc verifies P W l s1 = (s', r))).
  { destruct H as [(u & s1 & H & K)|(e & H & K)].
    - destruct u. exists s1, (Ok tt). split; [exact H|]. right. auto.
    - exists s', (Throw e). split; [exact H|]. left. exists e. auto. }
  clear H. destruct K as (s1 & r1 & H & K). destruct (check_one_spec _ _ _ _ _ _ F2 F5 F3 H) as (e1 & A1 & C1 & S1). assert (Z1 := case_dev _ _ _ _ C1).
  assert (Dv : p_dev s1 = fold_left ev_dev e1 (p_dev s)) by (destruct A1 as (_ & _ & X & _); exact X).
  assert (G1 := case_good _ _ _ _ C1 F4). assert (O1 : forall e, e <> ecu -> Forall (no_version e) e1) by (intros e Ne; exact (case_others _ _ _ _ e C1 F1 Ne)).
  assert (I1 : p_idb s1 = fold_left ev_idb e1 (p_idb s)) by (destruct A1 as (_ & X & _); exact X).
  assert (W1 : wfd (p_idb s1)) by (rewrite I1; now apply fold_wf).
  assert (L1 : forall e, e <> "" -> e <> ecu -> load e (p_idb s1) = load e (p_idb s)) by (intros e Ne Nq; rewrite I1; exact (fold_other savec loadc (fun _ _ => true) e e1 Ne (p_idb s) G1 (O1 e Nq) Hw)).
  pose proof (case_load _ _ _ _ (p_idb s) C1 Hw F4) as D1. rewrite <- I1 in D1.
  assert (INl : forall x, In x l -> fst x <> ecu). { intros x X E. apply N1. rewrite <- E. now apply in_map. }
  destruct K as [(e & -> & -> & ->)|(-> & K)].
  - exists e1. split; [exact A1|]. split; [exact G1|]. split; [intros e0 X; apply O1; intros ->; apply X; left; reflexivity|].
    split. { intros pre e0 t0 m post X. destruct (case_version _ _ _ _ _ _ _ _ _ C1 X) as (-> & -> & -> & Q1 & Q2 & Q3). auto. }
    split. { intros X. exists (ecu, h). split; [left; reflexivity|]. exact (case_null _ _ _ _ C1 X). }
    split; [|split; [discriminate|intros Y; rewrite Dv; apply Z1, Y]]. intros x t0 [<-|X] Pn; cbn [fst].
    + rewrite (pending_fun _ _ _ _ Pn F3). destruct D1 as [(-> & _)|D1]; [left; split; [reflexivity|discriminate]|right; exact D1].
    + left. split; [|discriminate]. apply L1; [|now apply INl]. rewrite Forall_forall in F6. apply (F6 x X).
  - assert (F6' : Forall (entry_ok (p_idb s1)) l).
    { rewrite Forall_forall in F6. apply Forall_forall. intros x X. destruct (F6 x X) as (Q1 & Q2 & u & (c & Q3) & Q4 & Q5). split; [exact Q1|]. split; [exact Q2|]. exists u. split; [|auto].
      exists c. rewrite L1; auto. }
    destruct (IH _ _ _ W1 N2 F6' K) as (e2 & A2 & G2 & O2 & V2 & U2 & D2 & S2 & Z2).
    assert (L2 : forall e, e <> "" -> ~ In e (map fst l) -> load e (p_idb s') = load e (p_idb s1)).
    { intros e Ne X. destruct A2 as (_ & Q & _). rewrite Q. exact (fold_other savec loadc (fun _ _ => true) e e2 Ne (p_idb s1) G2 (O2 e X) W1). }
    exists (e1 ++ e2). split; [exact (adv_trans _ _ _ _ _ _ A1 A2)|]. split; [apply Forall_app; auto|].
    split. { intros e X. apply Forall_app. split; [apply O1; intros ->; apply X; left; reflexivity|apply O2; intros Y; apply X; right; exact Y]. }
    split. { intros pre e0 t0 m post X. destruct (app_cons_split _ _ _ _ _ X) as [(q & Q1 & Q2)|(q & Q1 & Q2)].
      - destruct (case_version _ _ _ _ _ _ _ _ _ C1 Q1) as (-> & -> & -> & B1 & B2 & B3). auto.
      - destruct (V2 _ _ _ _ _ Q2) as (-> & B1 & B2 & (c & B3) & j & B4 & B5). split; [reflexivity|]. split; [exact B1|]. split; [exact B2|]. split.
        + assert (Z : e0 <> ecu /\ e0 <> "").
          { assert (Y : In e0 (map fst l)). { destruct (in_dec string_dec e0 (map fst l)) as [Y|Y]; [exact Y|]. specialize (O2 _ Y). rewrite Q2 in O2. apply Forall_app in O2. destruct O2 as (_ & O2). inversion O2 as [|? ? O3 _]; subst. cbn in O3. tauto. }
            apply in_map_iff in Y. destruct Y as (x & <- & Y). split; [now apply INl|]. rewrite Forall_forall in F6. apply (F6 x Y). }
          exists c. rewrite <- L1; tauto.
        + exists j. split; [|exact B5]. rewrite Q1. apply in_or_app. auto. }
    split. { intros X. apply in_app_or in X. destruct X as [X|X].
      - exists (ecu, h). split; [left; reflexivity|]. exact (case_null _ _ _ _ C1 X).
      - destruct (U2 X) as (x & Q1 & Q2). exists x. split; [right; exact Q1|exact Q2]. }
    split. { intros x t0 [<-|X] Pn; cbn [fst].
      - rewrite (pending_fun _ _ _ _ Pn F3). rewrite L2 by assumption. destruct D1 as [(-> & D1)|D1]; [left; split; [reflexivity|intros _; exact (D1 eq_refl)]|right; exact D1].
      - assert (Z : fst x <> ecu /\ fst x <> ""). { split; [now apply INl|]. rewrite Forall_forall in F6. apply (F6 x X). }
        rewrite <- (L1 (fst x)) by tauto. apply D2; [exact X|]. destruct Pn as (c & Pn). exists c. rewrite L1; tauto. }
    split. 2:{ intros Y. apply Forall_app in Y. destruct Y as (Y1 & Y2). rewrite (Z2 Y2), Dv. apply Z1, Y1. }
    intros -> (x & X & V). apply in_app_or in X. destruct (existsb (fun x => match x with UVersion _ _ _ => true | _ => false end) e2) eqn:B.
    + apply existsb_exists in B. destruct B as (y & Y & B). apply S2; [reflexivity|]. exists y. split; [exact Y|]. destruct y; try discriminate. exact I.
    + destruct X as [X|X].
      2:{ exfalso. assert (B' : existsb (fun x => match x with UVersion _ _ _ => true | _ => false end) e2 = true) by (apply existsb_exists; exists x; split; [exact X|]; destruct x; try destruct V; reflexivity). congruence. }
      assert (Sd := S1 eq_refl (ex_intro _ x (conj X V))).
      rewrite Z2; [exact Sd|]. apply Forall_forall. intros y Y V'. assert (B' : existsb (fun x => match x with UVersion _ _ _ => true | _ => false end) e2 = true) by (apply existsb_exists; exists y; split; [exact Y|]; destruct y; try destruct V'; reflexivity). congruence.
Qed.
(** ** fetchMeta *)
Notation reach := (ireach savec good).
Lemma fold_reach evs : forall d, Forall (good_ev savec loadc) evs -> reach d -> reach (fold_left ev_idb evs d).
Proof.
  induction evs as [|e evs IH]; intros d F R; cbn; [exact R|]. inversion F; subst. apply IH; [assumption|]. destruct e; cbn; auto.
  apply (ireach_S _ _ d (OpSave ecu t m) R). assumption.
Qed.
Theorem pending_spec s s' r : reach (p_idb s) -> re_recordable savec loadc (p_idb s) -> fetch_meta savec loadc verifies P W s = (s', r) ->
  exists evs, adv s s' evs /\ reach (p_idb s') /\
    (forall pre ecu t m post, evs = pre ++ UVersion ecu t m :: post ->
       m = ModeCurrent /\ ecu <> pr_serial P /\ secondary P ecu /\ pending_on loadc (p_idb s) ecu t /\ exists j, In (UManifest ecu j) pre /\ confirms verifies ecu j t /\ exists tr, e_manifest W tr ecu = Ok j) /\
    (In UNull evs -> exists ecu t, ecu <> "" /\ pending_on loadc (p_idb s) ecu t /\ ecu <> pr_serial P /\ ~ secondary P ecu) /\
    (forall ecu t, ecu <> "" -> pending_on loadc (p_idb s) ecu t ->
       load ecu (p_idb s') = load ecu (p_idb s) /\ (forall b, r = Ok b -> ecu = pr_serial P \/ secondary P ecu /\ left_alone ecu t) \/
       secondary P ecu /\ ecu <> pr_serial P /\ exists y, load ecu (p_idb s') = Ok (Some y, None) /\ reported y t) /\
    (forall ecu, ecu <> "" -> (forall t m, ~ In (UVersion ecu t m) evs) -> load ecu (p_idb s') = load ecu (p_idb s)) /\
    (forall b, r = Ok b -> (exists x, In x evs /\ is_version x) -> settled P (p_dev s')) /\
    (forall b, r = Ok b -> b = negb (has_pending (p_idb s'))).
Proof.
  intros R RR H. pose proof (reach_wf _ _ _ R) as Hw. unfold fetch_meta in H. apply gets_bind in H.
  destruct (has_pending (p_idb s)) eqn:HP.
  2:{ apply pbind_inv in H. destruct H as [(u & s1 & [= <- <-] & H)|(e & H & _)]; [|discriminate]. apply gets_bind in H. injection H as <- <-.
      exists []. split; [apply adv_refl|]. split; [exact R|]. split; [intros [|] ? ? ? ? X; discriminate X|]. split; [intros []|]. split.
      - intros ecu t Ne (c & Pn). exfalso. assert (X : has_pending (p_idb s) = true) by (apply (has_pending_iff savec loadc); eauto). congruence.
      - split; [reflexivity|]. split; [intros b _ (x & [] & _)|]. intros b [= <-]. reflexivity. }
  assert (K : exists s1 r1, check_pending_secondaries savec loadc verifies P W s = (s1, r1) /\ s' = s1 /\ (r1 = Ok tt /\ r = Ok (negb (has_pending (p_idb s'))) \/ exists e, r1 = Throw e /\ r = Throw e)).
  { apply pbind_inv in H. destruct H as [(u & s1 & H & K)|(e & H & K)].
    - destruct u. apply gets_bind in K. injection K as <- <-. exists s1, (Ok tt). auto.
    - exists s', (Throw e). split; [exact H|]. split; [reflexivity|]. right. eauto. }
  destruct K as (s1 & r1 & C & -> & K). unfold check_pending_secondaries in C. apply pbind_inv in C.
  destruct C as [(l & s2 & C & D)|(e & C & D)].
  2:{ injection C as <- C. subst r1. destruct K as [(X & _)|(e' & _ & ->)]; [discriminate|]. exists []. split; [apply adv_refl|]. split; [exact R|].
      split; [intros [|] ? ? ? ? X; discriminate X|]. split; [intros []|]. split; [intros ecu t _ _; left; split; [reflexivity|discriminate]|].
      split; [reflexivity|]. split; [intros b X|intros b X]; discriminate X. }
  injection C as <- PE. destruct (pending_ecus_list savec loadc _ _ R PE) as (ND & L).
  assert (F : Forall (entry_ok (p_idb s)) l).
  { apply Forall_forall. intros (e, h) X. apply L in X. destruct X as (X1 & X2 & c & t & X3 & X4). split; [exact X1|]. split; [exact X2|]. exists t. cbn. split; [exists c; exact X3|].
    split; [|exact X4]. apply (RR e t X1). exists c. exact X3. }
  destruct (cp_spec l s s1 r1 Hw ND F D) as (evs & A & G & O & V & U & Q & S & Z). exists evs. split; [exact A|].
  assert (RS : reach (p_idb s1)) by (destruct A as (_ & X & _); rewrite X; apply fold_reach; auto). split; [exact RS|]. split; [exact V|].
  assert (IN : forall ecu t, ecu <> "" -> pending_on loadc (p_idb s) ecu t -> In (ecu, mk_hash_t Sha256 (sha256_hash t)) l).
  { intros ecu t Ne (c & Pn). apply L. split; [exact Ne|]. split; [reflexivity|]. exists c, t. auto. }
  split. { intros X. destruct (U X) as ((e, h) & X1 & X2). cbn in X2. apply L in X1. destruct X1 as (X3 & _ & c & t & X4 & _). exists e, t. split; [exact X3|]. split; [exists c; exact X4|exact X2]. }
  split. { intros ecu t Ne Pn. destruct (Q _ t (IN _ _ Ne Pn) Pn) as [(Q1 & Q2)|Q1]; cbn [fst] in *; [left|right; exact Q1]. split; [exact Q1|]. intros b ->. apply Q2.
    destruct K as [(X & _)|(e & _ & X)]; [exact X|discriminate]. }
  split. { intros ecu Ne N. destruct A as (_ & X & _). rewrite X. apply (fold_other savec loadc (fun _ _ => true) ecu evs Ne (p_idb s) G); [|exact Hw].
    assert (E0 : ~ In "" (map fst l)). { intros Y. apply in_map_iff in Y. destruct Y as ((e, h) & E & Y). cbn in E. subst e. apply L in Y. destruct Y as (Y & _). congruence. }
    specialize (O _ E0). rewrite Forall_forall in *. intros x Hx. specialize (O x Hx). destruct x; cbn in *; auto. split; [tauto|]. intros ->. exact (N _ _ Hx). }
  split; intros b ->; (destruct K as [(-> & [= ->])|(e & _ & X)]; [|discriminate]); auto.
Qed.
End U.

(** ** Histories *)
Section H.
Context (savec : json -> string) (loadc : string -> option json) (verifies : string -> json -> bool) (P : primary).
Notation good := (good_target savec loadc).
Notation attempts := (attempts savec loadc verifies P).
Notation never_confirms := (never_confirms verifies).
Lemma not_completed W s s' r ecu t : ireach savec good (p_idb s) -> re_recordable savec loadc (p_idb s) -> ecu <> "" -> pending_on loadc (p_idb s) ecu t ->
  never_confirms W ecu t -> fetch_meta savec loadc verifies P W s = (s', r) ->
  ireach savec good (p_idb s') /\ re_recordable savec loadc (p_idb s') /\ pending_on loadc (p_idb s') ecu t /\ r <> Ok true.
Proof.
  intros R RR Ne Pn NC H. destruct (pending_spec savec loadc verifies P W s s' r R RR H) as (evs & A & RS & V & _ & Q & O & _ & B). split; [exact RS|].
  assert (LE : forall e u, e <> "" -> pending_on loadc (p_idb s') e u -> pending_on loadc (p_idb s) e u).
  { intros e u Ne' (c & X). destruct (load_total savec loadc (p_idb s) e (reach_wf _ _ _ R)) as (c0 & p0 & L0). destruct p0 as [t0|].
    - destruct (Q e t0 Ne' (ex_intro _ c0 L0)) as [(Q1 & _)|(_ & _ & y & Q1 & _)]; [exists c; congruence|congruence].
    - exists c. rewrite <- O; [exact X|exact Ne'|]. intros t1 m1 Y. apply in_split in Y. destruct Y as (a & b & ->). destruct (V _ _ _ _ _ eq_refl) as (_ & _ & _ & (c1 & Y) & _). congruence. }
  assert (Pn' : pending_on loadc (p_idb s') ecu t).
  { destruct Pn as (c & Pn). exists c. rewrite O; [exact Pn|exact Ne|]. intros t1 m1 Y. apply in_split in Y. destruct Y as (a & b & ->).
    destruct (V _ _ _ _ _ eq_refl) as (_ & _ & _ & (c1 & Y) & j & _ & Cf & tr & Ej). apply (NC tr j Ej). congruence. }
  split; [intros e u Ne' X; apply (RR e u Ne'); auto|]. split; [exact Pn'|]. intros ->. specialize (B true eq_refl).
  destruct Pn' as (c & X). assert (Y : has_pending (p_idb s') = true) by (apply (has_pending_iff savec loadc); eauto). rewrite Y in B. discriminate.
Qed.
(** A pending update that is never confirmed blocks all later updates. *)
Theorem stuck ecu t : ecu <> "" -> forall Ws s, ireach savec good (p_idb s) -> re_recordable savec loadc (p_idb s) -> pending_on loadc (p_idb s) ecu t ->
  (forall W, In W Ws -> never_confirms W ecu t) ->
  pending_on loadc (p_idb (fst (attempts Ws s))) ecu t /\ ~ In (Ok true) (snd (attempts Ws s)).
Proof.
  intros Ne. induction Ws as [|W Ws IH]; intros s R RR Pn NC; [cbn; auto|]. cbn [attempts].
  destruct (fetch_meta savec loadc verifies P W s) as [s1 r] eqn:F. destruct (not_completed W s s1 r ecu t R RR Ne Pn (NC W (or_introl eq_refl)) F) as (R1 & RR1 & Pn1 & Nr).
  destruct (IH s1 R1 RR1 Pn1 (fun W' X => NC W' (or_intror X))) as (Q1 & Q2). destruct (attempts Ws s1) as [s2 l]. cbn in *. split; [exact Q1|]. intros [X|X]; auto.
Qed.
End H.
