(** Proofs about event reporting. *)
From Verif Require Import Base Json ReportModel ReportSpec.

Section P.
Context (savec : json -> string) (loadc : string -> option json).
Definition stable (e : json) : Prop := loadc (savec e) = Some e.

(** The table holds exactly the events [q], under increasing positive ids. *)
Definition holds (t : rtable) (q : list json) : Prop := map snd t = map savec q /\ Forall (fun r => 0 < fst r) t /\ Forall stable q.
Lemma max_id_ge t : forall r, In r t -> fst r <= max_id t.
Proof. unfold max_id. induction t as [|x t IH]; intros r; [intros []|]. simpl. intros [-> | H]; [lia|apply IH in H; lia]. Qed.
Lemma max_id_nonneg t : 0 <= max_id t.
Proof. unfold max_id. induction t; simpl; lia. Qed.
Lemma save_holds t q e : stable e -> holds t q -> holds (save_event savec e t) (q ++ [e]).
Proof.
  intros He (H1 & H2 & H3). unfold save_event. split; [|split].
  3: { apply Forall_app. auto. }
  - rewrite !map_app, H1. reflexivity.
  - apply Forall_app. split; auto. constructor; [|constructor]. simpl. destruct t; [lia|]. pose proof (max_id_nonneg (p :: t)). lia.
Qed.
Lemma load_holds t : forall q acc m, 0 <= m -> holds t q -> load_events loadc t acc m = (acc ++ q, Z.max m (max_id t)).
Proof.
  induction t as [|(id, s) t IH]; intros q acc m Hm (H1 & H2 & H3).
  - destruct q; [|discriminate]. simpl. rewrite app_nil_r. f_equal. unfold max_id. simpl. lia.
  - destruct q as [|e q]; [discriminate|]. simpl in H1. injection H1 as H0 H1. subst s. inversion H2 as [|? ? P1 P2]; subst. simpl in P1.
    inversion H3 as [|? ? S1 S2]; subst. cbn [load_events]. rewrite S1. rewrite (IH q).
    + rewrite <- app_assoc. simpl. f_equal. unfold max_id. cbn [fold_right fst]. destruct (Z.ltb_spec id m); lia.
    + destruct (Z.ltb_spec id m); lia.
    + repeat split; auto.
Qed.
Lemma delete_all t m : max_id t <= m -> delete_events m t = [].
Proof.
  intros H. unfold delete_events. assert (forall r, In r t -> fst r <= m) as Hr by (intros r Hr; apply max_id_ge in Hr; lia). clear H.
  induction t as [|x t IH]; auto. simpl. destruct (Z.ltb_spec m (fst x)) as [L|L]; [specialize (Hr x (or_introl eq_refl)); lia|]. apply IH. intros; apply Hr; now right.
Qed.
Lemma step_spec srv t q o : (forall e, In e (enqueued [o]) -> stable e) -> holds t q -> exists t' bs q', rstep savec loadc srv t o = (t', bs) /\ holds t' q' /\
  q ++ enqueued [o] = removed bs ++ q' /\
  (bs = [] \/ exists b, bs = [b] /\ ba_events b = q /\ srv = true /\ q <> [] /\ (ba_deleted b = true -> acknowledged b) /\
     exists a c, o = RFlush a c /\ ba_answer b = a /\ ba_deleted b = accepted a && negb c).
Proof.
  intros He H. destruct o as [e | a c]; cbn [rstep].
  - exists (save_event savec e t), [], (q ++ [e]). split; [reflexivity|]. split; [apply save_holds; auto; apply He; now left|]. split; [reflexivity|]. now left.
  - rewrite (load_holds t q [] 0) by (auto; lia). cbn [app]. destruct srv.
    2:{ exists t, [], q. split; [reflexivity|]. split; auto. split; [simpl; now rewrite app_nil_r|]. now left. }
    destruct q as [|e q]; [exists t, [], []; split; [reflexivity|]; split; auto|].
    destruct (accepted a && negb c) eqn:A.
    + exists [], [{| ba_events := e :: q; ba_answer := a; ba_deleted := true |}], []. rewrite delete_all by lia. split; [reflexivity|]. split; [repeat split; constructor|].
      split; [simpl; now rewrite !app_nil_r|]. right. eexists. split; [reflexivity|]. simpl. split; [reflexivity|]. split; [reflexivity|]. split; [discriminate|].
      split; [|exists a, c; rewrite A; auto]. intros _. unfold acknowledged. simpl. apply andb_prop in A. destruct A as (A & _). unfold accepted in A. apply orb_prop in A.
      destruct A as [A | A]; [left|right; now apply Z.eqb_eq]. apply andb_prop in A. destruct A as (A & A3). apply andb_prop in A. destruct A as (A1 & A2).
      apply Z.leb_le in A2. apply Z.ltb_lt in A3. auto.
    + exists t, [{| ba_events := e :: q; ba_answer := a; ba_deleted := false |}], (e :: q). split; [reflexivity|]. split; auto. split; [simpl; now rewrite app_nil_r|].
      right. eexists. split; [reflexivity|]. simpl. split; [reflexivity|]. split; [reflexivity|]. split; [discriminate|]. split; [discriminate|exists a, c; rewrite A; auto].
Qed.
Lemma removed_app a b : removed (a ++ b) = removed a ++ removed b.
Proof. induction a as [|x a IH]; simpl; auto. now rewrite IH, app_assoc. Qed.
Lemma run_spec srv : forall ops t q, (forall e, In e (enqueued ops) -> stable e) -> holds t q -> exists t' bs q', rrun savec loadc srv t ops = (t', bs) /\ holds t' q' /\
  q ++ enqueued ops = removed bs ++ q' /\
  (forall b, In b bs -> ba_events b <> [] /\ (ba_deleted b = true -> acknowledged b)) /\
  (forall bs1 b bs2, bs = bs1 ++ b :: bs2 -> exists rest, q ++ enqueued ops = removed bs1 ++ ba_events b ++ rest).
Proof.
  induction ops as [|o ops IH]; intros t q He H; cbn [rrun].
  - exists t, [], q. split; [reflexivity|]. split; auto. split; [simpl; now rewrite app_nil_r|]. split; [intros b []|]. intros bs1 b bs2 E. destruct bs1; discriminate.
  - destruct (step_spec srv t q o) as (t1 & b1 & q1 & S1 & S2 & S3 & S4); [intros e X; apply He; destruct o; [destruct X as [<- | []]; now left|destruct X]|exact H|].
    rewrite S1.
    destruct (IH t1 q1) as (t2 & b2 & q2 & R1 & R2 & R3 & R4 & R5); [intros e X; apply He; destruct o; [now right|exact X]|exact S2|]. rewrite R1. exists t2, (b1 ++ b2), q2. split; [reflexivity|]. split; auto.
    assert (Eq : q ++ enqueued (o :: ops) = removed b1 ++ (q1 ++ enqueued ops)).
    { rewrite app_assoc, <- S3. rewrite <- app_assoc. f_equal. destruct o; reflexivity. }
    split; [rewrite Eq, R3, removed_app, app_assoc; reflexivity|]. split.
    + intros b Hb. apply in_app_or in Hb. destruct Hb as [Hb | Hb]; [|now apply R4]. destruct S4 as [-> | (b0 & -> & E1 & E2 & E3 & E4 & _)]; [destruct Hb|].
      destruct Hb as [<- | []]. rewrite E1. auto.
    + intros bs1 b bs2 E. destruct S4 as [-> | (b0 & -> & E1 & E2 & E3 & E4 & _)].
      * simpl in E. rewrite Eq. simpl. now apply (R5 bs1 b bs2).
      * destruct bs1 as [|x bs1]; simpl in E; injection E as <- E.
        -- simpl. rewrite E1. eauto.
        -- rewrite Eq. destruct (R5 bs1 b bs2 E) as (rest & ->). exists rest. simpl. rewrite app_nil_r, <- app_assoc. reflexivity.
Qed.
Lemma holds_stored t q : holds t q -> stored_events loadc t = map Some q.
Proof.
  intros (H & _ & H3). unfold stored_events. revert q H H3. induction t as [|x t IH]; intros q H H3; destruct q as [|e q]; try discriminate; auto.
  simpl in *. injection H as H0 H. inversion H3; subst. rewrite H0. f_equal; [assumption|]. now apply IH.
Qed.
Theorem reports srv ops t bs : (forall e, In e (enqueued ops) -> stable e) -> rrun savec loadc srv [] ops = (t, bs) ->
  exists q, stored_events loadc t = map Some q /\ enqueued ops = removed bs ++ q /\
    (forall b, In b bs -> ba_deleted b = true -> acknowledged b) /\
    (forall bs1 b bs2, bs = bs1 ++ b :: bs2 -> exists rest, enqueued ops = removed bs1 ++ ba_events b ++ rest).
Proof.
  intros He H. destruct (run_spec srv ops [] []) as (t' & bs' & q' & R1 & R2 & R3 & R4 & R5); [exact He|repeat split; constructor|].
  rewrite H in R1. injection R1 as <- <-. exists q'. split; [now apply holds_stored|]. split; [exact R3|]. split; [intros b Hb; now apply R4|exact R5].
Qed.
(** A successful flush delivers everything. *)
Theorem flush_delivers ops a t bs : (forall e, In e (enqueued ops) -> stable e) -> rrun savec loadc true [] ops = (t, bs) -> an_curl a = true -> 200 <= an_status a < 400 ->
  exists bs', rstep savec loadc true t (RFlush a false) = ([], bs') /\ enqueued ops = removed bs ++ removed bs'.
Proof.
  intros He H A1 A2. destruct (run_spec true ops [] []) as (t' & b0 & q' & R1 & R2 & R3 & R4 & R5); [exact He|repeat split; constructor|].
  rewrite H in R1. injection R1 as <- <-. cbn [rstep]. rewrite (load_holds t q' [] 0) by (auto; lia). cbn [app].
  assert (accepted a = true) as ->. { unfold accepted. rewrite A1. apply orb_true_intro. left. simpl. apply andb_true_intro. split; [apply Z.leb_le; lia|apply Z.ltb_lt; lia]. }
  destruct q' as [|e q].
  - exists []. destruct R2 as (R2 & _). destruct t; [|discriminate]. split; [reflexivity|]. exact R3.
  - simpl. rewrite delete_all by lia. eexists. split; [reflexivity|]. simpl. rewrite app_nil_r. exact R3.
Qed.
End P.
