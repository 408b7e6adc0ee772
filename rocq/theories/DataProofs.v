(** Proofs about the reporting of device data. *)
From Verif Require Import Base TufModel TufProofs DataModel DataSpec.

Lemma kind_eqb_spec a b : reflect (a = b) (kind_eqb a b).
Proof. destruct a, b; constructor; congruence. Qed.
Lemma key_eqb a b : String.eqb (key a) (key b) = kind_eqb a b.
Proof. reflexivity. Qed.
Lemma key_dec (a b : kind) : a = b \/ a <> b.
Proof. destruct (kind_eqb_spec a b); auto. Qed.

Lemma upper_char_idem c : upper_ascii (upper_ascii c) = upper_ascii c.
Proof. destruct c as [[] [] [] [] [] [] [] []]; reflexivity. Qed.
Lemma to_upper_idem s : to_upper (to_upper s) = to_upper s.
Proof. unfold to_upper. induction s as [|c s IH]; cbn [map_string]; auto. rewrite IH, upper_char_idem. reflexivity. Qed.

Section P.
Context (sha : string -> string) (Hsha : forall x, sha x <> "").
Notation up x := (to_upper (sha x)).
Notation put := (put sha). Notation report := (report sha). Notation report_hw := (report_hw sha).

Lemma up_nonempty x : String.eqb (up x) "" = false.
Proof. specialize (Hsha x). destruct (sha x); [congruence|reflexivity]. Qed.

(** The table tells the hash of the last confirmed upload. *)
Definition tab_ok (s : dst) : Prop := forall k, aget (key k) (d_tab s) = option_map (fun b => up b) (acked k (d_sent s)).
Definition known (l : list upload) (k : kind) (b : string) : bool :=
  match acked k l with Some a => String.eqb (up a) (up b) | None => false end.
Definition offer (k : kind) (o : option string) (w : fate) (s : dst) : dst * out :=
  match o with None => (s, Go) | Some b => if known (d_sent s) k b then (s, Go) else put k b w s end.

Lemma known_spec l k b : known l k b = true <-> exists a, acked k l = Some a /\ same sha a b.
Proof.
  unfold known, same. destruct (acked k l) as [a|].
  - rewrite String.eqb_eq. split; [eauto|]. intros (x & H & ?). injection H as <-. auto.
  - split; [discriminate|]. intros (x & H & _). discriminate.
Qed.
Lemma known_false l k b : known l k b = false <-> forall a, acked k l = Some a -> ~ same sha a b.
Proof.
  split.
  - intros H a A S. assert (known l k b = true) by (apply known_spec; eauto). congruence.
  - intros H. destruct (known l k b) eqn:K; auto. apply known_spec in K. destruct K as (a & A & S). exfalso. eapply H; eauto.
Qed.

Lemma put_ok k b w s : tab_ok s -> tab_ok (fst (put k b w s)).
Proof.
  intros T k'. unfold DataModel.put. destruct w as [t o di]. cbn [f_dies f_ok]. destruct di; cbn [fst d_tab d_sent].
  - unfold acked. cbn [newest u_fate u_kind fst snd f_ok f_dies]. rewrite andb_false_r, andb_false_r. apply T.
  - unfold acked. cbn [newest u_fate u_kind u_body fst snd f_ok f_dies]. rewrite andb_true_r. destruct o.
    + unfold aset. cbn [aget]. rewrite andb_true_r. rewrite key_eqb.
      destruct (kind_eqb_spec k' k) as [E|N]; destruct (kind_eqb_spec k k') as [M|M]; try congruence; try reflexivity. apply T.
    + rewrite andb_false_r. apply T.
Qed.
Lemma offer_ok k o w s : tab_ok s -> tab_ok (fst (offer k o w s)).
Proof. intros T. unfold offer. destruct o as [b|]; auto. destruct (known _ _ _); auto. apply put_ok; auto. Qed.

Lemma hash_cmp a b : hash_eqb (new_hash sha b) (mk_hash_t Sha256 (up a)) = String.eqb (up a) (up b).
Proof.
  unfold hash_eqb, new_hash, mk_hash_t. cbn [h_type h_val htype_eqb andb]. rewrite to_upper_idem. apply String.eqb_sym.
Qed.

Lemma report_eq k b w s : tab_ok s -> report k b w s = offer k (Some b) w s.
Proof.
  intros T. unfold DataModel.report, offer, known. rewrite T. destruct (acked k (d_sent s)) as [a|]; cbn [option_map]; auto.
  rewrite hash_cmp. reflexivity.
Qed.
Lemma hw_eq f w s : tab_ok s -> report_hw f w s = offer KHardware (wanted f (d_sent s) KHardware) w s.
Proof.
  intros T. unfold DataModel.report_hw, wanted. rewrite T. unfold offer, known. destruct (acked KHardware (d_sent s)) as [a|] eqn:A; cbn [option_map].
  - destruct (fc_custom f) as [c|]; [rewrite hash_cmp; reflexivity|]. rewrite up_nonempty. reflexivity.
  - assert (Z : forall b, hash_eqb (new_hash sha b) (mk_hash_t Sha256 "") = false).
    { intros b. unfold hash_eqb, new_hash, mk_hash_t. cbn [h_type h_val htype_eqb andb to_upper]. apply up_nonempty. }
    destruct (fc_custom f) as [c|]; [rewrite Z; reflexivity|]. cbn [String.eqb negb]. destruct (fc_lshw f); auto. rewrite Z. reflexivity.
Qed.
Lemma network_eq f w s l : tab_ok s -> report_network sha f w s = offer KNetwork (wanted f l KNetwork) w s.
Proof.
  intros T. unfold report_network, wanted. destruct (fc_report_network f); cbn [negb]; auto. destruct (fc_network f); auto. apply report_eq; auto.
Qed.
Lemma config_eq f w s l : tab_ok s -> report_config sha f w s = offer KConfig (wanted f l KConfig) w s.
Proof. intros T. unfold report_config, wanted. destruct (fc_report_config f); cbn [negb]; auto. apply report_eq; auto. Qed.

(** A sequence of offers. *)
Fixpoint offers (l : list (kind * option string)) (w : kind -> fate) (s : dst) : dst * out :=
  match l with [] => (s, Go) | (k, o) :: l' => next (offer k o (w k) s) (offers l' w) end.

Lemma next_go r : next r (fun s => (s, Go)) = r.
Proof. destruct r as [s []]; reflexivity. Qed.
Lemma offer_sent k o w s : d_sent (fst (offer k o w s)) = d_sent s \/ exists b, o = Some b /\ d_sent (fst (offer k o w s)) = (k, b, w) :: d_sent s.
Proof.
  unfold offer. destruct o as [b|]; [|left; reflexivity]. destruct (known _ _ _); [left; reflexivity|right]. exists b. split; auto.
  unfold DataModel.put. destruct (f_dies w); reflexivity.
Qed.

Definition send_list (f : facts) (l : list upload) : list (kind * option string) :=
  [(KHardware, wanted f l KHardware); (KPackages, wanted f l KPackages); (KNetwork, wanted f l KNetwork); (KConfig, wanted f l KConfig)].
Lemma next_ext r k k' : (forall s, fst r = s -> k s = k' s) -> next r k = next r k'.
Proof. destruct r as [s []]; cbn; auto. Qed.
Lemma send_eq f w s : tab_ok s ->
  send_device_data sha f w s =
  match fc_packages f with
  | Some _ => offers (send_list f (d_sent s)) w s
  | None => next (offers [(KHardware, wanted f (d_sent s) KHardware)] w s) (fun s => (s, Thrown))
  end.
Proof.
  intros T. unfold send_device_data, send_list. set (l := d_sent s). cbn [offers]. rewrite (hw_eq f (w KHardware) s T). fold l.
  pose proof (offer_ok KHardware (wanted f l KHardware) (w KHardware) s T) as T1. revert T1.
  generalize (offer KHardware (wanted f l KHardware) (w KHardware) s). intros r1 T1. unfold report_packages. destruct (fc_packages f) as [p|] eqn:P.
  - apply next_ext. intros s1 <-. rewrite (report_eq _ _ _ _ T1). replace (wanted f l KPackages) with (Some p) by (symmetry; exact P).
    pose proof (offer_ok KPackages (Some p) (w KPackages) _ T1) as T2. revert T2. generalize (offer KPackages (Some p) (w KPackages) (fst r1)). intros r2 T2.
    apply next_ext. intros s2 <-. rewrite (network_eq f (w KNetwork) _ l T2).
    pose proof (offer_ok KNetwork (wanted f l KNetwork) (w KNetwork) _ T2) as T3. revert T3. generalize (offer KNetwork (wanted f l KNetwork) (w KNetwork) (fst r2)). intros r3 T3.
    apply next_ext. intros s3 <-. rewrite next_go. apply config_eq; auto.
  - rewrite next_go. reflexivity.
Qed.

Lemma acked_other k k' b w l : k <> k' -> acked k' ((k, b, w) :: l) = acked k' l.
Proof. intros N. unfold acked. cbn [newest u_kind fst]. destruct (kind_eqb_spec k k'); [congruence|reflexivity]. Qed.
Lemma held_other k k' b w l : k <> k' -> held k' ((k, b, w) :: l) = held k' l.
Proof. intros N. unfold held. cbn [newest u_kind fst]. destruct (kind_eqb_spec k k'); [congruence|reflexivity]. Qed.

(** What a sequence of offers of different sorts does. *)
Definition done (l : list (kind * option string)) (w : kind -> fate) (s0 s' : dst) (out : out) : Prop :=
  exists new, d_sent s' = new ++ d_sent s0 /\
    (forall u, In u new -> In (u_kind u, Some (u_body u)) l /\ u_fate u = w (u_kind u) /\ known (d_sent s0) (u_kind u) (u_body u) = false) /\
    NoDup (map u_kind new) /\
    (out = Go -> forall k b, In (k, Some b) l -> known (d_sent s0) k b = false -> In (k, b, w k) new) /\
    (out = Dead -> exists u, In u new /\ f_dies (u_fate u) = true) /\
    (out = Go -> forall u, In u new -> f_dies (u_fate u) = false).

Lemma offers_done l w : NoDup (map fst l) -> forall s, tab_ok s ->
  let (s', o) := offers l w s in tab_ok s' /\ o <> Thrown /\ done l w s s' o.
Proof.
  induction l as [|[k o] l IH]; intros ND s T; cbn [offers].
  - split; [auto|]. split; [discriminate|]. exists []. repeat split; try discriminate; try (intros; contradiction). constructor.
  - cbn [map fst] in ND. apply NoDup_cons_iff in ND. destruct ND as (Nk & ND). specialize (IH ND).
    pose proof (offer_ok k o (w k) s T) as T1.
    assert (Hsame : forall s1 l0 (K : d_sent s1 = l0 ++ d_sent s) (F : forall u, In u l0 -> u_kind u = k) k' b, k' <> k -> known (d_sent s1) k' b = known (d_sent s) k' b).
    { intros s1 l0 K F k' b N. unfold known. rewrite K. clear K. replace (acked k' (l0 ++ d_sent s)) with (acked k' (d_sent s)); auto.
      induction l0 as [|[[q y] z] l0 IHl]; auto. cbn [app]. rewrite acked_other; [apply IHl; intros; apply F; right; auto|]. specialize (F (q,y,z) (or_introl eq_refl)). cbn in F. congruence. }
    destruct (offer k o (w k) s) as [s1 o1] eqn:Off. cbn [fst] in T1. cbn [next].
    assert (Step : done [(k, o)] w s s1 o1 /\ o1 <> Thrown).
    { unfold offer in Off. destruct o as [b|].
      - destruct (known (d_sent s) k b) eqn:Kn.
        + injection Off as <- <-. split; [|discriminate]. exists []. repeat split; try discriminate; try (intros; contradiction); [constructor|].
          intros _ k' b' [Q|[]] Kn'. injection Q as <- <-. congruence.
        + unfold DataModel.put in Off. destruct (f_dies (w k)) eqn:Dies; injection Off as <- <-; (split; [|discriminate]); exists [(k, b, w k)]; cbn [d_sent app];
          (split; [reflexivity|]); (split; [intros u [<-|[]]; cbn [u_kind u_body u_fate fst snd]; split; [left; reflexivity|auto]|]);
          (split; [constructor; [intros []|constructor]|]); (split; [try discriminate; intros _ k' b' [Q|[]] _; injection Q as <- <-; left; reflexivity|]).
          * split; [|discriminate]. intros _. exists (k, b, w k). split; [left; reflexivity|exact Dies].
          * split; [discriminate|]. intros _ u [<-|[]]. exact Dies.
      - injection Off as <- <-. split; [|discriminate]. exists []. repeat split; try discriminate; try (intros; contradiction); [constructor|].
        intros _ k' b' [Q|[]]. discriminate. }
    destruct Step as (D1 & NT). clear Off.
    destruct o1; [|split; [auto|]; split; [discriminate|]; destruct D1 as (n & A & B & C & D & E & F); exists n; (split; [exact A|]); split;
      [intros u Hu; destruct (B u Hu) as (B1 & B2); split; [|exact B2]; destruct B1 as [B1|[]]; left; exact B1|repeat split; auto; discriminate]|congruence].
    specialize (IH s1 T1). destruct (offers l w s1) as [s' o'] eqn:Ofs. destruct IH as (T' & NT' & D2). split; [auto|]. split; [auto|].
    destruct D1 as (n1 & A1 & B1 & C1 & G1 & _ & H1). destruct D2 as (n2 & A2 & B2 & C2 & G2 & E2 & H2).
    assert (K1 : forall u, In u n1 -> u_kind u = k). { intros u Hu. destruct (B1 u Hu) as ([Q|[]] & _). injection Q; auto. }
    assert (K2 : forall u, In u n2 -> u_kind u <> k). { intros u Hu Q. destruct (B2 u Hu) as (I & _). rewrite Q in I. apply Nk. apply (in_map fst) in I. exact I. }
    exists (n2 ++ n1). split; [rewrite A2, A1, app_assoc; reflexivity|]. split; [|split; [|split; [|split]]].
    + intros u Hu. apply in_app_or in Hu. destruct Hu as [Hu|Hu].
      * destruct (B2 u Hu) as (I & J & Kn). split; [right; exact I|]. split; [exact J|]. rewrite <- (Hsame s1 n1 A1 K1); auto.
      * destruct (B1 u Hu) as ([Q|[]] & J & Kn). split; [left; exact Q|]. auto.
    + rewrite map_app. clear - C1 C2 K1 K2. induction n2 as [|u n2 IHn]; cbn [map app]; auto. cbn [map] in C2. apply NoDup_cons_iff in C2. destruct C2 as (N & C2). constructor.
      * intros Q. apply in_app_or in Q. destruct Q as [Q|Q]; [auto|]. apply in_map_iff in Q. destruct Q as (v & Qv & Iv). apply (K2 u (or_introl eq_refl)). rewrite <- Qv. auto.
      * apply IHn; auto. intros; apply K2; right; auto.
    + intros Go' k' b' [Q|Q] Kn.
      * injection Q as -> ->. apply in_or_app. right. apply (G1 eq_refl k' b'); [left; reflexivity|auto].
      * apply in_or_app. left. apply (G2 Go'); auto. rewrite (Hsame s1 n1 A1 K1); auto. intros ->. apply Nk. apply (in_map fst) in Q. exact Q.
    + intros De. destruct (E2 De) as (u & Hu & D). exists u. split; auto. apply in_or_app. auto.
    + intros Go' u Hu. apply in_app_or in Hu. destruct Hu as [Hu|Hu]; auto.
Qed.

Lemma step_ok o s : tab_ok s -> tab_ok (fst (step sha o s)).
Proof.
  intros T. destruct o as [f w|f w]; cbn [step].
  - rewrite send_eq by auto. destruct (fc_packages f).
    + pose proof (offers_done (send_list f (d_sent s)) w ltac:(repeat constructor; cbn; intuition discriminate) s T) as H. destruct (offers _ w s). apply H.
    + pose proof (offers_done [(KHardware, wanted f (d_sent s) KHardware)] w ltac:(repeat constructor; cbn; intuition discriminate) s T) as H. destruct (offers _ w s) as [s' []]; apply H.
  - rewrite (network_eq f _ s [] T). apply offer_ok; auto.
Qed.
Lemma tab_ok0 : tab_ok dst0.
Proof. intros k. reflexivity. Qed.
Lemma run_ok h : forall s, tab_ok s -> tab_ok (run sha h s).
Proof. induction h as [|o h IH]; intros s T; [exact T|]. apply IH. apply step_ok; auto. Qed.

(** All about one call. *)
Lemma step_done o s : tab_ok s -> let (s', out) := step sha o s in
  (exists new, d_sent s' = new ++ d_sent s /\
    (forall u, In u new -> wanted_by o (d_sent s) (u_kind u) = Some (u_body u) /\ u_fate u = fates o (u_kind u) /\ known (d_sent s) (u_kind u) (u_body u) = false) /\
    NoDup (map u_kind new) /\
    (out = Go -> forall k b, wanted_by o (d_sent s) k = Some b -> known (d_sent s) k b = false -> In (k, b, fates o k) new) /\
    (out = Dead -> exists u, In u new /\ f_dies (u_fate u) = true) /\
    (out = Go -> forall u, In u new -> f_dies (u_fate u) = false)) /\
  (out = Thrown -> exists f w, o = OSend f w /\ fc_packages f = None).
Proof.
  intros T. destruct o as [f w|f w]; cbn [step].
  - rewrite send_eq by auto. destruct (fc_packages f) eqn:P.
    + pose proof (offers_done (send_list f (d_sent s)) w ltac:(repeat constructor; cbn; intuition discriminate) s T) as H.
      destruct (offers _ w s) as [s' o']. destruct H as (_ & NT & (new & A & B & C & D & E & F)). split; [|intros; congruence].
      exists new. split; [exact A|]. split; [|split; [exact C|split; [|auto]]].
      * intros u Hu. destruct (B u Hu) as (I & J). split; [|exact J]. cbn [wanted_by].
        destruct I as [Q|[Q|[Q|[Q|[]]]]]; injection Q as Q1 Q2; rewrite <- Q1; exact Q2.
      * intros Go' k b W Kn. apply (D Go'); auto. cbn [wanted_by] in W. destruct k; rewrite <- W; unfold send_list; cbn; auto.
    + pose proof (offers_done [(KHardware, wanted f (d_sent s) KHardware)] w ltac:(repeat constructor; cbn; intuition discriminate) s T) as H.
      destruct (offers _ w s) as [s' o']. destruct H as (_ & NT & (new & A & B & C & D & E & F)).
      assert (Hsub : forall u, In u new -> wanted_by (OSend f w) (d_sent s) (u_kind u) = Some (u_body u) /\ u_fate u = fates (OSend f w) (u_kind u) /\ known (d_sent s) (u_kind u) (u_body u) = false).
      { intros u Hu. destruct (B u Hu) as ([Q|[]] & J). split; [|exact J]. cbn [wanted_by]. injection Q as Q1 Q2. rewrite <- Q1; exact Q2. }
      destruct o'; cbn [next]; [| |congruence].
      * split; [|intros _; exists f, w; auto]. exists new. repeat split; auto; try discriminate; apply Hsub; auto.
      * split; [|discriminate]. exists new. repeat split; auto; try discriminate; apply Hsub; auto.
  - rewrite (network_eq f _ s (d_sent s) T).
    pose proof (offers_done [(KNetwork, wanted f (d_sent s) KNetwork)] w ltac:(repeat constructor; cbn; intuition discriminate) s T) as H. cbn [offers] in H. rewrite next_go in H.
    destruct (offer _ _ _ s) as [s' o']. destruct H as (_ & NT & (new & A & B & C & D & E & F)). split; [|intros; congruence].
    exists new. split; [exact A|]. split; [|split; [exact C|split; [|auto]]].
    + intros u Hu. destruct (B u Hu) as ([Q|[]] & J). split; [|exact J]. injection Q as Q1 Q2. rewrite <- Q1; exact Q2.
    + intros Go' k b W Kn. apply (D Go'); auto. destruct k; cbn [wanted_by] in W; try discriminate. left. rewrite W. reflexivity.
Qed.

(** Confirmed uploads were taken, if the server is honest. *)
Definition fair (p : (kind -> fate) -> Prop) (h : list op) : Prop := Forall (fun o => p (fates o)) h.
Definition all_up (p : fate -> Prop) (s : dst) : Prop := Forall (fun u => p (u_fate u)) (d_sent s).
Lemma step_all_up (p : fate -> Prop) o s : (forall k, p (fates o k)) -> tab_ok s -> all_up p s -> all_up p (fst (step sha o s)).
Proof.
  intros Hp T A. pose proof (step_done o s T) as H. destruct (step sha o s) as [s' out]. destruct H as ((new & S & B & _) & _).
  unfold all_up. cbn [fst]. rewrite S. apply Forall_app. split; [|exact A]. apply Forall_forall. intros u Hu. destruct (B u Hu) as (_ & F & _). rewrite F. auto.
Qed.
Lemma run_all_up (p : fate -> Prop) h : Forall (fun o => forall k, p (fates o k)) h -> forall s, tab_ok s -> all_up p s -> all_up p (run sha h s).
Proof.
  induction 1 as [|o h P _ IH]; intros s T A; [exact A|]. change (run sha (o :: h) s) with (run sha h (fst (step sha o s))). apply IH.
  - apply step_ok; auto.
  - apply step_all_up; auto.
Qed.

(** If no answer is lost, the device knows what the server holds. *)
Lemma noted_held (l : list upload) k : Forall (fun u => f_taken (u_fate u) = true <-> f_ok (u_fate u) = true /\ f_dies (u_fate u) = false) l ->
  held k l = acked k l.
Proof.
  unfold held, acked. induction 1 as [|u l Hu _ IH]; auto. cbn [newest]. destruct (kind_eqb (u_kind u) k); cbn [andb]; auto.
  destruct (f_taken (u_fate u)), (f_ok (u_fate u)), (f_dies (u_fate u)); cbn; auto; exfalso; intuition congruence.
Qed.
Lemma newest_in p k l b : newest p k l = Some b -> exists w, In (k, b, w) l /\ p w = true.
Proof.
  induction l as [|[[k' b'] w] l IH]; cbn [newest u_kind u_fate u_body fst snd]; [discriminate|].
  destruct (kind_eqb_spec k' k) as [->|N]; cbn [andb].
  - destruct (p w) eqn:Pw; [intros Q; injection Q as ->; exists w; split; [left; reflexivity|auto]|]. intros Q. destruct (IH Q) as (x & I & ?). exists x. split; [right|]; auto.
  - intros Q. destruct (IH Q) as (x & I & ?). exists x. split; [right|]; auto.
Qed.
Lemma newest_unique p k new l b w : NoDup (map u_kind new) -> In (k, b, w) new -> p w = true -> newest p k (new ++ l) = Some b.
Proof.
  induction new as [|[[k' b'] w'] new IH]; intros ND I P; [destruct I|]. cbn [map u_kind fst] in ND. apply NoDup_cons_iff in ND. destruct ND as (N & ND).
  cbn [app newest u_kind u_fate u_body fst snd]. destruct I as [Q|I].
  - injection Q as -> -> ->. destruct (kind_eqb_spec k k); [|congruence]. rewrite P. reflexivity.
  - destruct (kind_eqb_spec k' k) as [->|_]; [exfalso; apply N; apply (in_map u_kind) in I; exact I|]. cbn [andb]. apply IH; auto.
Qed.
Lemma newest_none p k new l : (forall u, In u new -> u_kind u <> k) -> newest p k (new ++ l) = newest p k l.
Proof.
  induction new as [|u new IH]; intros H; auto. cbn [app newest]. destruct (kind_eqb_spec (u_kind u) k) as [Q|_]; [exfalso; eapply H; [left; reflexivity|auto]|].
  cbn [andb]. apply IH. intros; apply H; right; auto.
Qed.
End P.
