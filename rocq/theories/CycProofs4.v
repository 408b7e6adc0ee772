(** Proofs about the update cycle: several downloads and the files they use. *)
From Verif Require Import Base Json TufModel MetaStore RepoModel CodecModel DlModel DlSpec DlProofs InstModel DevModel ClientModel UpdModel UpdSpec CycModel CycSpec CycProofs CycProofs3.

(** What the download of [t] may change: its own entry, and the file it had or is to have. *)
Definition touch (t : target) (d d' : dstate) : Prop :=
  (forall n, n <> t_filename t -> aget n (d_names d') = aget n (d_names d)) /\
  (aget (t_filename t) (d_names d') = aget (t_filename t) (d_names d) \/ aget (t_filename t) (d_names d') = Some (file_name t) \/ aget (t_filename t) (d_names d') = None) /\
  (forall f, f <> file_name t -> aget (t_filename t) (d_names d) <> Some f -> aget f (d_files d') = aget f (d_files d)).
Lemma touch_refl t d : touch t d d.
Proof. repeat split; auto. Qed.
Lemma touch_trans t a b c : touch t a b -> touch t b c -> touch t a c.
Proof.
  intros (A1 & A2 & A3) (B1 & B2 & B3). split; [intros n N; rewrite B1, A1; auto|]. split.
  - destruct B2 as [->|[->| ->]]; auto.
  - intros f F G. rewrite B3; auto. destruct A2 as [->|[->| ->]]; congruence.
Qed.
Section F.
Context (E : Env) (W : DlModel.world) (t : target).
Lemma touch_create s s' : create_file W t s = Some s' -> touch t s s'.
Proof.
  unfold create_file. destruct (_ && _); [|discriminate]. intros H. injection H as <-. unfold touch. cbn [d_names d_files]. split; [|split].
  - intros n N. rewrite aget_aset, aget_adel. apply String.eqb_neq in N. now rewrite N.
  - rewrite aget_aset, String.eqb_refl. auto.
  - intros f F _. rewrite aget_aset, aget_adel. apply String.eqb_neq in F. now rewrite F.
Qed.
Lemma touch_write p k s : p = file_name t \/ aget (t_filename t) (d_names s) = Some p -> touch t s (write_file W p k s).
Proof.
  intros H. unfold touch, write_file. cbn [d_names d_files]. split; [auto|]. split; [auto|]. intros f F G. destruct (aget p (d_files s)); auto.
  assert (X : String.eqb f p = false) by (apply String.eqb_neq; intros ->; destruct H; congruence). now rewrite aget_aset, aget_adel, X.
Qed.
Lemma touch_remove s : touch t s (remove_file t s).
Proof.
  unfold remove_file. destruct (check_file t s) as [f|] eqn:C; [|apply touch_refl]. apply check_file_some in C. destruct C as (C & _).
  unfold touch. cbn [d_names d_files]. split; [|split].
  - intros n N. rewrite aget_adel. apply String.eqb_neq in N. now rewrite N.
  - rewrite aget_adel, String.eqb_refl. auto.
  - intros g _ G. rewrite aget_adel. assert (X : String.eqb g f = false) by (apply String.eqb_neq; congruence). now rewrite X.
Qed.
Definition openf (p : string) (s : dstate) : Prop := p = file_name t \/ aget (t_filename t) (d_names s) = Some p.
Lemma touch_feed : forall cs ds s log ds' s' log' r, feed W t cs ds s log = (ds', s', log', r) -> openf (dl_path ds) s ->
  touch t s s' /\ dl_path ds' = dl_path ds /\ openf (dl_path ds') s'.
Proof.
  induction cs as [|k cs IH]; intros ds s log ds' s' log' r; cbn [feed].
  - intros H O. injection H as <- <- <- <-. auto using touch_refl.
  - destruct (_ <? _); [intros H O; injection H as <- <- <- <-; auto using touch_refl|]. intros H O. apply IH in H; [|exact O]. destruct H as (A & B & C).
    split; [|auto]. eapply touch_trans; [|exact A]. now apply touch_write.
Qed.
Lemma touch_loop : forall fuel n ds s log r s' log', fetch_loop E W fuel n t ds s log = (r, s', log') -> openf (dl_path ds) s -> touch t s s'.
Proof.
  induction fuel as [|fuel IH]; intros n ds s log r s' log'; cbn [fetch_loop].
  - intros H _. injection H as <- <- <-. apply touch_refl.
  - set (rs := w_server W n (target_url W t) (String.length (dl_hashed ds))).
    destruct (feed W t (rs_chunks rs) ds s log) as (((ds1, s1), log1), refused) eqn:Ef. intros H O.
    destruct (touch_feed _ _ _ _ _ _ _ _ Ef O) as (T & _ & O1).
    assert (K : forall (x : fetched) (l : list dstate), (x, s1, l) = (r, s', log') -> touch t s s') by (intros x l K; inversion K; subst; exact T).
    destruct (if rs_reset rs then RInterrupted else if refused then RFailed else rs_end rs) as [st| | |].
    + destruct (is_ok_status st); [|eapply K; eauto]. destruct (digest E (file_type t) (dl_hashed ds1)) as [h|]; [|eapply K; eauto].
      destruct (match_hash t h); [eapply K; eauto|]. injection H as <- <- <-. eapply touch_trans; [exact T|apply touch_remove].
    + destruct (create_file W t s1) as [s2|] eqn:C; [|eapply K; eauto]. apply IH in H; [|now left].
      eapply touch_trans; [exact T|]. eapply touch_trans; [eapply touch_create; eauto|exact H].
    + destruct (w_token W) as [tok|]; [|eapply K; eauto]. destruct (tok n); [|eapply K; eauto]. destruct (check_file t s1) as [f|] eqn:C; [|eapply K; eauto].
      destruct (w_append W); [|eapply K; eauto]. apply IH in H; [eapply touch_trans; eauto|]. right. apply check_file_some in C. apply C.
    + eapply K; eauto.
Qed.
Lemma touch_fetch fuel s r s' log : fetch_target E W fuel t s = (r, s', log) -> touch t s s'.
Proof.
  unfold fetch_target. assert (K : forall (x : fetched) (l : list dstate), (x, s, l) = (r, s', log) -> touch t s s') by (intros x l K; inversion K; subst; apply touch_refl).
  intros H. destruct (t_hashes t); [eapply K; eauto|]. destruct (verify_target E W t s) as [st|]; [|eapply K; eauto].
  destruct st; [eapply K; eauto| | | |];
    (destruct (t_length t =? 0); [destruct (create_file W t s) as [s1|] eqn:C; injection H as <- <- <-; [eapply touch_create; eauto|apply touch_refl]|]).
  2: { destruct (check_file t s) as [f|] eqn:Cf; [|eapply K; eauto]. destruct (stored t s); [|eapply K; eauto]. destruct (digest _ _ _); [|eapply K; eauto].
       destruct (_ && _); [|eapply K; eauto]. destruct (w_space W); [|eapply K; eauto]. eapply touch_loop; eauto. right. apply check_file_some in Cf. apply Cf. }
  all: destruct (create_file W t s) as [s1|] eqn:C; [|eapply K; eauto]; pose proof (touch_create _ _ C) as T;
       (destruct (w_space W); [|injection H as <- <- <-; exact T]); eapply touch_trans; [exact T|]; eapply touch_loop; eauto; now left.
Qed.
End F.
Lemma touch_tries E fuel t : forall ws s r s', fetch_tries E fuel ws t s = (r, s') -> touch t s s'.
Proof.
  induction ws as [|(w, g) ws IH]; intros s r s'; cbn [fetch_tries]; [intros H; injection H as <- <-; apply touch_refl|].
  destruct (fetch_target E w fuel t s) as ((x, s1), log) eqn:F. apply touch_fetch in F. destruct x; try (intros H; injection H as <- <-; exact F).
  destruct g; [|intros H; injection H as <- <-; exact F]. intros H. eapply touch_trans; eauto.
Qed.

(** ** Targets that do not share files *)
Lemma touch_uses t d d' f : touch t d d' -> uses d' t f -> uses d t f.
Proof. intros (_ & A & _) [->|H]; [now left|]. destruct A as [A|[A|A]]; rewrite A in H; [now right|injection H as <-; now left|discriminate]. Qed.
Lemma touch_uses_other t u d d' f : touch t d d' -> t_filename u <> t_filename t -> (uses d' u f <-> uses d u f).
Proof. intros (A & _) N. unfold uses. rewrite (A _ N). reflexivity. Qed.
Lemma touch_stored t u d d' c : touch t d d' -> apart d t u -> stored u d = Some c -> stored u d' = Some c.
Proof.
  intros (A & _ & B) (N & U) H. unfold stored in H. destruct (check_file u d) as [f|] eqn:C; [|discriminate]. apply check_file_some in C. destruct C as (C1 & C2 & _).
  assert (F : aget f (d_files d') = Some c). { rewrite B; [exact H| |]; intros X; apply (U f); [left; exact X|right; exact C1|right; exact X|right; exact C1]. }
  unfold stored. assert (check_file u d' = Some f) as ->; [|exact F]. apply check_file_some. rewrite A; eauto.
Qed.
Lemma touch_apart t u v d d' : touch t d d' -> apart d t u -> apart d t v -> apart d u v -> apart d' u v.
Proof.
  intros T (A & _) (B & _) (N & U). split; [exact N|]. intros f X Y. apply (touch_uses_other t u d d' f T ltac:(congruence)) in X. apply (touch_uses_other t v d d' f T ltac:(congruence)) in Y. eapply U; eauto.
Qed.
Lemma touch_apart_self t u d d' : touch t d d' -> apart d t u -> apart d' t u.
Proof. intros T (N & U). split; [exact N|]. intros f X Y. apply (touch_uses t d) in X; [|exact T]. apply (touch_uses_other t u d d' f T ltac:(congruence)) in Y. eapply U; eauto. Qed.
Lemma apart_sym d t u : apart d t u -> apart d u t.
Proof. intros (A & B). split; [congruence|]. intros f X Y. eapply B; eauto. Qed.

Lemma tries_good E fuel t : forall ws s s', (forall w, In w (map fst ws) -> good_disk w) -> sound_target E t -> fetch_tries E fuel ws t s = (FTrue, s') -> file_good E s' t.
Proof.
  induction ws as [|(w, g) ws IH]; intros s s' G S; cbn [fetch_tries]; [discriminate|].
  destruct (fetch_target E w fuel t s) as ((x, s1), log) eqn:F. destruct x; try discriminate.
  - intros H. injection H as <-. destruct (proj2 (fetch_sound E w (G w (or_introl eq_refl)) t s fuel FTrue s1 log (proj1 S) F) eq_refl) as (c & C1 & _ & C3).
    exists c. split; [exact C1|]. split; [now apply S|exact C3].
  - destruct g; [|discriminate]. apply IH; auto. intros v V. apply G. now right.
Qed.
Section C.
Context (savec : json -> string) (loadc : string -> option json) (E : Env) (fnm : string -> string -> bool) (P : primary) (W : cworld).
(** Downloads of a file that the Primary itself makes. *)
Lemma fetch_one_touch i t s s' x : fetch_one E P W i t s = (s', x) -> touch t (y_dl s) (y_dl s').
Proof.
  unfold fetch_one. destruct (_ || _); [|intros H; injection H as <- _; apply touch_refl]. destruct (negb (x_keys W i)); [intros H; injection H as <- _; apply touch_refl|].
  destruct (is_ostree t); [intros H; injection H as <- _; apply touch_refl|]. destruct (fetch_tries _ _ _ _ _) as (r, d) eqn:F. apply touch_tries in F.
  destruct r; intros H; cbv [ctell cthrow cbind] in H; injection H as <- _; exact F.
Qed.
Lemma fetch_one_good i t s s' : disks_good W -> is_ostree t = false -> sound_target E t -> fetch_one E P W i t s = (s', Ok true) -> file_good E (y_dl s') t.
Proof.
  intros G O S. unfold fetch_one. rewrite O, orb_true_r. destruct (negb (x_keys W i)); [discriminate|]. destruct (fetch_tries _ _ _ _ _) as (r, d) eqn:F.
  destruct r; try discriminate. intros H. injection H as <-. cbn [y_dl]. eapply tries_good; [|exact S|exact F]. cbn [map]. intros w [<-|[<-|[<-|[]]]]; apply G.
Qed.
Lemma loop_stored u c : forall ts i s s' us, download_loop E P W i ts s = (s', Ok us) -> ForallOrdPairs (apart (y_dl s)) (u :: ts) -> stored u (y_dl s) = Some c -> stored u (y_dl s') = Some c.
Proof.
  induction ts as [|t ts IH]; intros i s s' us H A C; cbn [download_loop] in H; [injection H as <- _; exact C|].
  apply cbind_ok in H. destruct H as (s1 & ok & H1 & H). apply cbind_ok in H. destruct H as (s2 & rest & H2 & H). injection H as <- <-.
  apply download_image_spec in H1. destruct H1 as (_ & _ & a & b & _ & D1 & F & D2). apply fetch_one_touch in F. rewrite D1, <- D2 in F.
  inversion A as [|? ? A1 A2]; subst. inversion A1 as [|? ? A11 A12]; subst. inversion A2 as [|? ? A21 A22]; subst.
  eapply IH; [exact H2| |eapply touch_stored; [exact F|now apply apart_sym|exact C]].
  constructor.
  - rewrite Forall_forall in *. intros v V. eapply touch_apart; [exact F|now apply apart_sym|now apply A21|now apply A12].
  - clear -F A21 A22. induction A22 as [|v l V1 V2 IHl]; [constructor|]. inversion A21; subst. constructor; [|now apply IHl].
    rewrite Forall_forall in *. intros w Hw. eapply touch_apart; [exact F|assumption|auto|auto].
Qed.
Lemma loop_good : disks_good W -> forall ts i s s' us, download_loop E P W i ts s = (s', Ok us) -> ForallOrdPairs (apart (y_dl s)) ts ->
  (forall t, In t ts -> is_ostree t = false -> sound_target E t) -> forall t, In t us -> is_ostree t = false -> file_good E (y_dl s') t.
Proof.
  intros G. induction ts as [|t ts IH]; intros i s s' us H A S; cbn [download_loop] in H; [injection H as <- <-; contradiction|].
  apply cbind_ok in H. destruct H as (s1 & ok & H1 & H). apply cbind_ok in H. destruct H as (s2 & rest & H2 & H). injection H as <- <-.
  apply download_image_spec in H1. destruct H1 as (_ & _ & a & b & _ & D1 & F & D2). pose proof F as F0. apply fetch_one_touch in F. rewrite D1, <- D2 in F.
  inversion A as [|? ? A1 A2]; subst.
  assert (A3 : ForallOrdPairs (apart (y_dl s1)) (t :: ts)).
  { constructor; [rewrite Forall_forall in *; intros v V; eapply touch_apart_self; eauto|].
    clear -F A1 A2. induction A2 as [|v l V1 V2 IHl]; [constructor|]. inversion A1; subst. constructor; [|now apply IHl].
    rewrite Forall_forall in *. intros w Hw. eapply touch_apart; [exact F|assumption|auto|auto]. }
  assert (R : forall u, In u rest -> is_ostree u = false -> file_good E (y_dl s2) u).
  { intros u U. eapply IH; [exact H2|inversion A3; assumption|intros v V; apply S; now right|exact U]. }
  intros u U O. destruct ok; [|now apply R]. destruct U as [<-|U]; [|now apply R].
  destruct (fetch_one_good i t a b G O (S t (or_introl eq_refl) O) F0) as (c & C1 & C2 & C3). rewrite <- D2 in C1. exists c. split; [|auto].
  eapply loop_stored; eauto.
Qed.
(** Everything reported as downloaded is there at the end of the downloads. *)
Theorem download_good ts s s' us st : disks_good W -> download_images savec loadc E fnm P W ts s = (s', Ok (us, st)) -> ForallOrdPairs (apart (y_dl s)) ts ->
  (forall t, In t ts -> is_ostree t = false -> sound_target E t) -> forall t, In t us -> is_ostree t = false -> file_good E (y_dl s') t.
Proof.
  intros G H A S. unfold download_images in H. apply cbind_ok in H. destruct H as (s1 & d & H1 & H). cbv [cpst pgets] in H1. rewrite cst_eta in H1. injection H1 as <- <-.
  apply cbind_ok in H. destruct H as (s2 & oc & H2 & H).
  assert (D : y_dl s2 = y_dl s). { unfold ctry, cpst in H2. destruct (pust _ (y_p s)) as (p, r). destruct r; injection H2 as <- _; reflexivity. }
  destruct oc.
  - apply cbind_ok in H. destruct H as (s4 & [] & H4 & H). injection H as _ <- _. contradiction.
  - injection H as _ <- _. contradiction.
  - apply cbind_ok in H. destruct H as (s3 & done & H3 & H). rewrite <- D in A. pose proof (loop_good G _ _ _ _ _ H3 A S) as L.
    destruct (Nat.eqb _ _); [injection H as <- <- _; exact L|]. apply cbind_ok in H. destruct H as (s4 & [] & H4 & H). injection H as <- <- _.
    apply store_failure_spec in H4; [|right; right; auto]. destruct H4 as (_ & -> & _). exact L.
Qed.
(** So the recheck before the installation finds them good. *)
Theorem download_rechecked ts s s' us st : disks_good W -> w_read (x_verify W) = true -> download_images savec loadc E fnm P W ts s = (s', Ok (us, st)) ->
  ForallOrdPairs (apart (y_dl s)) ts -> (forall t, In t ts -> is_ostree t = false -> sound_target E t) ->
  forall t, In t us -> is_ostree t = false -> verify_image E P W (y_dl s') t = Ok true.
Proof.
  intros G R H A S t T O. destruct (download_good _ _ _ _ _ G H A S t T O) as (c & C1 & C2 & C3). unfold verify_image. rewrite O. cbn [andb].
  now rewrite (good_verify E (x_verify W) t (y_dl s') c R C1 C2 C3).
Qed.
End C.
