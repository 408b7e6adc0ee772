(** Proofs about downloads. *)
From Verif Require Import Base Json TufModel CodecModel DlModel DlSpec.

(** ** Maps and strings *)
Lemma aget_aset {A} k k' (v : A) m : aget k (aset k' v m) = if String.eqb k k' then Some v else aget k m.
Proof. reflexivity. Qed.
Lemma aget_adel {A} k k' (m : list (string * A)) : aget k (adel k' m) = if String.eqb k k' then None else aget k m.
Proof.
  unfold adel. induction m as [|(x, v) m IH]; simpl; [now destruct (String.eqb k k')|].
  destruct (String.eqb_spec x k') as [->|Hx]; simpl.
  - rewrite IH. destruct (String.eqb k k'); reflexivity.
  - rewrite IH. destruct (String.eqb_spec k x) as [->|]; auto. apply String.eqb_neq in Hx. now rewrite Hx.
Qed.
Lemma append_assoc (a b c : string) : append (append a b) c = append a (append b c).
Proof. induction a; simpl; congruence. Qed.
Lemma append_nil_r (a : string) : append a "" = a.
Proof. induction a; simpl; congruence. Qed.
Lemma length_append (a b : string) : String.length (append a b) = (String.length a + String.length b)%nat.
Proof. induction a; simpl; congruence. Qed.
Lemma size_append a b : size (append a b) = size a + size b.
Proof. unfold size. rewrite length_append. lia. Qed.
Lemma sdrop_length n s : String.length (sdrop n s) = (String.length s - n)%nat.
Proof. revert s. induction n; destruct s; simpl; auto. Qed.
Lemma hash_eqb_eq a b : hash_eqb a b = true -> a = b.
Proof.
  unfold hash_eqb. destruct a as [ta va], b as [tb vb]; simpl. intros H. apply andb_prop in H. destruct H as (H1 & H2).
  apply String.eqb_eq in H2. subst. destruct ta, tb; simpl in H1; congruence.
Qed.
Lemma hash_eqb_refl a : hash_eqb a a = true.
Proof. unfold hash_eqb. destruct a as [ta va]; simpl. rewrite String.eqb_refl. destruct ta; reflexivity. Qed.
Lemma match_hash_in t h : match_hash t h = true <-> In h (t_hashes t).
Proof.
  unfold match_hash. rewrite existsb_exists. split.
  - intros (x & Hx & E). apply hash_eqb_eq in E. now subst.
  - intros H. exists h. split; auto. apply hash_eqb_refl.
Qed.

Section P.
Context (E : Env) (W : world).
Lemma digest_match t c h : digest E (file_type t) c = Some h -> match_hash t h = true -> matches_first E t c.
Proof.
  unfold digest, matches_first. destruct (file_type t); intros H M; inversion H; subst; apply match_hash_in in M; auto.
Qed.
Lemma match_digest t c : matches_first E t c -> exists h, digest E (file_type t) c = Some h /\ match_hash t h = true.
Proof. intros [(-> & H) | (-> & H)]; simpl; eexists; (split; [reflexivity|]); apply match_hash_in; exact H. Qed.
Lemma first_target t c : matches_first E t c -> matches_target E t c.
Proof. intros [(_ & H) | (_ & H)]; [left|right]; exact H. Qed.

(** ** verifyTarget *)
Theorem verify_good t s : verify_target E W t s = Some SGood -> exists c, stored t s = Some c /\ size c = t_length t /\ matches_first E t c.
Proof.
  unfold verify_target. destruct (stored t s) as [c|]; [|discriminate].
  destruct (Z.ltb_spec (Z.of_nat (String.length c)) (t_length t)); [discriminate|]. destruct (Z.ltb_spec (t_length t) (Z.of_nat (String.length c))); [discriminate|].
  destruct (w_read W); [|discriminate]. destruct (digest E (file_type t) c) as [h|] eqn:D; [|discriminate]. destruct (match_hash t h) eqn:M; [|discriminate].
  intros _. exists c. split; auto. split; [unfold size; lia|]. eapply digest_match; eauto.
Qed.
Theorem good_verify t s c : w_read W = true -> stored t s = Some c -> size c = t_length t -> matches_first E t c -> verify_target E W t s = Some SGood.
Proof.
  intros Hr H Hl Hm. unfold verify_target. rewrite H, Hr. unfold size in Hl. rewrite Hl, Z.ltb_irrefl. destruct (match_digest t c Hm) as (h & -> & ->). reflexivity.
Qed.

(** ** The transfer loop *)
Hypothesis disk : good_disk W.
(** The open file is the target's and holds what was hashed. *)
Definition inv (t : target) (ds : dl) (s : dstate) : Prop :=
  check_file t s = Some (dl_path ds) /\ aget (dl_path ds) (d_files s) = Some (dl_hashed ds) /\ size (dl_hashed ds) <= t_length t.
Definition fits (t : target) (s : dstate) : Prop := exists c, stored t s = Some c /\ size c <= t_length t.
Lemma inv_stored t ds s : inv t ds s -> stored t s = Some (dl_hashed ds).
Proof. intros (H1 & H2 & _). unfold stored. now rewrite H1. Qed.
Lemma inv_fits t ds s : inv t ds s -> fits t s.
Proof. intros H. exists (dl_hashed ds). split; [now apply inv_stored|apply H]. Qed.
Lemma check_file_some t s f : check_file t s = Some f <-> aget (t_filename t) (d_names s) = Some f /\ f <> "" /\ exists c, aget f (d_files s) = Some c.
Proof.
  unfold check_file. split.
  - destruct (aget (t_filename t) (d_names s)) as [g|]; [|discriminate]. destruct (String.eqb_spec g ""); [discriminate|].
    destruct (aget g (d_files s)) eqn:Eg; [|discriminate]. intros H; inversion H; subst. eauto.
  - intros (-> & Hn & c & Hc). apply String.eqb_neq in Hn. now rewrite Hn, Hc.
Qed.
Lemma write_inv t ds s c : inv t ds s -> size (dl_hashed ds) + size c <= t_length t ->
  inv t {| dl_hashed := append (dl_hashed ds) c; dl_path := dl_path ds |} (write_file W (dl_path ds) c s).
Proof.
  intros (H1 & H2 & H3) Hl. unfold inv. simpl. rewrite H2, disk.
  assert (Hf : aget (dl_path ds) (aset (dl_path ds) (append (dl_hashed ds) c) (adel (dl_path ds) (d_files s))) = Some (append (dl_hashed ds) c)).
  { rewrite aget_aset, String.eqb_refl. reflexivity. }
  split; [|split; [exact Hf|now rewrite size_append]]. apply check_file_some in H1. destruct H1 as (N & Hn & _). apply check_file_some.
  simpl. rewrite H2, disk. split; [exact N|]. split; [exact Hn|]. eauto.
Qed.
Lemma feed_inv t : forall cs ds s log ds' s' log' r, feed W t cs ds s log = (ds', s', log', r) -> inv t ds s -> Forall (fits t) log ->
  inv t ds' s' /\ Forall (fits t) log' /\ (r = false -> dl_hashed ds' = append (dl_hashed ds) (sconcat cs)).
Proof.
  induction cs as [|c cs IH]; intros ds s log ds' s' log' r; cbn [feed].
  - intros H I F. injection H as <- <- <- <-. simpl. rewrite append_nil_r. auto.
  - destruct (Z.ltb_spec (t_length t) (Z.of_nat (String.length (dl_hashed ds)) + Z.of_nat (String.length c))) as [L|L].
    + intros H I F. injection H as <- <- <- <-. split; auto. split; auto. discriminate.
    + intros H I F. assert (I' := write_inv t ds s c I ltac:(unfold size; lia)). apply IH in H; auto.
      * destruct H as (A & B & C). split; auto. split; auto. intros Hr. rewrite (C Hr). simpl. apply append_assoc.
      * apply Forall_app. split; auto. constructor; [|constructor]. eapply inv_fits; eauto.
Qed.
Lemma create_inv t s s' : 0 <= t_length t -> create_file W t s = Some s' -> inv t {| dl_hashed := ""; dl_path := file_name t |} s'.
Proof.
  unfold create_file. destruct (w_create W); [|discriminate]. destruct (String.eqb_spec (file_name t) "") as [|Hn]; [discriminate|]. simpl.
  intros Hl H. injection H as <-. unfold inv. simpl dl_path. simpl dl_hashed. simpl d_files.
  split; [|split; [rewrite aget_aset, String.eqb_refl; reflexivity|exact Hl]].
  apply check_file_some. simpl d_names. simpl d_files. rewrite !aget_aset, !String.eqb_refl. eauto.
Qed.
Lemma loop_sound t : 0 <= t_length t -> forall fuel n ds s log r s' log', fetch_loop E W fuel n t ds s log = (r, s', log') -> inv t ds s -> Forall (fits t) log ->
  Forall (fits t) log' /\ (r = FTrue -> exists c, stored t s' = Some c /\ size c <= t_length t /\ matches_first E t c).
Proof.
  intros Hl. induction fuel as [|fuel IH]; intros n ds s log r s' log'; cbn [fetch_loop].
  - intros H I F. injection H as <- <- <-. split; auto. discriminate.
  - set (rs := w_server W n (target_url W t) (String.length (dl_hashed ds))).
    destruct (feed W t (rs_chunks rs) ds s log) as (((ds1, s1), log1), refused) eqn:Ef. intros H I F.
    destruct (feed_inv _ _ _ _ _ _ _ _ _ Ef I F) as (I1 & F1 & _).
    destruct (if rs_reset rs then RInterrupted else if refused then RFailed else rs_end rs) as [st| | |].
    + destruct (is_ok_status st); [|injection H as <- <- <-; split; auto; discriminate].
      destruct (digest E (file_type t) (dl_hashed ds1)) as [h|] eqn:D; [|injection H as <- <- <-; split; auto; discriminate].
      destruct (match_hash t h) eqn:M; injection H as <- <- <-; split; auto; try discriminate. intros _.
      exists (dl_hashed ds1). split; [now apply inv_stored|]. split; [apply I1|]. eapply digest_match; eauto.
    + destruct (create_file W t s1) as [s2|] eqn:C; [|injection H as <- <- <-; split; auto; discriminate].
      apply IH in H; auto; [eapply create_inv; eauto|]. apply Forall_app. split; auto. constructor; [|constructor]. eapply inv_fits. eapply create_inv; eauto.
    + destruct (w_token W) as [tok|]; [|injection H as <- <- <-; split; auto; discriminate].
      destruct (tok n); [|injection H as <- <- <-; split; auto; discriminate]. destruct (check_file t s1) as [f|] eqn:C; [|injection H as <- <- <-; split; auto; discriminate].
      destruct (w_append W); [|injection H as <- <- <-; split; auto; discriminate]. apply IH in H; auto.
      destruct I1 as (A & B & D). rewrite A in C. injection C as <-. repeat split; auto.
    + injection H as <- <- <-. split; auto. discriminate.
Qed.
Theorem fetch_sound t s fuel r s' log : 0 < t_length t -> fetch_target E W fuel t s = (r, s', log) ->
  Forall (fits t) log /\ (r = FTrue -> exists c, stored t s' = Some c /\ size c <= t_length t /\ matches_first E t c).
Proof.
  intros Hl. unfold fetch_target. destruct (t_hashes t) as [|h0 hs]; [intros H; injection H as <- <- <-; split; [constructor|discriminate]|].
  destruct (verify_target E W t s) as [st|] eqn:V; [|intros H; injection H as <- <- <-; split; [constructor|discriminate]].
  assert (H0 : (t_length t =? 0) = false) by (apply Z.eqb_neq; lia). rewrite H0.
  destruct st.
  - intros H. injection H as <- <- <-. split; [constructor|]. intros _. destruct (verify_good t s V) as (c & C1 & C2 & C3). exists c. repeat split; auto. lia.
  - destruct (create_file W t s) as [s1|] eqn:C; [|intros H; injection H as <- <- <-; split; [constructor|discriminate]].
    assert (F : Forall (fits t) [s1]) by (constructor; [|constructor]; eapply inv_fits, create_inv; eauto; lia).
    destruct (w_space W); [|intros H; injection H as <- <- <-; split; [auto|discriminate]].
    intros H. eapply loop_sound in H; eauto; try lia. eapply create_inv; eauto. lia.
  - destruct (check_file t s) as [f|] eqn:Cf; [|intros H; injection H as <- <- <-; split; [constructor|discriminate]].
    destruct (stored t s) as [c|] eqn:Cs; [|intros H; injection H as <- <- <-; split; [constructor|discriminate]].
    destruct (digest E (file_type t) c); [|intros H; injection H as <- <- <-; split; [constructor|discriminate]].
    destruct (w_read W && w_append W); [|intros H; injection H as <- <- <-; split; [constructor|discriminate]].
    destruct (w_space W); [|intros H; injection H as <- <- <-; split; [constructor|discriminate]].
    intros H. eapply loop_sound in H; eauto; try lia. unfold inv. simpl. unfold stored in Cs. rewrite Cf in Cs. split; auto. split; auto.
    unfold verify_target in V. unfold stored in V. rewrite Cf, Cs in V. destruct (Z.ltb_spec (Z.of_nat (String.length c)) (t_length t)); [unfold size; lia|].
    destruct (t_length t <? Z.of_nat (String.length c)); [discriminate|]. destruct (w_read W); [|discriminate]. destruct (digest E (file_type t) c); [|discriminate].
    destruct (match_hash t h1); discriminate.
  - destruct (create_file W t s) as [s1|] eqn:C; [|intros H; injection H as <- <- <-; split; [constructor|discriminate]].
    assert (F : Forall (fits t) [s1]) by (constructor; [|constructor]; eapply inv_fits, create_inv; eauto; lia).
    destruct (w_space W); [|intros H; injection H as <- <- <-; split; [auto|discriminate]].
    intros H. eapply loop_sound in H; eauto; try lia. eapply create_inv; eauto. lia.
  - destruct (create_file W t s) as [s1|] eqn:C; [|intros H; injection H as <- <- <-; split; [constructor|discriminate]].
    assert (F : Forall (fits t) [s1]) by (constructor; [|constructor]; eapply inv_fits, create_inv; eauto; lia).
    destruct (w_space W); [|intros H; injection H as <- <- <-; split; [auto|discriminate]].
    intros H. eapply loop_sound in H; eauto; try lia. eapply create_inv; eauto. lia.
Qed.

(** ** Honest servers *)
Lemma feed_all t : forall cs ds s log, inv t ds s -> size (dl_hashed ds) + size (sconcat cs) <= t_length t ->
  exists ds' s' log', feed W t cs ds s log = (ds', s', log', false) /\ inv t ds' s' /\ dl_hashed ds' = append (dl_hashed ds) (sconcat cs).
Proof.
  induction cs as [|c cs IH]; intros ds s log I Hl; cbn [feed].
  - exists ds, s, log. simpl. now rewrite append_nil_r.
  - simpl sconcat in Hl. rewrite size_append in Hl. assert (0 <= size (sconcat cs)) by (unfold size; lia).
    destruct (Z.ltb_spec (t_length t) (Z.of_nat (String.length (dl_hashed ds)) + Z.of_nat (String.length c))) as [L|L]; [unfold size in *; lia|].
    destruct (IH _ _ (log ++ [write_file W (dl_path ds) c s]) (write_inv t ds s c I ltac:(lia))) as (ds' & s' & log' & H1 & H2 & H3).
    { simpl. rewrite size_append. lia. }
    exists ds', s', log'. split; [exact H1|]. split; auto. rewrite H3. simpl. apply append_assoc.
Qed.
Lemma honest_loop t image fuel n ds s log : honest W t image -> describes_image E t image -> inv t ds s ->
  exists s' log', (matches_first E t (append (dl_hashed ds) (sdrop (String.length (dl_hashed ds)) image)) /\
                    fetch_loop E W (S fuel) n t ds s log = (FTrue, s', log')) \/
                  (dl_hashed ds <> "" /\ fetch_loop E W (S fuel) n t ds s log = (FFalse, s', log') /\ stored t s' = None).
Proof.
  intros Hh (D1 & D2 & D3 & D4) I. assert (Hlen : (String.length (dl_hashed ds) <= String.length image)%nat).
  { destruct I as (_ & _ & I). unfold size in *. lia. }
  destruct (Hh n (String.length (dl_hashed ds)) Hlen) as (R1 & (st & R2 & R3) & R4).
  set (rs := w_server W n (target_url W t) (String.length (dl_hashed ds))) in *.
  destruct (feed_all t (rs_chunks rs) ds s log I) as (ds' & s' & log' & F1 & F2 & F3).
  { rewrite R1. unfold size in *. rewrite sdrop_length. lia. }
  cbn [fetch_loop]. fold rs. rewrite F1, R4, R2. assert (is_ok_status st = true) as -> by (unfold is_ok_status; apply andb_true_intro; split; [apply Z.leb_le; lia|apply Z.ltb_lt; lia]).
  rewrite F3, R1. destruct (digest E (file_type t) (append (dl_hashed ds) (sdrop (String.length (dl_hashed ds)) image))) as [h|] eqn:D.
  - destruct (match_hash t h) eqn:M.
    + exists s', log'. left. split; auto. eapply digest_match; eauto.
    + exists (remove_file t s'), log'. right. split.
      * intros Hz. rewrite Hz in D. simpl in D. destruct (match_digest t image D3) as (h' & D' & M'). rewrite D in D'. injection D' as <-. congruence.
      * split; auto. unfold stored, remove_file. destruct F2 as (C & _). rewrite C. unfold check_file. simpl. rewrite aget_adel, String.eqb_refl. reflexivity.
  - exfalso. unfold digest in D. destruct D3 as [(X & _) | (X & _)]; rewrite X in D; discriminate.
Qed.
(** One attempt succeeds, or removes the file. *)
Theorem honest_fetch t image fuel s : honest W t image -> healthy W -> describes_image E t image ->
  exists s' log, fetch_target E W (S fuel) t s = (FTrue, s', log) \/
    (stored t s <> None /\ fetch_target E W (S fuel) t s = (FFalse, s', log) /\ stored t s' = None).
Proof.
  intros Hh (_ & H1 & H2 & H3 & H4) D. pose proof D as (D1 & D2 & D3 & D4). unfold fetch_target. destruct (t_hashes t) as [|h0 hs] eqn:Eh.
  { exfalso. destruct D3 as [(_ & X) | (_ & X)]; rewrite Eh in X; destruct X. }
  assert (H0 : (t_length t =? 0) = false) by (apply Z.eqb_neq; lia). rewrite H0.
  assert (Hnew : exists s', create_file W t s = Some s').
  { unfold create_file. rewrite H2. apply String.eqb_neq in D4. rewrite D4. simpl. eauto. }
  destruct Hnew as (s1 & Hnew). assert (I1 : inv t {| dl_hashed := ""; dl_path := file_name t |} s1) by (eapply create_inv; eauto; lia).
  destruct (honest_loop t image fuel 0 _ _ [s1] Hh D I1) as (s2 & log2 & [(_ & L) | (L & _)]); [|simpl in L; congruence].
  destruct (verify_target E W t s) as [st|] eqn:V.
  - destruct st; [exists s, []; now left| | | |]; try (rewrite Hnew, H1; exists s2, log2; left; exact L).
    assert (exists f c, check_file t s = Some f /\ stored t s = Some c /\ size c < t_length t) as (f & c & Cf & Cs & Cl).
    { unfold verify_target in V. destruct (stored t s) as [c|] eqn:Cs; [|discriminate]. unfold stored in Cs. destruct (check_file t s) as [f|]; [|discriminate].
      exists f, c. repeat split; auto. destruct (Z.ltb_spec (Z.of_nat (String.length c)) (t_length t)); [unfold size; lia|].
      destruct (t_length t <? Z.of_nat (String.length c)); [discriminate|]. destruct (w_read W); [|discriminate]. destruct (digest E (file_type t) c); [|discriminate].
      destruct (match_hash t h); discriminate. }
    rewrite Cf, Cs. destruct (digest E (file_type t) c) as [h|] eqn:Dg; [|exfalso; unfold digest in Dg; destruct D3 as [(X & _) | (X & _)]; rewrite X in Dg; discriminate].
    rewrite H4, H3, H1. simpl. assert (I2 : inv t {| dl_hashed := c; dl_path := f |} s).
    { unfold stored in Cs. rewrite Cf in Cs. repeat split; auto. simpl. lia. }
    destruct (honest_loop t image fuel 0 _ _ [] Hh D I2) as (s3 & log3 & [(_ & L2) | (_ & L2 & L3)]); exists s3, log3; [now left|]. right. split; [discriminate|auto].
  - exfalso. unfold verify_target in V. destruct (stored t s) as [c|]; [|discriminate]. destruct (_ <? _); [discriminate|]. destruct (_ <? _); [discriminate|].
    rewrite H4 in V. destruct D3 as [(X & _) | (X & _)]; rewrite X in V; simpl in V; destruct (match_hash t _); discriminate.
Qed.

End P.

(** Two attempts suffice; the client makes three. *)
Theorem honest_tries E t image fuel s w1 w2 b2 ws :
  (forall w, w = w1 \/ w = w2 -> honest w t image /\ healthy w) -> describes_image E t image ->
  exists s', fetch_tries E (S fuel) ((w1, true) :: (w2, b2) :: ws) t s = (FTrue, s') /\
    exists c, stored t s' = Some c /\ size c <= t_length t /\ matches_first E t c.
Proof.
  intros H D. destruct (H w1 (or_introl eq_refl)) as (A1 & B1). destruct (H w2 (or_intror eq_refl)) as (A2 & B2).
  cbn [fetch_tries]. destruct (honest_fetch E w1 (proj1 B1) t image fuel s A1 B1 D) as (s1 & log1 & [H1 | (_ & H1 & N1)]).
  - rewrite H1. exists s1. split; [reflexivity|]. destruct D as (_ & D2 & _).
    now apply (proj2 (fetch_sound E w1 (proj1 B1) t s (S fuel) FTrue s1 log1 D2 H1)).
  - rewrite H1. destruct (honest_fetch E w2 (proj1 B2) t image fuel s1 A2 B2 D) as (s2 & log2 & [H2 | (X & _)]); [|contradiction].
    rewrite H2. exists s2. split; [reflexivity|]. destruct D as (_ & D2 & _).
    now apply (proj2 (fetch_sound E w2 (proj1 B2) t s1 (S fuel) FTrue s2 log2 D2 H2)).
Qed.
