(** Downloads and the files of other targets. *)
From Verif Require Import Base Json TufModel CodecModel DlModel DlSpec DlProofs.

Section P.
Context (E : Env) (W : world) (t u : target) (g c : string).
Hypothesis Hname : t_filename u <> t_filename t.
Hypothesis Hg : file_name t <> g.
(** The other target keeps its file, which is not the file of [t]. *)
Definition other (s : dstate) : Prop :=
  aget (t_filename u) (d_names s) = Some g /\ aget g (d_files s) = Some c /\ aget (t_filename t) (d_names s) <> Some g.
Lemma create_other s s' : other s -> create_file W t s = Some s' -> other s'.
Proof.
  intros (H1 & H2 & H3). unfold create_file. destruct (_ && _); [|discriminate]. intros H. injection H as <-. unfold other. simpl d_names. simpl d_files.
  rewrite !aget_aset, !aget_adel. apply String.eqb_neq in Hname. rewrite Hname, String.eqb_refl.
  assert (String.eqb g (file_name t) = false) as -> by (apply String.eqb_neq; congruence). repeat split; auto. congruence.
Qed.
Lemma write_other p k s : other s -> p <> g -> other (write_file W p k s).
Proof.
  intros (H1 & H2 & H3) Hp. unfold other, write_file. simpl. repeat split; auto. destruct (aget p (d_files s)); auto.
  rewrite aget_aset, aget_adel. assert (String.eqb g p = false) as -> by (apply String.eqb_neq; congruence). exact H2.
Qed.
Lemma check_other s f : other s -> check_file t s = Some f -> f <> g.
Proof. intros (_ & _ & H3) H. apply check_file_some in H. destruct H as (H & _). congruence. Qed.
Lemma remove_other s : other s -> aget (t_filename u) (d_names (remove_file t s)) = Some g /\ aget g (d_files (remove_file t s)) = Some c.
Proof.
  intros O. pose proof O as (H1 & H2 & H3). unfold remove_file. destruct (check_file t s) as [f|] eqn:C; auto. simpl. rewrite !aget_adel.
  apply String.eqb_neq in Hname. rewrite Hname. assert (String.eqb g f = false) as -> by (apply String.eqb_neq; apply check_other in C; auto; congruence). auto.
Qed.
Lemma feed_other : forall cs ds s log ds' s' log' r, feed W t cs ds s log = (ds', s', log', r) -> other s -> dl_path ds <> g -> other s' /\ dl_path ds' = dl_path ds.
Proof.
  induction cs as [|k cs IH]; intros ds s log ds' s' log' r; cbn [feed].
  - intros H O P. injection H as <- <- <- <-. auto.
  - destruct (_ <? _); [intros H O P; injection H as <- <- <- <-; auto|]. intros H O P. apply IH in H; auto. now apply write_other.
Qed.
Definition kept (s : dstate) : Prop := aget (t_filename u) (d_names s) = Some g /\ aget g (d_files s) = Some c.
Lemma other_kept s : other s -> kept s.
Proof. intros (A & B & _). split; auto. Qed.
Lemma loop_other : forall fuel n ds s log r s' log', fetch_loop E W fuel n t ds s log = (r, s', log') -> other s -> dl_path ds <> g -> kept s'.
Proof.
  induction fuel as [|fuel IH]; intros n ds s log r s' log'; cbn [fetch_loop].
  - intros H O P. injection H as <- <- <-. now apply other_kept.
  - set (rs := w_server W n (target_url W t) (String.length (dl_hashed ds))).
    destruct (feed W t (rs_chunks rs) ds s log) as (((ds1, s1), log1), refused) eqn:Ef. intros H O P.
    destruct (feed_other _ _ _ _ _ _ _ _ Ef O P) as (O1 & P1).
    destruct (if rs_reset rs then RInterrupted else if refused then RFailed else rs_end rs) as [st| | |].
    + destruct (is_ok_status st); [|injection H as <- <- <-; now apply other_kept].
      destruct (digest E (file_type t) (dl_hashed ds1)) as [h|]; [|injection H as <- <- <-; now apply other_kept].
      destruct (match_hash t h); injection H as <- <- <-; [now apply other_kept|now apply remove_other].
    + destruct (create_file W t s1) as [s2|] eqn:C; [|injection H as <- <- <-; now apply other_kept].
      apply IH in H; auto. eapply create_other; eauto.
    + destruct (w_token W) as [tok|]; [|injection H as <- <- <-; now apply other_kept].
      destruct (tok n); [|injection H as <- <- <-; now apply other_kept]. destruct (check_file t s1) as [f|] eqn:C; [|injection H as <- <- <-; now apply other_kept].
      destruct (w_append W); [|injection H as <- <- <-; now apply other_kept]. apply IH in H; auto. simpl. eapply check_other; eauto.
    + injection H as <- <- <-. now apply other_kept.
Qed.
Lemma fetch_other fuel s r s' log : fetch_target E W fuel t s = (r, s', log) -> other s -> kept s'.
Proof.
  intros H O. unfold fetch_target in H.
  assert (Hsame : forall A (x : fetched) (l : A), kept s) by (intros; now apply other_kept).
  destruct (t_hashes t); [injection H as <- <- <-; now apply other_kept|].
  destruct (verify_target E W t s) as [st|]; [|injection H as <- <- <-; now apply other_kept].
  destruct st; [injection H as <- <- <-; now apply other_kept| | | |];
    (destruct (t_length t =? 0);
     [destruct (create_file W t s) as [s1|] eqn:C; injection H as <- <- <-; apply other_kept; auto; eapply create_other; eauto|]).
  2: { destruct (check_file t s) as [f|] eqn:Cf; [|injection H as <- <- <-; now apply other_kept].
       destruct (stored t s); [|injection H as <- <- <-; now apply other_kept]. destruct (digest _ _ _); [|injection H as <- <- <-; now apply other_kept].
       destruct (_ && _); [|injection H as <- <- <-; now apply other_kept]. destruct (w_space W); [|injection H as <- <- <-; now apply other_kept].
       eapply loop_other; eauto. simpl. eapply check_other; eauto. }
  all: destruct (create_file W t s) as [s1|] eqn:C; [|injection H as <- <- <-; now apply other_kept];
       (destruct (w_space W); [eapply loop_other; eauto; eapply create_other; eauto|injection H as <- <- <-; apply other_kept; eapply create_other; eauto]).
Qed.
End P.

Theorem others_kept E W fuel t u s r s' log c :
  t_filename u <> t_filename t -> stored u s = Some c -> check_file t s <> check_file u s -> check_file u s <> Some (file_name t) ->
  fetch_target E W fuel t s = (r, s', log) -> stored u s' = Some c.
Proof.
  intros Hn Hs Hd Hf H. unfold stored in Hs. destruct (check_file u s) as [g|] eqn:Cu; [|discriminate].
  apply check_file_some in Cu. destruct Cu as (N & Ng & _).
  destruct (fetch_other E W t u g c Hn ltac:(congruence) fuel s r s' log H) as (K1 & K2).
  - repeat split; auto. intros X. apply Hd. apply check_file_some. eauto.
  - unfold stored. assert (check_file u s' = Some g) as -> by (apply check_file_some; eauto). exact K2.
Qed.
Theorem zero_length_empty E W fuel t s s' log : t_length t = 0 -> fetch_target E W fuel t s = (FTrue, s', log) -> stored t s' = Some "".
Proof.
  intros Hl. unfold fetch_target. destruct (t_hashes t); [discriminate|]. destruct (verify_target E W t s) as [st|] eqn:V; [|discriminate].
  assert (X : t_length t =? 0 = true) by (rewrite Hl; reflexivity). rewrite X.
  assert (Y : forall s1, create_file W t s = Some s1 -> stored t s1 = Some "").
  { intros s1 H. unfold stored. destruct (create_inv W t s s1 ltac:(lia) H) as (A & B & _). rewrite A. exact B. }
  destruct st; try (destruct (create_file W t s) as [s1|] eqn:C; [|discriminate]; intros H; injection H as <- <-; auto).
  intros H. injection H as <- <-. destruct (verify_good E W t s V) as (c & C1 & C2 & _). rewrite C1. unfold size in C2. destruct c; [reflexivity|simpl in C2; lia].
Qed.
