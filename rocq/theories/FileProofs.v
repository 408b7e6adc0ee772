From Verif Require Import Base DlModel DlSpec DlProofs FileModel FileSpec.

Lemma aget_put n k c s : aget n (put k c s) = if String.eqb n k then Some c else aget n s.
Proof. unfold put. rewrite aget_aset, aget_adel. now destruct (String.eqb n k). Qed.
Lemma append_ne f x : x <> "" -> append f x <> f.
Proof. intros H. induction f as [|a f IH]; cbn; [exact H|]. intros [= E]. auto. Qed.
Lemma tmp_ne f : tmp f <> f.
Proof. now apply append_ne. Qed.
Lemma tmp_neb f : String.eqb (tmp f) f = false /\ String.eqb f (tmp f) = false.
Proof. split; apply String.eqb_neq; [|intros H; symmetry in H; revert H]; apply tmp_ne. Qed.
Lemma append_nil_r s : append s "" = s.
Proof. induction s as [|a s IH]; cbn; [reflexivity|now rewrite IH]. Qed.
Lemma append_assoc a b c : append (append a b) c = append a (append b c).
Proof. induction a as [|x a IH]; cbn; [reflexivity|now rewrite IH]. Qed.
Lemma run_app l m s : run_fs (l ++ m) s = run_fs m (run_fs l s).
Proof. apply fold_left_app. Qed.

(** While pieces are written only the ".new" file changes. *)
Lemma pieces_run f : forall ps s c, aget (tmp f) s = Some c ->
  aget (tmp f) (run_fs (map (w_piece f) ps) s) = Some (append c (sconcat ps)) /\
  forall n, n <> tmp f -> aget n (run_fs (map (w_piece f) ps) s) = aget n s.
Proof.
  induction ps as [|p ps IH]; intros s c H.
  - cbn. rewrite append_nil_r. auto.
  - cbn [map run_fs fold_left]. assert (E : w_piece f p s = put (tmp f) (append c p) s) by (unfold w_piece; now rewrite H). rewrite E.
    destruct (IH (put (tmp f) (append c p) s) (append c p)) as (A & B); [now rewrite aget_put, String.eqb_refl|].
    split; [unfold run_fs in A; rewrite A; unfold sconcat; cbn [fold_right]; now rewrite append_assoc|].
    intros n Hn. unfold run_fs in B. rewrite (B n Hn), aget_put. apply String.eqb_neq in Hn. now rewrite Hn.
Qed.
Lemma before_rename f ps s : let s' := run_fs (w_open f :: map (w_piece f) ps) s in
  aget (tmp f) s' = Some (sconcat ps) /\ forall n, n <> tmp f -> aget n s' = aget n s.
Proof.
  cbn [run_fs fold_left]. destruct (pieces_run f ps (w_open f s) "") as (A & B); [unfold w_open; now rewrite aget_put, String.eqb_refl|].
  split; [exact A|]. intros n Hn. unfold run_fs in B. rewrite (B n Hn). unfold w_open. rewrite aget_put. apply String.eqb_neq in Hn. now rewrite Hn.
Qed.
Lemma after_rename f ps s : let s' := run_fs (w_open f :: map (w_piece f) ps ++ [w_rename f]) s in
  aget f s' = Some (sconcat ps) /\ aget (tmp f) s' = None /\ forall n, n <> tmp f -> n <> f -> aget n s' = aget n s.
Proof.
  change (w_open f :: map (w_piece f) ps ++ [w_rename f]) with ((w_open f :: map (w_piece f) ps) ++ [w_rename f]). cbn zeta. rewrite run_app.
  destruct (before_rename f ps s) as (A & B). cbn zeta in *. set (z := run_fs (w_open f :: map (w_piece f) ps) s) in *.
  cbn [run_fs fold_left]. unfold w_rename. rewrite A. destruct (tmp_neb f) as (T1 & T2). rewrite !aget_put, String.eqb_refl, T1, aget_adel, String.eqb_refl.
  split; [reflexivity|]. split; [reflexivity|]. intros n N1 N2. rewrite aget_put, aget_adel. apply String.eqb_neq in N1, N2 as N2'. rewrite N1, N2'.
  apply B. now apply String.eqb_neq.
Qed.
(** Every prefix of the steps. *)
Lemma killed_cases k f ps ok s : (forall n, n <> tmp f -> aget n (killed k f ps ok s) = aget n s) \/
  (aget f (killed k f ps ok s) = Some (sconcat (firstn ok ps)) /\ forall n, n <> tmp f -> n <> f -> aget n (killed k f ps ok s) = aget n s).
Proof.
  unfold killed, write_steps. destruct k as [|k]; [now left|]. cbn [firstn]. rewrite firstn_app.
  destruct (Nat.le_gt_cases k (List.length (map (w_piece f) (firstn ok ps)))) as [L|L].
  - left. intros n Hn. replace (k - _)%nat with 0%nat by lia. rewrite firstn_O, app_nil_r, firstn_map.
    apply (before_rename f (firstn k (firstn ok ps)) s). exact Hn.
  - right. rewrite firstn_all2 by lia. destruct (k - _)%nat eqn:E; [lia|]. cbn [firstn]. rewrite firstn_nil.
    destruct (after_rename f (firstn ok ps) s) as (A & _ & B). split; [exact A|exact B].
Qed.
Theorem killed_old_or_new k f ps s : old_or_new f s (killed k f ps (List.length ps) s) (sconcat ps).
Proof.
  unfold old_or_new, read_file, read_fs. rewrite !aget_adel. destruct (tmp_neb f) as (_ & T). rewrite T.
  destruct (killed_cases k f ps (List.length ps) s) as [H | (H & _)].
  - left. rewrite H; [reflexivity|]. intros X. symmetry in X. now apply tmp_ne in X.
  - right. rewrite H, firstn_all. reflexivity.
Qed.
Theorem killed_others k f ps ok s n : n <> f -> n <> tmp f -> aget n (killed k f ps ok s) = aget n s.
Proof. intros N1 N2. destruct (killed_cases k f ps ok s) as [H | (_ & H)]; auto. Qed.
Theorem write_read f ps s : read_file f (write_file f ps (List.length ps) s) = sconcat ps /\ aget (tmp f) (write_file f ps (List.length ps) s) = None.
Proof.
  unfold read_file, read_fs, write_file, write_steps. rewrite aget_adel. destruct (tmp_neb f) as (_ & T). rewrite T. rewrite firstn_all.
  destruct (after_rename f ps s) as (A & B & _). cbn zeta in *. now rewrite A, B.
Qed.
