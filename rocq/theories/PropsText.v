(** Property C193: the file of a target is the one stored last for it. *)
From Verif Require Import Base TextModel.

Inductive nwrite := NStore (n f : string) | NDelete (n : string).
Definition nrun (w : nwrite) (t : images) : images := match w with NStore n f => store_name n f t | NDelete n => del_name n t end.
(** The table after a history, the most recent call first. *)
Fixpoint names_after (h : list nwrite) : images := match h with [] => [] | w :: h' => nrun w (names_after h') end.
(** Specification: the last thing said about a name. *)
Fixpoint last_file (n : string) (h : list nwrite) : option string :=
  match h with
  | [] => None
  | NStore n' f :: h' => if string_dec n n' then Some f else last_file n h'
  | NDelete n' :: h' => if string_dec n n' then None else last_file n h'
  end.
Fixpoint no_nul (s : string) : Prop := match s with EmptyString => True | String c s' => c <> ascii_of_nat 0 /\ no_nul s' end.
Definition plain (w : nwrite) : Prop := match w with NStore n f => no_nul n /\ no_nul f | NDelete n => no_nul n end.

Definition C193_statement (ok : nwrite -> Prop) (okn : string -> Prop) : Prop := forall h, Forall ok h ->
  (forall n, okn n -> get_name n (names_after h) = match last_file n h with Some f => f | None => "" end) /\
  (* the list of names: each once, exactly those with a file *)
  NoDup (all_names (names_after h)) /\ (forall n, okn n -> In n (all_names (names_after h)) <-> last_file n h <> None).

Lemma c_str_plain s : no_nul s -> c_str s = s.
Proof. induction s as [|c s IH]; [reflexivity|]. intros (N & H). cbn [c_str]. destruct (Ascii.eqb_spec c (ascii_of_nat 0)); [contradiction|]. rewrite (IH H). reflexivity. Qed.
Lemma aget_app_new (k : string) (v : string) : forall t n, aget n (t ++ [(k, v)]) = match aget n t with Some x => Some x | None => if String.eqb n k then Some v else None end.
Proof. induction t as [|(a, b) t IH]; intros n; cbn; [reflexivity|]. destruct (String.eqb n a); [reflexivity|apply IH]. Qed.
Lemma aget_del (k : string) : forall (t : images) n, aget n (filter (fun r => negb (String.eqb (fst r) k)) t) = if String.eqb n k then None else aget n t.
Proof.
  induction t as [|(a, b) t IH]; intros n; cbn [filter aget fst]; [destruct (String.eqb n k); reflexivity|].
  destruct (String.eqb a k) eqn:Qa; cbn [negb aget]; rewrite IH.
  - apply String.eqb_eq in Qa. subst a. destruct (String.eqb n k); reflexivity.
  - destruct (String.eqb n a) eqn:Qn; [|reflexivity]. apply String.eqb_eq in Qn. subst n. rewrite Qa. reflexivity.
Qed.
Lemma table_names : forall h, Forall plain h ->
  Forall (fun r => no_nul (fst r) /\ no_nul (snd r)) (names_after h) /\ NoDup (map fst (names_after h)) /\ forall n, aget n (names_after h) = last_file n h.
Proof.
  assert (Del : forall k t, Forall (fun r : string * string => no_nul (fst r) /\ no_nul (snd r)) t -> NoDup (map fst t) ->
    let t' := filter (fun r : string * string => negb (String.eqb (fst r) k)) t in Forall (fun r => no_nul (fst r) /\ no_nul (snd r)) t' /\ NoDup (map fst t') /\ ~ In k (map fst t')).
  { intros k t P N t'. split; [|split].
    - apply Forall_forall. intros r I1. apply filter_In in I1. rewrite Forall_forall in P. apply P. exact (proj1 I1).
    - clear P. subst t'. induction t as [|(a, b) t IH]; [constructor|]. cbn [map fst] in N. inversion N as [|x l N1 N2]; subst. cbn [filter fst]. destruct (negb (String.eqb a k)); [|exact (IH N2)].
      cbn [map fst]. constructor; [|exact (IH N2)]. intros I1. apply N1. apply in_map_iff in I1. destruct I1 as (r & <- & I1). apply filter_In in I1. apply in_map. exact (proj1 I1).
    - intros I1. apply in_map_iff in I1. destruct I1 as (r & <- & I1). apply filter_In in I1. destruct I1 as (_ & Q). rewrite String.eqb_refl in Q. discriminate. }
  induction h as [|w h IH]; intros F; [split; [constructor|split; [constructor|reflexivity]]|]. inversion F as [|a b F1 F2]; subst. destruct (IH F2) as (P & N & A).
  destruct w as [n f|n]; cbn [names_after nrun last_file]; unfold store_name, del_name, bind_text.
  - destruct F1 as (Pn & Pf). rewrite (c_str_plain n Pn), (c_str_plain f Pf). destruct (Del n _ P N) as (P' & N' & X). split; [|split].
    + apply Forall_app. split; [exact P'|constructor; [split; assumption|constructor]].
    + rewrite map_app. cbn [map fst]. apply NoDup_rev in N'. rewrite <- (rev_involutive (map fst _ ++ _)). apply NoDup_rev. rewrite rev_app_distr. cbn. constructor; [|exact N']. rewrite <- in_rev. exact X.
    + intros m. rewrite aget_app_new, aget_del, (A m). destruct (string_dec m n) as [->|Nm]; [rewrite String.eqb_refl; reflexivity|]. destruct (String.eqb_spec m n); [contradiction|]. destruct (last_file m h); reflexivity.
  - cbn in F1. rewrite (c_str_plain n F1). destruct (Del n _ P N) as (P' & N' & X). split; [exact P'|split; [exact N'|]]. intros m. rewrite aget_del, (A m).
    destruct (string_dec m n) as [->|Nm]; [rewrite String.eqb_refl; reflexivity|]. destruct (String.eqb_spec m n); [contradiction|reflexivity].
Qed.
Lemma aget_in_fst : forall (t : images) n, In n (map fst t) <-> aget n t <> None.
Proof.
  induction t as [|(a, b) t IH]; intros n; cbn [map fst aget]; [split; [intros []|congruence]|]. destruct (String.eqb_spec n a) as [->|N]; [split; [discriminate|left; reflexivity]|].
  rewrite <- IH. split; [intros [Q|Q]; [congruence|exact Q]|intros Q; right; exact Q].
Qed.
Lemma aget_plain : forall (t : images) n f, Forall (fun r => no_nul (fst r) /\ no_nul (snd r)) t -> aget n t = Some f -> no_nul f.
Proof.
  induction t as [|(a, b) t IH]; intros n f F H; [discriminate|]. inversion F as [|x l F1 F2]; subst. cbn in H. destruct (String.eqb n a); [injection H as <-; exact (proj2 F1)|exact (IH n f F2 H)].
Qed.
Theorem C193_partial : C193_statement plain no_nul.
Proof.
  intros h F. destruct (table_names h F) as (P & N & A).
  assert (M : all_names (names_after h) = map fst (names_after h)).
  { unfold all_names, col_str. apply map_ext_in. intros r I1. rewrite Forall_forall in P. apply c_str_plain. exact (proj1 (P r I1)). }
  split; [|split].
  - intros n Hn. unfold get_name, bind_text, col_str. rewrite (c_str_plain n Hn), (A n). destruct (last_file n h) as [f|] eqn:Q; [|reflexivity]. apply c_str_plain. apply (aget_plain _ n f P). rewrite (A n). exact Q.
  - rewrite M. exact N.
  - intros n _. rewrite M, aget_in_fst, (A n). reflexivity.
Qed.
Print Assumptions C193_partial.
(** False for names with NUL bytes: two targets share one entry, and deleting one deletes the other's. *)
Definition nul : ascii := ascii_of_nat 0.
Theorem C193_refuted : ~ C193_statement (fun _ => True) (fun _ => True).
Proof.
  intros H. destruct (H [NDelete (String "f" (String nul "b")); NStore (String "f" (String nul "a")) "file"] (Forall_cons _ I (Forall_cons _ I (Forall_nil _)))) as (A & _).
  specialize (A (String "f" (String nul "a")) I). discriminate A.
Qed.
Print Assumptions C193_refuted.
Example C193_example : let h := [NStore "a" "3"; NDelete "b"; NStore "b" "2"; NStore "a" "1"] in
  Forall plain h /\ get_name "a" (names_after h) = "3" /\ get_name "b" (names_after h) = "" /\ all_names (names_after h) = ["a"].
Proof. cbv zeta. split; [|repeat split; reflexivity]. repeat (apply Forall_cons; [repeat split; discriminate|]). apply Forall_nil. Qed.
