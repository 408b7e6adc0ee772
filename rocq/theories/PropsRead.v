(** C199: an image is read piece by piece. *)
From Coq Require Import Ascii.
From Verif Require Import Base ReadModel.
Local Open Scope list_scope.

Definition size_ok (n : Z) : Prop := 0 < n < 2 ^ 63.
(** The full property: a program that reads until it is given nothing has the whole image, whatever the sizes of its buffers. *)
Definition C199_statement : Prop :=
  forall content fails sizes h ps, Forall size_ok sizes -> read_all (open_stored_target true (Some content) fails) sizes = (h, ps) ->
    In [] ps -> List.concat ps = content.

Definition total (sizes : list Z) : Z := fold_right Z.add 0 sizes.

Lemma firstn_firstn_skipn (A : Type) (l : list A) : forall a b, firstn a l ++ firstn b (skipn a l) = firstn (a + b) l.
Proof. induction l as [|x l IH]; intros [|a] b; cbn; try reflexivity; [now rewrite firstn_nil|]. now rewrite IH. Qed.
Lemma streamsize_ok n : size_ok n -> to_streamsize n = n.
Proof. unfold size_ok, to_streamsize. intros [A B]. now rewrite (proj2 (Z.ltb_lt _ _) B). Qed.
Lemma total_nonneg sizes : Forall size_ok sizes -> 0 <= total sizes.
Proof. induction 1 as [|n l (A & B) F IH]; [cbn; lia|]. change (total (n :: l)) with (n + total l). lia. Qed.

(** A disk that works. *)
Lemma ended sizes : forall rest f, exists h ps, read_all (Some {| h_rest := rest; h_good := false; h_fails := f |}) sizes = (h, ps) /\ List.concat ps = [] /\ Forall (fun p => p = []) ps.
Proof.
  induction sizes as [|n r IH]; intros rest f; [exists (Some {| h_rest := rest; h_good := false; h_fails := f |}), []; repeat split; constructor|].
  cbn [read_all read_stored_target stream_read h_good negb]. destruct (IH rest f) as (h & ps & E & C & F). rewrite E. exists h, ([] :: ps).
  repeat split; [exact C|constructor; [reflexivity|exact F]].
Qed.
Lemma read_works sizes : Forall size_ok sizes -> forall rest h ps, read_all (Some {| h_rest := rest; h_good := true; h_fails := None |}) sizes = (h, ps) ->
  List.concat ps = firstn (Z.to_nat (total sizes)) rest /\ Forall2 (fun n p => (List.length p <= Z.to_nat n)%nat) sizes ps /\ (In [] ps -> List.concat ps = rest).
Proof.
  induction 1 as [|n r N F IH]; intros rest h ps E; [injection E as <- <-; repeat split; [constructor|intros []]|].
  cbn [read_all read_stored_target] in E. rewrite (streamsize_ok n N) in E. unfold stream_read in E. cbn [h_good h_rest h_fails negb] in E.
  destruct N as [N1 N2]. rewrite (proj2 (Z.ltb_ge n 0)) in E by lia. pose proof (total_nonneg r F) as T.
  change (total (n :: r)) with (n + total r).
  destruct (n <=? Z.of_nat (List.length rest)) eqn:L.
  - apply Z.leb_le in L. rewrite (Z.min_l n _ L) in E.
    destruct (read_all (Some {| h_rest := skipn (Z.to_nat n) rest; h_good := true; h_fails := None |}) r) as [h2 ps2] eqn:R. injection E as <- <-.
    destruct (IH _ _ _ R) as (A & B & C). cbn [List.concat]. rewrite A, firstn_firstn_skipn. rewrite Z2Nat.inj_add by lia. split; [reflexivity|].
    split; [constructor; [apply firstn_le_length|exact B]|]. intros [X | X].
    + exfalso. apply (f_equal (@List.length ascii)) in X. rewrite firstn_length in X. cbn in X. lia.
    + rewrite <- firstn_firstn_skipn. rewrite <- A, (C X). apply firstn_skipn.
  - apply Z.leb_gt in L. rewrite Z.min_r in E by lia. rewrite Nat2Z.id in E.
    destruct (ended r (skipn (List.length rest) rest) None) as (h2 & ps2 & R & CN & _). rewrite R in E. injection E as <- <-.
    assert (X : List.concat (firstn (List.length rest) rest :: ps2) = rest) by (cbn [List.concat]; rewrite CN, app_nil_r; apply firstn_all).
    rewrite X. split; [symmetry; apply firstn_all2; lia|]. split; [|auto]. constructor; [rewrite firstn_all; lia|].
    clear - R. revert h2 ps2 R. generalize (skipn (List.length rest) rest) as q. intros q. induction r as [|m r IH]; intros h2 ps2 R; [injection R as <- <-; constructor|].
    cbn [read_all read_stored_target stream_read h_good negb] in R. destruct (read_all (Some {| h_rest := q; h_good := false; h_fails := None |}) r) as [h3 ps3] eqn:R3.
    injection R as <- <-. constructor; [cbn; lia|]. now apply (IH h3).
Qed.

(** While the disk works, the pieces put together are the beginning of the image, as much of it as was asked for; no piece is longer than
    its buffer; and the full property holds. *)
Theorem C199_works_partial :
  forall content sizes h ps, Forall size_ok sizes -> read_all (open_stored_target true (Some content) None) sizes = (h, ps) ->
    List.concat ps = firstn (Z.to_nat (total sizes)) content /\
    Forall2 (fun n p => (List.length p <= Z.to_nat n)%nat) sizes ps /\
    (In [] ps -> List.concat ps = content).
Proof. intros content sizes h ps F E. exact (read_works sizes F content h ps E). Qed.

(** Whatever the disk does, what was read is a beginning of the image. *)
Theorem C199_beginning_partial :
  forall content fails sizes h ps, Forall size_ok sizes -> read_all (open_stored_target true (Some content) fails) sizes = (h, ps) ->
    exists tail, content = List.concat ps ++ tail.
Proof.
  intros content fails sizes h ps F E. cbn [open_stored_target] in E. revert content fails h ps E.
  induction F as [|n r N F IH]; intros rest f h ps E; [injection E as <- <-; exists rest; reflexivity|].
  cbn [read_all read_stored_target] in E. rewrite (streamsize_ok n N) in E. unfold stream_read in E. cbn [h_good h_rest h_fails negb] in E.
  destruct N as [N1 N2]. rewrite (proj2 (Z.ltb_ge n 0)) in E by lia.
  destruct (match f with Some f0 => Nat.ltb f0 (Z.to_nat (Z.min n (Z.of_nat (List.length rest)))) | None => false end).
  - destruct (ended r rest f) as (h2 & ps2 & R & CN & _). rewrite R in E. injection E as <- <-. exists rest. cbn [List.concat List.app]. now rewrite CN.
  - set (k := Z.to_nat (Z.min n (Z.of_nat (List.length rest)))) in *. destruct (n <=? Z.of_nat (List.length rest)).
    + match type of E with context [read_all ?s r] => destruct (read_all s r) as [h2 ps2] eqn:R end. injection E as <- <-.
      destruct (IH _ _ _ _ R) as (t & Q). exists t. cbn [List.concat]. rewrite <- app_assoc, <- Q. symmetry. apply firstn_skipn.
    + match type of E with context [read_all (Some {| h_rest := ?q; h_good := false; h_fails := ?g |}) r] => destruct (ended r q g) as (h2 & ps2 & R & CN & _) end.
      rewrite R in E. injection E as <- <-. exists (skipn k rest). cbn [List.concat]. rewrite CN, app_nil_r. symmetry. apply firstn_skipn.
Qed.

(** A disk that fails looks to the program like the end of the image. *)
Theorem C199_refuted : ~ C199_statement.
Proof.
  intros S. assert (F : Forall size_ok [1; 1]) by (repeat constructor).
  specialize (S ["a"%char; "b"%char] (Some 1%nat) [1; 1] _ _ F eq_refl). cbn in S. specialize (S (or_intror (or_introl eq_refl))). discriminate.
Qed.

(** Without a handle, or without a buffer, nothing is read; a handle is given exactly if there is a target and its file can be opened. *)
Theorem C199_arguments_partial :
  (forall buf n, read_stored_target None buf n = (None, [])) /\ (forall h n, read_stored_target h false n = (h, [])) /\
  (forall t f e, (exists h, open_stored_target t f e = Some h) <-> t = true /\ exists c, f = Some c).
Proof.
  split; [reflexivity|]. split; [now intros [h|] n|]. intros t f e. unfold open_stored_target. destruct t; [|split; [intros (h & H); discriminate|intros (H & _); discriminate]].
  destruct f as [c|]; split; [eauto|eauto|intros (h & H); discriminate|intros (_ & c & H); discriminate].
Qed.

Example in_three : snd (read_all (open_stored_target true (Some ["i"; "m"; "a"; "g"; "e"]%char) None) [2; 2; 2; 2]) = [["i"; "m"]; ["a"; "g"]; ["e"]; []]%char.
Proof. reflexivity. Qed.
Example exactly : snd (read_all (open_stored_target true (Some ["i"; "m"; "a"; "g"]%char) None) [2; 2; 2]) = [["i"; "m"]; ["a"; "g"]; []]%char.
Proof. reflexivity. Qed.

Print Assumptions C199_works_partial.
Print Assumptions C199_beginning_partial.
Print Assumptions C199_refuted.
Print Assumptions C199_arguments_partial.
