(** More about matching targets (C15): lists of targets, the text of a hash, OSTree images. *)
From Coq Require Import Ascii.
From Verif Require Import Base Json TufModel TufSpec TufProofs TufProofs2.

(** Two lists match exactly if they are of the same length and match one by one, in order. *)
Theorem C15_vectors a b : match_target_vector a b = true <-> Forall2 same_target a b.
Proof.
  revert b. induction a as [|x a IH]; intros [|y b]; cbn [match_target_vector]; split; intros H; try discriminate; try constructor; try (now inversion H).
  - apply andb_true_iff in H. now apply match_target_iff.
  - apply andb_true_iff in H. now apply IH.
  - inversion H; subst. apply andb_true_iff. split; [now apply match_target_iff|now apply IH].
Qed.
Print Assumptions C15_vectors.

Lemma lower_upper s : to_lower (to_upper s) = to_lower s.
Proof.
  induction s as [|c s IH]; [reflexivity|]. unfold to_lower, to_upper in *. cbn [map_string]. rewrite IH. f_equal.
  destruct c as [[] [] [] [] [] [] [] []]; reflexivity.
Qed.
(** The text of a hash of a target is that of its first hash of the type, in small letters however it was written; if there is none
    it is empty. *)
Theorem C15_hash_text t ty :
  (forall a v b, t_hashes t = a ++ mk_hash_t ty v :: b -> (forall h, In h a -> h_type h <> ty) -> hash_string t ty = to_lower v) /\
  ((forall h, In h (t_hashes t) -> h_type h <> ty) -> hash_string t ty = "").
Proof.
  assert (F : forall a, (forall h, In h a -> h_type h <> ty) -> forall b, find (fun h => htype_eqb (h_type h) ty) (a ++ b) = find (fun h => htype_eqb (h_type h) ty) b).
  { induction a as [|x a IH]; intros H b; [reflexivity|]. cbn [List.app find]. destruct (htype_eqb (h_type x) ty) eqn:E.
    - exfalso. apply (H x (or_introl eq_refl)). destruct (h_type x), ty; try discriminate; reflexivity.
    - apply IH. intros h I1. apply H. now right. }
  unfold hash_string. split.
  - intros a v b -> H. rewrite (F a H). cbn [find mk_hash_t h_type]. assert (htype_eqb ty ty = true) as -> by (destruct ty; reflexivity).
    cbn [h_val]. apply lower_upper.
  - intros H. pose proof (F _ H []) as E. rewrite app_nil_r in E. rewrite E. reflexivity.
Qed.
Print Assumptions C15_hash_text.

(** An image is an OSTree commit if its format says so; without a format, if it has no length; never otherwise. *)
Theorem C15_commit t : is_ostree t = true <-> t_type t = "OSTREE" \/ (t_type t = "" /\ t_length t = 0).
Proof.
  unfold is_ostree. destruct (String.eqb_spec (t_type t) "OSTREE") as [-> | N].
  - split; auto.
  - rewrite andb_true_iff, String.eqb_eq, Z.eqb_eq. tauto.
Qed.
Print Assumptions C15_commit.

Definition one (v : string) (n : Z) : target :=
  {| t_valid := true; t_filename := "app"; t_type := ""; t_ecus := []; t_hashes := [mk_hash_t Sha512 "cc"; mk_hash_t Sha256 v]; t_hwids := ["hw"];
     t_custom := JNull; t_length := n; t_corr := ""; t_uri := "" |}.
Example C15_vectors_case : Forall2 same_target [one "aB" 3; one "cD" 4] [one "Ab" 3; one "Cd" 4] /\ ~ Forall2 same_target [one "aB" 3] [one "aB" 3; one "cD" 4].
Proof. split; rewrite <- C15_vectors; [reflexivity|discriminate]. Qed.
Example C15_hash_text_case : hash_string (one "aB" 3) Sha256 = "ab" /\ hash_string (one "aB" 3) HUnknown = "".
Proof.
  destruct (C15_hash_text (one "aB" 3) Sha256) as [A _]. destruct (C15_hash_text (one "aB" 3) HUnknown) as [_ B]. split.
  - apply (A [mk_hash_t Sha512 "cc"] "aB" []); [reflexivity|]. intros h [<- | []]. discriminate.
  - apply B. intros h [<- | [<- | []]]; discriminate.
Qed.
Example C15_commit_case : is_ostree (one "aB" 0) = true /\ is_ostree (one "aB" 3) = false.
Proof. split; reflexivity. Qed.
