(** Changing JSON values keeps them plain. *)
From Verif Require Import Base Json TufModel TufSpec TufProofs MetaStore RepoModel RepoSpec GenModel GenSpec.

(** ** Order of names *)
Lemma str_ltb_trans : forall a b c, str_ltb a b = true -> str_ltb b c = true -> str_ltb a c = true.
Proof.
  induction a as [|x a IH]; intros [|y b] [|z c]; cbn [str_ltb]; try discriminate; auto.
  destruct (Nat.ltb_spec (nat_of_ascii x) (nat_of_ascii y)) as [L1|L1].
  - intros _. destruct (Nat.ltb_spec (nat_of_ascii y) (nat_of_ascii z)) as [L2|L2].
    + intros _. destruct (Nat.ltb_spec (nat_of_ascii x) (nat_of_ascii z)); [auto|lia].
    + destruct (Nat.eqb_spec (nat_of_ascii y) (nat_of_ascii z)) as [e|]; [|discriminate]. intros _. destruct (Nat.ltb_spec (nat_of_ascii x) (nat_of_ascii z)); [auto|lia].
  - destruct (Nat.eqb_spec (nat_of_ascii x) (nat_of_ascii y)) as [e|]; [|discriminate]. rewrite e. intros P.
    destruct (Nat.ltb_spec (nat_of_ascii y) (nat_of_ascii z)) as [L2|L2]; [auto|]. destruct (Nat.eqb_spec (nat_of_ascii y) (nat_of_ascii z)); [eauto|discriminate].
Qed.
Lemma str_ltb_irr : forall a, str_ltb a a = false.
Proof. induction a as [|x a IH]; cbn [str_ltb]; auto. now rewrite Nat.ltb_irrefl, Nat.eqb_refl. Qed.
Lemma str_ltb_total : forall a b, a <> b -> str_ltb a b = false -> str_ltb b a = true.
Proof.
  induction a as [|x a IH]; intros [|y b] N; cbn [str_ltb]; try congruence; try discriminate; auto.
  destruct (Nat.ltb_spec (nat_of_ascii x) (nat_of_ascii y)), (Nat.ltb_spec (nat_of_ascii y) (nat_of_ascii x)); try discriminate; try lia; auto.
  assert (e : nat_of_ascii x = nat_of_ascii y) by lia. rewrite e, Nat.eqb_refl.
  assert (x = y) as -> by (rewrite <- (ascii_nat_embedding x), <- (ascii_nat_embedding y); now rewrite e).
  apply IH. congruence.
Qed.
Definition above (k : string) (l : list (string * json)) : Prop := forall k' v, In (k', v) l -> str_ltb k k' = true.
Lemma increasing_cons k v l : increasing ((k, v) :: l) = true <-> above k l /\ increasing l = true.
Proof.
  revert k v. induction l as [|(k1, v1) l IH]; intros k v.
  - split; [intros _; split; [intros ? ? []|reflexivity]|reflexivity].
  - change (increasing ((k, v) :: (k1, v1) :: l)) with (str_ltb k k1 && increasing ((k1, v1) :: l)). rewrite andb_true_iff. split.
    + intros (A & B). split; [|exact B]. apply IH in B as (C & _). intros k' v' [H|H]; [congruence|]. eapply str_ltb_trans; [exact A|]. eapply C; eauto.
    + intros (A & B). split; [eapply A; left; reflexivity|exact B].
Qed.
Lemma increasing_nodup l : increasing l = true -> NoDup (map fst l).
Proof.
  induction l as [|(k, v) l IH]; [constructor|]. rewrite increasing_cons. intros (A & B). cbn. constructor; auto.
  intros H. apply in_map_iff in H as ((k', v') & e & H). cbn in e. subst. apply A in H. now rewrite str_ltb_irr in H.
Qed.
Lemma in_oput k v l p : In p (oput k v l) -> p = (k, v) \/ In p l.
Proof.
  induction l as [|(k1, v1) l IH]; cbn; [intuition|]. destruct (String.eqb_spec k k1) as [->|]; cbn; [intuition|]. destruct (str_ltb k k1); cbn; intuition.
Qed.
Lemma oput_increasing k v l : increasing l = true -> increasing (oput k v l) = true.
Proof.
  induction l as [|(k1, v1) l IH]; [reflexivity|]. intros H. pose proof H as H0. rewrite increasing_cons in H. destruct H as (A & B). cbn.
  destruct (String.eqb_spec k k1) as [->|N]; [apply increasing_cons; auto|]. destruct (str_ltb k k1) eqn:L.
  - apply increasing_cons. split; [|exact H0]. intros k' v' [e|i]; [congruence|]. eapply str_ltb_trans; [exact L|]. eapply A; eauto.
  - apply increasing_cons. split; [|auto]. intros k' v' i. apply in_oput in i as [i|i]; [|eapply A; eauto]. injection i as -> ->. now apply str_ltb_total.
Qed.
Lemma filter_increasing f l : increasing l = true -> increasing (filter f l) = true.
Proof.
  induction l as [|(k, v) l IH]; [reflexivity|]. rewrite increasing_cons. intros (A & B). cbn. destruct (f (k, v)); auto. apply increasing_cons. split; auto.
  intros k' v' i. apply filter_In in i. eapply A, i.
Qed.

(** ** Members *)
Lemma aget_oput k v l : aget k (oput k v l) = Some v.
Proof.
  induction l as [|(k1, v1) l IH]; cbn; [now rewrite String.eqb_refl|]. destruct (String.eqb_spec k k1) as [->|N]; cbn; [now rewrite String.eqb_refl|].
  destruct (str_ltb k k1); cbn; [now rewrite String.eqb_refl|]. apply String.eqb_neq in N. now rewrite N.
Qed.
Lemma aget_oput_other k k' v l : k' <> k -> aget k' (oput k v l) = aget k' l.
Proof.
  intros N. induction l as [|(k1, v1) l IH]; cbn; [apply String.eqb_neq in N; now rewrite N|]. destruct (String.eqb_spec k k1) as [->|N1]; cbn.
  - apply String.eqb_neq in N. now rewrite N.
  - destruct (str_ltb k k1); cbn; [apply String.eqb_neq in N; now rewrite N|]. destruct (String.eqb k' k1); auto.
Qed.
Lemma aget_in {A} k (l : list (string * A)) v : aget k l = Some v -> In (k, v) l.
Proof. induction l as [|(k1, v1) l IH]; [discriminate|]. cbn. destruct (String.eqb_spec k k1) as [->|]; [intros H; injection H as ->; now left|right; auto]. Qed.
Lemma in_aget {A} k (l : list (string * A)) v : NoDup (map fst l) -> In (k, v) l -> aget k l = Some v.
Proof.
  induction l as [|(k1, v1) l IH]; [intros _ []|]. cbn. intros H. inversion H as [|? ? N D]; subst. intros [e|i].
  - injection e as -> ->. now rewrite String.eqb_refl.
  - destruct (String.eqb_spec k k1) as [->|]; auto. exfalso. apply N. apply (in_map fst) in i. exact i.
Qed.
Lemma aget_odel k k' l : aget k' (odel k l) = if String.eqb k' k then None else aget k' l.
Proof.
  unfold odel. induction l as [|(k1, v1) l IH]; cbn [filter fst aget]; [now destruct (String.eqb k' k)|]. destruct (String.eqb_spec k1 k) as [->|N]; cbn [negb].
  - rewrite IH. now destruct (String.eqb_spec k' k).
  - cbn [aget]. rewrite IH. destruct (String.eqb_spec k' k1) as [->|]; auto. apply String.eqb_neq in N. now rewrite N.
Qed.

(** ** Plain values *)
Lemma plain_obj l : plain (JObj l) = true <-> increasing l = true /\ forall k v, In (k, v) l -> ascii_text k = true /\ plain v = true.
Proof.
  cbn [plain]. rewrite andb_true_iff, forallb_forall. split; intros (A & B); split; auto.
  - intros k v i. apply B in i. cbn in i. now apply andb_true_iff in i.
  - intros (k, v) i. cbn. apply andb_true_iff. auto.
Qed.
Lemma plain_arr l : plain (JArr l) = true <-> forall v, In v l -> plain v = true.
Proof. cbn [plain]. now rewrite forallb_forall. Qed.
Lemma plain_jget k j v : plain j = true -> jget k j = Ok v -> plain v = true.
Proof.
  intros P. destruct j; cbn [jget]; try discriminate; [intros H; now injection H as <-|]. apply plain_obj in P as (_ & P).
  destruct (aget k l) as [x|] eqn:A; intros H; injection H as <-; [|reflexivity]. apply aget_in in A. now apply P in A.
Qed.
Lemma plain_jset k v j j' : ascii_text k = true -> plain v = true -> plain j = true -> jset k v j = Ok j' -> plain j' = true.
Proof.
  intros Pk Pv P. destruct j; cbn [jset]; try discriminate; intros H; injection H as <-.
  - apply plain_obj. split; [reflexivity|]. intros k' v' [e|[]]. injection e as <- <-. auto.
  - apply plain_obj in P as (A & B). apply plain_obj. split; [now apply oput_increasing|]. intros k' v' i. apply in_oput in i as [i|i]; [injection i as -> ->; auto|eauto].
Qed.
Lemma plain_jmod k f j j' : ascii_text k = true -> plain j = true -> (forall x y, plain x = true -> f x = Ok y -> plain y = true) -> jmod k f j = Ok j' -> plain j' = true.
Proof.
  unfold jmod. intros Pk P F H. apply bind_ok in H as (x & A & H). apply bind_ok in H as (y & B & H). refine (plain_jset k y j j' Pk _ P H). eapply F; [|exact B]. eapply plain_jget; eauto.
Qed.
Lemma plain_jremove k j j' : plain j = true -> jremove k j = Ok j' -> plain j' = true.
Proof.
  intros P. destruct j; cbn [jremove]; try discriminate; intros H; injection H as <-; auto. apply plain_obj in P as (A & B). apply plain_obj.
  split; [now apply filter_increasing|]. intros k' v' i. apply filter_In in i. apply B, i.
Qed.
Lemma plain_jappend v j j' : plain v = true -> plain j = true -> jappend v j = Ok j' -> plain j' = true.
Proof.
  intros Pv P. destruct j; cbn [jappend]; try discriminate; intros H; injection H as <-.
  - cbn. now rewrite Pv.
  - apply plain_arr. rewrite plain_arr in P. intros x i. apply in_app_or in i as [i|[<-|[]]]; auto.
Qed.
Lemma plain_jset0 v j j' : plain v = true -> plain j = true -> jset0 v j = Ok j' -> plain j' = true.
Proof.
  intros Pv P. destruct j as [| | | | |[|x l]|]; cbn [jset0]; try discriminate; intros H; injection H as <-; cbn in *; try now rewrite Pv.
  apply andb_true_iff in P as (_ & P). now rewrite Pv.
Qed.
Lemma plain_int z : 0 <= z <= max_uint64 -> plain (JInt z) = true.
Proof. intros H. cbn. unfold min_int64, max_uint64 in *. apply andb_true_iff. split; apply Z.leb_le; lia. Qed.
Lemma plain_index l : (forall v, In v l -> plain v = true) -> forall i k v, In (k, v) (index_from i l) -> plain v = true.
Proof. induction l as [|x l IH]; intros P i k v; [intros []|]. cbn. intros [e|H]; [injection e as <- <-; apply P; now left|]. eapply IH; eauto. intros y Hy. apply P. now right. Qed.
Lemma plain_iter j k v : plain j = true -> In (k, v) (jiter j) -> plain v = true.
Proof.
  intros P. destruct j; cbn [jiter]; try (intros []; fail).
  - apply plain_index. now apply plain_arr.
  - apply plain_obj in P as (_ & P). intros H. now apply P in H.
Qed.
Lemma plain_string j s : plain j = true -> jas_string j = Ok s -> ascii_text s = true.
Proof.
  destruct j; cbn [plain jas_string]; try discriminate.
  - intros _ H. now injection H as <-.
  - intros _ H. injection H as <-. now destruct b.
  - intros _ H. injection H as <-. clear.
    assert (D : forall fuel n acc, ascii_text acc = true -> ascii_text (dec_digits fuel n acc) = true).
    { assert (C : forall n, ascii_text (String (digit_ascii (n mod 10)) "") = true).
      { intros n. pose proof (Z.mod_pos_bound n 10 ltac:(lia)) as B. assert (n mod 10 = 0 \/ n mod 10 = 1 \/ n mod 10 = 2 \/ n mod 10 = 3 \/ n mod 10 = 4 \/ n mod 10 = 5 \/
        n mod 10 = 6 \/ n mod 10 = 7 \/ n mod 10 = 8 \/ n mod 10 = 9) as D by lia. intuition (match goal with h : _ = _ |- _ => rewrite h end); reflexivity. }
      assert (C' : forall n acc, ascii_text acc = true -> ascii_text (String (digit_ascii (n mod 10)) acc) = true).
      { intros n acc A. specialize (C n). cbn [ascii_text] in *. now rewrite A. }
      induction fuel as [|f IH]; intros n acc A; [exact A|]. cbn [dec_digits]. destruct (n / 10 =? 0); [auto|]. apply IH. auto. }
    unfold to_dec, dec_nonneg. destruct (z <? 0); [|apply D; reflexivity]. change (ascii_text (String "-" (dec_digits (S (Z.to_nat (Z.log2 (- z)))) (- z) ""))) with
      (ascii_text (dec_digits (S (Z.to_nat (Z.log2 (- z)))) (- z) "")). apply D. reflexivity.
  - intros P H. now injection H as <-.
Qed.
Lemma ascii_append a b : ascii_text (append a b) = ascii_text a && ascii_text b.
Proof. induction a as [|c a IH]; cbn; [reflexivity|]. now rewrite IH, andb_assoc. Qed.
Lemma ascii_lower s : ascii_text s = true -> ascii_text (to_lower s) = true.
Proof.
  induction s as [|c s IH]; [reflexivity|]. change (to_lower (String c s)) with (String (lower_ascii c) (to_lower s)). cbn [ascii_text]. rewrite !andb_true_iff. intros ((A & B) & C).
  apply Nat.leb_le in A, B. unfold lower_ascii. destruct (Nat.leb_spec 65 (nat_of_ascii c)), (Nat.leb_spec (nat_of_ascii c) 90); cbn [andb];
    (split; [split; apply Nat.leb_le; try rewrite nat_ascii_embedding; lia|auto]).
Qed.
Lemma upper_lower s : to_upper (to_lower s) = to_upper s.
Proof.
  induction s as [|c s IH]; [reflexivity|]. change (to_upper (to_lower (String c s))) with (String (upper_ascii (lower_ascii c)) (to_upper (to_lower s))).
  change (to_upper (String c s)) with (String (upper_ascii c) (to_upper s)). rewrite IH. f_equal. clear.
  destruct c as [[] [] [] [] [] [] [] []]; reflexivity.
Qed.
