(** Proofs about configurations: texts, the INI parser on what is written, values. *)
From Verif Require Import Base TufModel DeployModel DeploySpec DeployProofs ConfModel ConfSpec GenProofs.

(** ** Texts *)
Lemma split_line p s : without nlc p -> split_nl (append p (String nlc s)) = p :: split_nl s.
Proof.
  induction p as [|c p IH]; intros H; [reflexivity|]. destruct H as [A B]. cbn [append split_nl]. rewrite (IH B).
  destruct (Ascii.eqb_spec c nlc); [congruence|reflexivity].
Qed.
Lemma cut_app c a b : without c a -> cut c (append a (String c b)) = Some (a, b).
Proof.
  induction a as [|x a IH]; intros H; cbn [append cut]; [now rewrite Ascii.eqb_refl|]. destruct H as [A B]. rewrite (IH B).
  destruct (Ascii.eqb_spec x c); [congruence|reflexivity].
Qed.
Lemma trim_right_app a b : trim_right b <> "" -> trim_right (append a b) = append a (trim_right b).
Proof.
  intros N. induction a as [|c a IH]; [reflexivity|]. cbn [append trim_right]. rewrite IH.
  destruct (String.eqb_spec (append a (trim_right b)) "") as [E|]; [|reflexivity]. exfalso. destruct a; [cbn in E; congruence|discriminate E].
Qed.
Lemma without_app c a b : without c a -> without c b -> without c (append a b).
Proof. apply every_app. Qed.
(** A text that trimming does not change. *)
Definition tight (s : string) : Prop := s <> "" /\ trim_left s = s /\ trim_right s = s.
Lemma tight_app a b : tight a -> tight b -> forall m, tight (append a (append m b)).
Proof.
  intros (A1 & A2 & A3) (B1 & B2 & B3) m. split; [destruct a; [congruence|discriminate]|]. split.
  - destruct a as [|c a]; [congruence|]. cbn [trim_left append] in *. destruct (is_space c); [|reflexivity].
    exfalso. assert (L : forall x, (String.length (trim_left x) <= String.length x)%nat) by (induction x as [|y x IH]; cbn [trim_left]; [lia|destruct (is_space y); cbn [String.length]; lia]).
    pose proof (L a) as X. rewrite A2 in X. cbn [String.length] in X. lia.
  - assert (E : trim_right (append m b) = append m b) by (rewrite trim_right_app; rewrite B3; auto).
    rewrite trim_right_app; rewrite E; [reflexivity|]. destruct m; [exact B1|discriminate].
Qed.
Lemma trim_tight s : tight s -> trim s = s.
Proof. intros (_ & A & B). unfold trim. now rewrite B. Qed.
Lemma trim_after s : tight s -> trim (append s " ") = s.
Proof. intros (_ & A & B). unfold trim. rewrite trim_app by (cbn [every]; split; [left; reflexivity|exact Logic.I]). now rewrite B. Qed.
Lemma trim_before s : tight s -> trim (append " " s) = s.
Proof.
  intros (N & A & B). unfold trim. rewrite trim_right_app by (rewrite B; exact N). rewrite B. cbn [append trim_left]. exact A.
Qed.
Lemma nonspace_tight s : s <> "" -> every (fun c => is_space c = false) s -> tight s.
Proof.
  intros N H. split; [exact N|]. split.
  - destruct s as [|c s]; [reflexivity|]. destruct H as [H _]. cbn [trim_left]. now rewrite H.
  - clear N. induction s as [|c s IH]; [reflexivity|]. destruct H as [A B]. cbn [trim_right]. rewrite (IH B), A. now rewrite andb_false_r.
Qed.
Lemma quoted_tight s : tight (quoted s).
Proof.
  split; [discriminate|]. split; [reflexivity|]. unfold quoted. cbn [trim_right].
  rewrite trim_right_app by discriminate. change (trim_right (String dq "")) with (String dq "").
  destruct (append s (String dq "")) eqn:E; [destruct s; discriminate E|reflexivity].
Qed.

(** ** The parser on rendered sections *)
Definition clean_key (k : string) : Prop := tight k /\ without nlc k /\ without "=" k /\ match k with String c _ => c <> ";"%char /\ c <> "#"%char /\ c <> "["%char | _ => True end.
Definition clean_val (v : string) : Prop := tight v /\ without nlc v.
Lemma line_key i k v n l : clean_key k -> clean_val v -> i_cur i = Some (n, l) -> has k l = false ->
  ini_line i (append k (append " = " v)) = Some {| i_done := i_done i; i_cur := Some (n, l ++ [(k, v)]) |}.
Proof.
  intros (T & _ & Q & F) (V & _) C H. unfold ini_line. rewrite (trim_tight _ (tight_app k v T V " = ")).
  assert (CU : cut "=" (append k (append " = " v)) = Some (append k " ", append " " v)).
  { replace (append k (append " = " v)) with (append (append k " ") (String "=" (append " " v))) by (rewrite app_assoc; reflexivity).
    apply cut_app. apply without_app; [exact Q|]. cbn [without every]. split; [discriminate|exact Logic.I]. }
  destruct k as [|c k]; [destruct T; congruence|]. destruct F as (F1 & F2 & F3). cbn [append] in *. rewrite CU.
  destruct (Ascii.eqb_spec c ";"); [congruence|]. destruct (Ascii.eqb_spec c "#"); [congruence|]. cbn [orb].
  destruct (Ascii.eqb_spec c "["); [congruence|]. rewrite C.
  change (String c (append k " ")) with (append (String c k) " "). rewrite (trim_after _ T).
  change (String " " v) with (append " " v). rewrite (trim_before v V), H. reflexivity.
Qed.
Lemma has_app {A} k (l : list (string * A)) k' v : has k (l ++ [(k', v)]) = has k l || String.eqb k k'.
Proof. unfold has. rewrite existsb_app. cbn [existsb fst]. now rewrite orb_false_r. Qed.
Lemma has_in {A} k (l : list (string * A)) : has k l = false <-> ~ In k (map fst l).
Proof.
  unfold has. split.
  - intros H I. apply in_map_iff in I. destruct I as (x & E & I). assert (X : existsb (fun x => String.eqb k (fst x)) l = true) by (apply existsb_exists; exists x; split; [exact I|rewrite E; apply String.eqb_refl]). congruence.
  - intros H. destruct (existsb (fun x => String.eqb k (fst x)) l) eqn:E; [|reflexivity]. apply existsb_exists in E. destruct E as (x & I & E). apply String.eqb_eq in E. exfalso. apply H. rewrite E. now apply in_map.
Qed.
Lemma lines_keys kv : forall i n l rest, Forall (fun x => clean_key (fst x) /\ clean_val (snd x)) kv -> NoDup (map fst kv) -> i_cur i = Some (n, l) -> (forall k, In k (map fst kv) -> ~ In k (map fst l)) ->
  ini_lines i (split_nl (append (fold_right (fun x t => append (show_line (fst x) (snd x)) t) "" kv) rest)) =
  ini_lines {| i_done := i_done i; i_cur := Some (n, l ++ kv) |} (split_nl rest).
Proof.
  induction kv as [|[k v] kv IH]; intros i n l rest F N C D.
  - cbn [fold_right append]. rewrite List.app_nil_r. destruct i as [d cu]. cbn in C. subst cu. reflexivity.
  - inversion F as [|? ? [Fk Fv] F']; subst. inversion N as [|? ? N1 N2]; subst. cbn [fold_right fst snd]. unfold show_line at 1.
    rewrite !app_assoc.
    replace (append k (append " = " (append v (append (String nlc "") (append (fold_right (fun x t => append (show_line (fst x) (snd x)) t) "" kv) rest)))))
      with (append (append k (append " = " v)) (String nlc (append (fold_right (fun x t => append (show_line (fst x) (snd x)) t) "" kv) rest)))
      by (rewrite !app_assoc; reflexivity).
    rewrite split_line.
    2:{ destruct Fk as (_ & W & _). destruct Fv as (_ & W'). apply without_app; [exact W|]. apply without_app; [|exact W']. cbn [without every]. repeat split; discriminate. }
    cbn [ini_lines]. rewrite (line_key i k v n l Fk Fv C).
    2:{ apply has_in. apply D. now left. }
    rewrite (IH {| i_done := i_done i; i_cur := Some (n, l ++ [(k, v)]) |} n (l ++ [(k, v)]) rest F' N2 eq_refl).
    + cbn [i_done]. rewrite <- List.app_assoc. reflexivity.
    + intros k' I. rewrite map_app. intros J. apply in_app_or in J. destruct J as [J|[<-|[]]]; [apply (D k'); [now right|exact J]|]. cbn in I. contradiction.
Qed.
Definition clean_name (n : string) : Prop := tight n /\ without nlc n /\ without "]" n.
Definition clean_section (s : string * list (string * string)) : Prop :=
  clean_name (fst s) /\ snd s <> [] /\ Forall (fun x => clean_key (fst x) /\ clean_val (snd x)) (snd s) /\ NoDup (map fst (snd s)).
Lemma line_section i n : clean_name n -> has n (ini_close i) = false ->
  ini_line i (append "[" (append n "]")) = Some {| i_done := ini_close i; i_cur := Some (n, []) |}.
Proof.
  intros (T & _ & Q) H. unfold ini_line.
  assert (TT : tight (append "[" (append n "]"))) by (apply tight_app; split; try discriminate; split; reflexivity).
  rewrite (trim_tight _ TT). cbn [append]. change (Ascii.eqb "[" ";" || Ascii.eqb "[" "#") with false. change (Ascii.eqb "[" "[") with true. cbv iota.
  rewrite (cut_app "]" n "" Q). rewrite (trim_tight _ T), H. reflexivity.
Qed.
Lemma lines_section i s rest : clean_section s -> has (fst s) (ini_close i) = false ->
  ini_lines i (split_nl (append (render_section s) rest)) = ini_lines {| i_done := ini_close i; i_cur := Some s |} (split_nl rest).
Proof.
  destruct s as [n kv]. intros (CN & NE & F & ND) H. cbn [fst snd] in *. unfold render_section. cbn [fst snd].
  replace (append (append (append "[" (append n (append "]" (String nlc "")))) (append (fold_right (fun x t => append (show_line (fst x) (snd x)) t) "" kv) (String nlc ""))) rest)
    with (append (append "[" (append n "]")) (String nlc (append (fold_right (fun x t => append (show_line (fst x) (snd x)) t) "" kv) (String nlc rest))))
    by (rewrite !app_assoc; reflexivity).
  rewrite split_line.
  2:{ destruct CN as (_ & W & _). apply without_app; [cbn [without every]; split; [discriminate|exact Logic.I]|]. apply without_app; [exact W|]. cbn [without every]. split; [discriminate|exact Logic.I]. }
  cbn [ini_lines]. rewrite (line_section i n CN H).
  rewrite (lines_keys kv {| i_done := ini_close i; i_cur := Some (n, []) |} n [] (String nlc rest) F ND eq_refl) by (intros k _ []). cbn [i_done app].
  change (String nlc rest) with (append "" (String nlc rest)). rewrite split_line by exact Logic.I. cbn [ini_lines]. reflexivity.
Qed.
Definition tree_of (l : list (string * list (string * string))) : tree := map (fun s => (fst s, Sect (snd s))) l.
Lemma read_render_from l : forall i, Forall clean_section l -> NoDup (map fst l) -> (forall n, In n (map fst l) -> ~ In n (map fst (ini_close i))) ->
  match ini_lines i (split_nl (render l)) with Some i' => Some (ini_close i') | None => None end = Some (ini_close i ++ tree_of l).
Proof.
  induction l as [|s l IH]; intros i F N D.
  - cbn. now rewrite List.app_nil_r.
  - inversion F as [|? ? Fs F']; subst. inversion N as [|? ? N1 N2]; subst. cbn [render fold_right]. change (fold_right (fun s0 t => append (render_section s0) t) "" l) with (render l).
    rewrite lines_section; [|exact Fs|apply has_in; apply D; now left].
    assert (C : ini_close {| i_done := ini_close i; i_cur := Some s |} = ini_close i ++ [(fst s, Sect (snd s))]).
    { destruct s as [n kv]. destruct Fs as (_ & NE & _). unfold ini_close at 1. cbn [i_cur i_done snd fst] in *. destruct kv; [congruence|reflexivity]. }
    rewrite IH; [|exact F'|exact N2|].
    + rewrite C, <- List.app_assoc. reflexivity.
    + intros n I. rewrite C, map_app. intros J. apply in_app_or in J. destruct J as [J|[<-|[]]]; [apply (D n); [now right|exact J]|]. cbn in I. contradiction.
Qed.
Theorem read_render l : Forall clean_section l -> NoDup (map fst l) -> read_ini (render l) = Some (tree_of l).
Proof. intros F N. unfold read_ini. rewrite read_render_from; auto. Qed.
Lemma subtree_of n l kv : NoDup (map fst l) -> In (n, kv) l -> subtree n (tree_of l) = kv.
Proof.
  intros N I. unfold subtree. assert (E : aget n (tree_of l) = Some (Sect kv)); [|now rewrite E].
  induction l as [|[n' kv'] l IH]; [destruct I|]. cbn [tree_of map fst snd aget] in *. inversion N; subst. destruct I as [I|I].
  - inversion I; subst. now rewrite String.eqb_refl.
  - destruct (String.eqb_spec n n') as [->|]; [exfalso; apply H1; apply (in_map fst) in I; exact I|]. now apply IH.
Qed.
