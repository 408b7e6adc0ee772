(** Proofs about configurations: values, members, the round trip. *)
From Verif Require Import Base TufModel DeployModel DeploySpec DeployProofs ConfModel ConfSpec ConfProofs GenProofs.

(** ** Values *)
Lemma strip_app a b : strip_quotes (append a b) = append (strip_quotes a) (strip_quotes b).
Proof. induction a as [|c a IH]; [reflexivity|]. cbn [append strip_quotes]. rewrite IH. destruct (Ascii.eqb c dq); reflexivity. Qed.
Lemma strip_id s : without dq s -> strip_quotes s = s.
Proof. induction s as [|c s IH]; [reflexivity|]. intros [A B]. cbn [strip_quotes]. rewrite (IH B). destruct (Ascii.eqb_spec c dq); [congruence|reflexivity]. Qed.
Lemma strip_quoted s : without dq s -> strip_quotes (quoted s) = s.
Proof. intros H. unfold quoted. cbn [strip_quotes]. change (Ascii.eqb dq dq) with true. cbv iota. rewrite strip_app, (strip_id s H). cbn. apply app_nil_r. Qed.
Lemma unquote_escape s rest : unquote (append (escape s) (String dq rest)) = Some (s, rest).
Proof.
  induction s as [|c s IH]; [reflexivity|]. cbn [escape]. destruct (Ascii.eqb c amp || Ascii.eqb c dq) eqn:E.
  - cbn [append unquote]. change (Ascii.eqb amp amp) with true. cbv iota. now rewrite IH.
  - apply orb_false_iff in E. destruct E as [E1 E2]. cbn [append unquote]. now rewrite E1, E2, IH.
Qed.
Lemma read_path_quoted s : read_path (quoted (escape s)) = Some s.
Proof.
  unfold read_path, quoted. cbn [trim_left]. change (is_space dq) with false. cbv iota. change (Ascii.eqb dq dq) with true. cbv iota zeta. now rewrite unquote_escape.
Qed.
Lemma escape_id s : without dq s -> without amp s -> escape s = s.
Proof.
  induction s as [|c s IH]; [reflexivity|]. intros [A B] [C D]. cbn [escape]. rewrite (IH B D). destruct (Ascii.eqb_spec c amp); [congruence|]. destruct (Ascii.eqb_spec c dq); [congruence|reflexivity].
Qed.
Lemma escape_without c s : c <> amp -> without c s -> without c (escape s).
Proof.
  intros N. induction s as [|a s IH]; [intros; exact Logic.I|]. intros [A B]. cbn [escape]. destruct (Ascii.eqb a amp || Ascii.eqb a dq); [split; [congruence|split; [exact A|exact (IH B)]]|split; [exact A|exact (IH B)]].
Qed.
(** Numbers. *)
Lemma digitv_digit d : 0 <= d <= 9 -> digitv (digit_ascii d) = Some d.
Proof.
  intros H. assert (d = 0 \/ d = 1 \/ d = 2 \/ d = 3 \/ d = 4 \/ d = 5 \/ d = 6 \/ d = 7 \/ d = 8 \/ d = 9) as Hd by lia.
  repeat (destruct Hd as [-> | Hd]; [reflexivity|]). now subst.
Qed.
Definition decimal (s : string) : Prop := every (fun c => exists d, 0 <= d <= 9 /\ c = digit_ascii d) s.
Lemma dec_decimal : forall f n acc, 0 <= n -> decimal acc -> decimal (dec_digits f n acc).
Proof.
  induction f as [|f IH]; intros n acc Hn A; [exact A|]. assert (Hm : 0 <= n mod 10 < 10) by (apply Z.mod_pos_bound; lia). cbn [dec_digits].
  assert (A' : decimal (String (digit_ascii (n mod 10)) acc)) by (split; [exists (n mod 10); split; [lia|reflexivity]|exact A]).
  destruct (n / 10 =? 0); [exact A'|]. apply IH; [apply Z.div_pos; lia|exact A'].
Qed.
Lemma digits_dec : forall f n acc, 0 <= n < 2 ^ Z.of_nat f -> (0 < f)%nat -> digits (dec_digits f n acc) 0 = digits acc n.
Proof.
  induction f as [|f IH]; intros n acc Hn Hf; [lia|].
  assert (Hm : 0 <= n mod 10 < 10) by (apply Z.mod_pos_bound; lia).
  pose proof (Z.div_mod n 10 ltac:(lia)) as Hdm. assert (0 <= n / 10) by (apply Z.div_pos; lia).
  cbn [dec_digits]. destruct (n / 10 =? 0) eqn:E.
  - apply Z.eqb_eq in E. cbn [digits]. rewrite digitv_digit by lia. f_equal. lia.
  - apply Z.eqb_neq in E. rewrite IH; cbn [digits].
    + rewrite digitv_digit by lia. f_equal. lia.
    + rewrite Nat2Z.inj_succ, Z.pow_succ_r in Hn by lia. lia.
    + destruct f; [simpl in Hn; lia|lia].
Qed.
Lemma dec_nonempty n : 0 <= n -> exists d s, 0 <= d <= 9 /\ dec_nonneg n = String (digit_ascii d) s.
Proof.
  intros H. assert (D : decimal (dec_nonneg n)) by (apply dec_decimal; [exact H|exact Logic.I]).
  assert (L : forall f m acc, dec_digits (S f) m acc <> "").
  { clear. induction f as [|f IH]; intros m acc; cbn [dec_digits]; [destruct (m / 10 =? 0); discriminate|]. destruct (m / 10 =? 0); [discriminate|]. apply IH. }
  destruct (dec_nonneg n) as [|c s] eqn:E; [exfalso; exact (L _ _ _ E)|]. destruct D as [(d & Hd & ->) _]. eauto.
Qed.
Lemma number_dec n : 0 <= n -> number (dec_nonneg n) = Some n.
Proof.
  intros H. destruct (dec_nonempty n H) as (d & s & Hd & E). unfold number. rewrite E. rewrite <- E. unfold dec_nonneg. rewrite digits_dec; [reflexivity| |lia].
  rewrite Nat2Z.inj_succ, Z2Nat.id by apply Z.log2_nonneg. destruct (Z.eq_dec n 0) as [->|]; [simpl; lia|]. pose proof (Z.log2_spec n ltac:(lia)). lia.
Qed.
Lemma digit_cases d : 0 <= d <= 9 -> digit_ascii d <> "-"%char /\ digit_ascii d <> "+"%char /\ is_space (digit_ascii d) = false /\ digit_ascii d <> nlc.
Proof.
  intros H. assert (d = 0 \/ d = 1 \/ d = 2 \/ d = 3 \/ d = 4 \/ d = 5 \/ d = 6 \/ d = 7 \/ d = 8 \/ d = 9) as Hd by lia.
  repeat (destruct Hd as [-> | Hd]; [repeat split; try discriminate; reflexivity|]). subst. repeat split; try discriminate; reflexivity.
Qed.
Lemma sign_cases {A} (c : ascii) (s : string) (x y z : A) : c <> "-"%char -> c <> "+"%char -> match String c s with String "-" _ => x | String "+" _ => y | _ => z end = z.
Proof. intros A1 A2. destruct c as [[] [] [] [] [] [] [] []]; try reflexivity; congruence. Qed.
Lemma read_int_dec lo hi z : lo <= z <= hi -> read_int lo hi (to_dec z) = Some z.
Proof.
  intros H. unfold to_dec. destruct (z <? 0) eqn:E.
  - apply Z.ltb_lt in E. cbn [read_int]. unfold read_int. rewrite number_dec by lia. cbn zeta. replace (- - z) with z by lia.
    replace (lo <=? z) with true by (symmetry; apply Z.leb_le; lia). replace (z <=? hi) with true by (symmetry; apply Z.leb_le; lia). reflexivity.
  - apply Z.ltb_ge in E. destruct (dec_nonempty z E) as (d & s & Hd & Es). destruct (digit_cases d Hd) as (N1 & N2 & _).
    pose proof (number_dec z E) as Nz. unfold read_int. rewrite Es in *.
    assert (X : match String (digit_ascii d) s with String "-" s' => match number s' with Some y => Some (- y) | None => None end | String "+" s' => number s' | _ => number (String (digit_ascii d) s) end = Some z).
    { destruct (digit_ascii d) as [[] [] [] [] [] [] [] []]; try exact Nz; congruence. }
    rewrite X. replace (lo <=? z) with true by (symmetry; apply Z.leb_le; lia). replace (z <=? hi) with true by (symmetry; apply Z.leb_le; lia). reflexivity.
Qed.
Lemma read_uint_dec z : 0 <= z < 2 ^ 64 -> read_uint (to_dec z) = Some z.
Proof.
  intros H. unfold to_dec. replace (z <? 0) with false by (symmetry; apply Z.ltb_ge; lia).
  destruct (dec_nonempty z ltac:(lia)) as (d & s & Hd & Es). destruct (digit_cases d Hd) as (N1 & N2 & _). pose proof (number_dec z ltac:(lia)) as Nz.
  unfold read_uint. rewrite Es in *.
  assert (L : (z <? two64) = true) by (apply Z.ltb_lt; unfold two64; lia).
  destruct (digit_ascii d) as [[] [] [] [] [] [] [] []]; try (rewrite Nz, L; reflexivity); congruence.
Qed.
Lemma to_dec_tight z : tight (to_dec z) /\ without nlc (to_dec z).
Proof.
  assert (D : forall n, 0 <= n -> decimal (dec_nonneg n)) by (intros n H; apply dec_decimal; [exact H|exact Logic.I]).
  assert (W : forall s, decimal s -> every (fun c => is_space c = false) s /\ without nlc s).
  { induction s as [|c s IH]; [auto|]. intros [(d & Hd & ->) B]. destruct (IH B) as [X Y]. destruct (digit_cases d Hd) as (_ & _ & Z1 & Z2). repeat split; auto. }
  unfold to_dec. destruct (z <? 0) eqn:E; [apply Z.ltb_lt in E|apply Z.ltb_ge in E].
  - destruct (W _ (D (- z) ltac:(lia))) as [X Y]. split; [apply nonspace_tight; [discriminate|split; [reflexivity|exact X]]|split; [discriminate|exact Y]].
  - destruct (W _ (D z E)) as [X Y]. split; [|exact Y]. apply nonspace_tight; [|exact X]. destruct (dec_nonempty z E) as (d & s & _ & ->). discriminate.
Qed.
Definition kind_ok (k : kind) : bool :=
  match k with KEnum names other => forallb (fun s => all_chars (fun c => negb (Ascii.eqb c dq) && negb (Ascii.eqb c nlc)) s) (other :: names) && negb (mem_str other names) | _ => true end.
Lemma all_chars_without c s (f : ascii -> bool) : (forall a, f a = true -> a <> c) -> all_chars f s = true -> without c s.
Proof. intros H. induction s as [|a s IH]; [intros; exact Logic.I|]. cbn [all_chars]. rewrite andb_true_iff. intros [A B]. split; [exact (H _ A)|exact (IH B)]. Qed.
Lemma enum_plain names other s : kind_ok (KEnum names other) = true -> In s names \/ s = other -> without dq s /\ without nlc s.
Proof.
  cbn [kind_ok]. rewrite andb_true_iff. intros [A _] I. rewrite forallb_forall in A. assert (J : In s (other :: names)) by (destruct I as [I| ->]; [now right|now left]).
  specialize (A s J). split; eapply all_chars_without; try exact A; intros a; rewrite andb_true_iff, !negb_true_iff; intros [X Y]; [apply Ascii.eqb_neq in X|apply Ascii.eqb_neq in Y]; assumption.
Qed.
Theorem read_show k v : kind_ok k = true -> typed k v -> kept k v -> read_value k (show_value k v) = Some v.
Proof.
  intros KO T K. destruct k; destruct v; cbn [typed kept] in *; try contradiction; cbn [read_value show_value].
  - now rewrite strip_quoted.
  - now rewrite read_path_quoted.
  - destruct K as [K1 K2]. rewrite escape_id, strip_quoted by assumption. reflexivity.
  - now rewrite read_int_dec.
  - now rewrite read_uint_dec.
  - destruct b; reflexivity.
  - destruct (enum_plain _ _ _ KO T) as [A _]. rewrite strip_quoted by exact A. cbn zeta. destruct T as [T| ->].
    + replace (mem_str s names) with true; [reflexivity|]. symmetry. apply existsb_exists. exists s. split; [exact T|apply String.eqb_refl].
    + cbn [kind_ok] in KO. apply andb_true_iff in KO. destruct KO as [_ KO]. apply negb_true_iff in KO. now rewrite KO.
Qed.
Lemma quoted_clean s : without nlc s -> clean_val (quoted s).
Proof. intros H. split; [apply quoted_tight|]. split; [discriminate|]. apply without_app; [exact H|]. split; [discriminate|exact Logic.I]. Qed.
Lemma show_clean k v : kind_ok k = true -> typed k v -> clean_val (show_value k v).
Proof.
  intros KO T. destruct k; destruct v; cbn [typed] in *; try contradiction; cbn [show_value].
  - now apply quoted_clean.
  - apply quoted_clean. apply escape_without; [discriminate|exact T].
  - apply quoted_clean. apply escape_without; [discriminate|exact T].
  - exact (to_dec_tight z).
  - exact (to_dec_tight z).
  - destruct b; (split; [split; [discriminate|split; reflexivity]|cbn [without every]; repeat split; discriminate]).
  - apply quoted_clean. exact (proj2 (enum_plain _ _ _ KO T)).
Qed.

(** ** Lists of pairs *)
Lemma aget_in {A} k (v : A) l : NoDup (map fst l) -> In (k, v) l -> aget k l = Some v.
Proof.
  induction l as [|[k' v'] l IH]; intros N I; [destruct I|]. cbn [aget map fst] in *. inversion N; subst. destruct I as [I|I].
  - inversion I; subst. now rewrite String.eqb_refl.
  - destruct (String.eqb_spec k k') as [->|]; [exfalso; apply H1; apply (in_map fst) in I; exact I|]. now apply IH.
Qed.
Lemma aget_app {A} k (a b : list (string * A)) : aget k (a ++ b) = match aget k a with Some v => Some v | None => aget k b end.
Proof. induction a as [|[k' v'] a IH]; [reflexivity|]. cbn [app aget]. destruct (String.eqb k k'); auto. Qed.
Lemma aget_none {A} k (l : list (string * A)) : ~ In k (map fst l) -> aget k l = None.
Proof. induction l as [|[k' v'] l IH]; [reflexivity|]. cbn [aget map fst In]. intros H. destruct (String.eqb_spec k k') as [->|]; [exfalso; auto|]. apply IH. auto. Qed.
Lemma aget_some {A} k (v : A) l : aget k l = Some v -> In (k, v) l.
Proof. induction l as [|[k' v'] l IH]; [discriminate|]. cbn [aget]. destruct (String.eqb_spec k k') as [->|]; [intros H; inversion H; now left|]. intros H. right. auto. Qed.
Lemma aget_map {A B} k (f : A -> B) l : aget k (map (fun x => (fst x, f (snd x))) l) = match aget k l with Some v => Some (f v) | None => None end.
Proof. induction l as [|[k' v'] l IH]; [reflexivity|]. cbn [map aget fst snd]. destruct (String.eqb k k'); auto. Qed.
Lemma aget_mput {A} k k' (v : A) m : aget k' (mput k v m) = if String.eqb k' k then Some v else aget k' m.
Proof.
  induction m as [|[n w] m IH]; cbn [mput aget]; [reflexivity|]. destruct (String.eqb_spec k n) as [<-|N].
  - cbn [aget]. destruct (String.eqb k' k); reflexivity.
  - destruct (str_ltb k n); [reflexivity|]. cbn [aget]. rewrite IH. destruct (String.eqb_spec k' n) as [->|]; [|reflexivity].
    destruct (String.eqb_spec n k); [congruence|reflexivity].
Qed.
Lemma in_mput {A} k (v : A) m x : In x (mput k v m) -> x = (k, v) \/ In x m.
Proof.
  induction m as [|[n w] m IH]; cbn [mput]; [intros [<-|[]]; auto|]. destruct (String.eqb k n); [intros [<-|H]; [auto|right; now right]|].
  destruct (str_ltb k n); [intros [<-|H]; auto|]. intros [<-|H]; [right; now left|]. destruct (IH H) as [->|]; [auto|right; now right].
Qed.
Lemma mput_ascending {A} k (v : A) m : ascending m -> ascending (mput k v m).
Proof.
  induction m as [|[n w] m IH]; intros H; cbn [mput]; [split; [intros y []|exact Logic.I]|]. destruct H as [H1 H2]. destruct (String.eqb_spec k n) as [->|N].
  - split; auto.
  - destruct (str_ltb k n) eqn:L; [split; [intros y [<-|I]; [exact L|]; specialize (H1 y I); exact (str_ltb_trans _ _ _ L H1)|split; auto]|].
    split; [|auto]. intros y I. apply in_mput in I. destruct I as [->|I]; [apply str_ltb_total; auto|auto].
Qed.
Lemma ascending_nodup {A} (m : list (string * A)) : ascending m -> NoDup (map fst m).
Proof.
  induction m as [|x m IH]; intros H; [constructor|]. destruct H as [H1 H2]. cbn [map]. constructor; [|auto].
  intros I. apply in_map_iff in I. destruct I as (y & E & I). specialize (H1 y I). rewrite E, str_ltb_irr in H1. discriminate.
Qed.
Lemma sorted_ascending {A} (l : list (string * A)) : ascending (sorted_map l).
Proof. induction l as [|x l IH]; [exact Logic.I|]. cbn [sorted_map fold_right]. now apply mput_ascending. Qed.
Lemma aget_sorted {A} k (l : list (string * A)) : aget k (sorted_map l) = aget k l.
Proof. induction l as [|[n v] l IH]; [reflexivity|]. cbn [sorted_map fold_right fst snd aget]. rewrite aget_mput. change (fold_right (fun x m => mput (fst x) (snd x) m) [] l) with (sorted_map l). rewrite IH. destruct (String.eqb k n); reflexivity. Qed.
Fixpoint nodupb (l : list string) : bool := match l with [] => true | x :: l' => negb (mem_str x l') && nodupb l' end.
Lemma nodupb_ok l : nodupb l = true -> NoDup l.
Proof.
  induction l as [|x l IH]; intros H; [constructor|]. cbn [nodupb] in H. apply andb_true_iff in H. destruct H as [A B]. constructor; [|auto].
  intros I. apply negb_true_iff in A. assert (X : mem_str x l = true) by (apply existsb_exists; exists x; split; [exact I|apply String.eqb_refl]). congruence.
Qed.

(** ** The tables *)
Lemma options_kinds : forallb (fun x => kind_ok (r_kd (snd x))) options = true.
Proof. vm_compute. reflexivity. Qed.
Lemma options_kind s r : In (s, r) options -> kind_ok (r_kd r) = true.
Proof. intros I. pose proof options_kinds as F. rewrite forallb_forall in F. exact (F _ I). Qed.
Lemma options_members : NoDup (map (fun x => r_mem (snd x)) options).
Proof. apply nodupb_ok. vm_compute. reflexivity. Qed.
Lemma in_options s rows r : In (s, rows) read_table -> In r rows -> In (s, r) options.
Proof. intros A B. unfold options. apply in_app_iff. right. apply in_flat_map. exists (s, rows). split; [exact A|]. apply in_map_iff. exists r. auto. Qed.
Definition key_eqb (a b : row) : bool := String.eqb (r_mem a) (r_mem b) && String.eqb (r_key a) (r_key b).
Lemma written_option s rows r : In (s, rows) write_table -> In r rows -> exists s' r', In (s', r') options /\ r_mem r' = r_mem r /\ r_kd r' = r_kd r.
Proof.
  intros A B.
  assert (SAME : In (s, rows) read_table -> exists s' r', In (s', r') options /\ r_mem r' = r_mem r /\ r_kd r' = r_kd r).
  { intros X. exists s, r. split; [exact (in_options s rows r X B)|auto]. }
  assert (P11 : In ("p11", p11_read) read_table) by (now left). assert (TLS : In ("tls", tls_read) read_table) by (right; now left).
  assert (GEN : forall s2 rows2, In (s2, rows2) read_table -> (exists r', In r' rows2 /\ r_mem r' = r_mem r /\ r_kd r' = r_kd r) -> exists s' r', In (s', r') options /\ r_mem r' = r_mem r /\ r_kd r' = r_kd r).
  { intros s2 rows2 X (r' & Y & E). exists s2, r'. split; [exact (in_options s2 rows2 r' X Y)|exact E]. }
  destruct A as [A|[A|[A|A]]].
  - inversion A; subst. exists "logger", r. split; [|auto]. unfold options. apply in_app_iff. left. apply in_map_iff. exists r. auto.
  - inversion A; subst. apply (GEN "p11" p11_read P11). unfold p11_write in B. cbn [In] in B.
    repeat (destruct B as [<-|B]; [cbn [r_mem r_kd];
      first [exists (Row "p11.module" "module" KPath); split; [cbn [p11_read In]; tauto|split; reflexivity]
            |exists (Row "p11.pass" "pass" KStr); split; [cbn [p11_read In]; tauto|split; reflexivity]
            |exists (Row "p11.uptane_key_id" "uptane_key_id" KStr); split; [cbn [p11_read In]; tauto|split; reflexivity]
            |exists (Row "p11.tls_cacert_id" "tls_cacert_id" KStr); split; [cbn [p11_read In]; tauto|split; reflexivity]
            |exists (Row "p11.tls_pkey_id" "tls_pkey_id" KStr); split; [cbn [p11_read In]; tauto|split; reflexivity]
            |exists (Row "p11.tls_clientcert_id" "tls_clientcert_id" KStr); split; [cbn [p11_read In]; tauto|split; reflexivity]]|]). destruct B.
  - inversion A; subst. apply (GEN "tls" tls_read TLS). exists r. split; [|auto]. cbn [tls_write tls_read In] in *. tauto.
  - apply SAME. right. right. exact A.
Qed.
Lemma option_written s r : In (s, r) options -> r_mem r = "p11.tls_cacert_id" \/ exists rows, In (s, rows) write_table /\ In r rows.
Proof.
  intros A. unfold options in A. apply in_app_iff in A. destruct A as [A|A].
  - right. apply in_map_iff in A. destruct A as (r' & E & A). inversion E; subst. exists log_rows. split; [now left|exact A].
  - apply in_flat_map in A. destruct A as ([s' rows] & A & B). apply in_map_iff in B. destruct B as (r' & E & B). cbn [fst snd] in *. inversion E; subst.
    destruct A as [A|[A|A]].
    + inversion A; subst. destruct B as [<-|[<-|[<-|[<-|B]]]]; [right|right|right|left; reflexivity|right]; exists p11_write; (split; [right; now left|]); cbn [p11_write p11_read In] in *; tauto.
    + inversion A; subst. right. exists tls_write. split; [right; right; now left|]. cbn [tls_write tls_read In] in *. tauto.
    + right. exists rows. split; [right; right; right; exact A|exact B].
Qed.
Lemma write_names : NoDup (map fst write_table).
Proof. apply nodupb_ok. vm_compute. reflexivity. Qed.
Definition tightb (s : string) : bool := negb (String.eqb s "") && String.eqb (trim_left s) s && String.eqb (trim_right s) s.
Lemma tightb_ok s : tightb s = true -> tight s.
Proof. unfold tightb. rewrite !andb_true_iff, negb_true_iff. intros [[A B] C]. apply String.eqb_neq in A. apply String.eqb_eq in B, C. repeat split; assumption. Qed.
Definition nocharb (c : ascii) (s : string) : bool := all_chars (fun a => negb (Ascii.eqb a c)) s.
Lemma nocharb_ok c s : nocharb c s = true -> without c s.
Proof. apply all_chars_without. intros a H. apply negb_true_iff in H. apply Ascii.eqb_neq in H. exact H. Qed.
Definition keyb (k : string) : bool :=
  tightb k && nocharb nlc k && nocharb "=" k && match k with String c _ => negb (Ascii.eqb c ";") && negb (Ascii.eqb c "#") && negb (Ascii.eqb c "[") | _ => true end.
Lemma keyb_ok k : keyb k = true -> clean_key k.
Proof.
  unfold keyb. rewrite !andb_true_iff. intros [[[A B] C] D]. split; [now apply tightb_ok|]. split; [now apply nocharb_ok|]. split; [now apply nocharb_ok|].
  destruct k as [|c k]; [exact Logic.I|]. rewrite !andb_true_iff, !negb_true_iff in D. destruct D as [[D1 D2] D3]. apply Ascii.eqb_neq in D1, D2, D3. auto.
Qed.
Definition sectb (s : string * list row) : bool :=
  tightb (fst s) && nocharb nlc (fst s) && nocharb "]" (fst s) && forallb (fun r => keyb (r_key r)) (snd s) && nodupb (map r_key (snd s)) && match snd s with [] => false | _ => true end.
Lemma write_sects : forallb sectb write_table = true.
Proof. vm_compute. reflexivity. Qed.
Lemma NoDup_app' {A} (a b : list A) : NoDup a -> NoDup b -> (forall x, In x a -> In x b -> False) -> NoDup (a ++ b).
Proof.
  induction a as [|x a IH]; intros H1 H2 D; [exact H2|]. inversion H1; subst. cbn [app]. constructor.
  - rewrite in_app_iff. intros [I|I]; [auto|]. exact (D x (or_introl eq_refl) I).
  - apply IH; auto. intros y I J. exact (D y (or_intror I) J).
Qed.
Lemma shown_section c s : proper c -> In s write_table -> clean_section (show_section c s).
Proof.
  intros [P X] I. pose proof write_sects as F. rewrite forallb_forall in F. specialize (F s I). unfold sectb in F. rewrite !andb_true_iff in F. destruct F as [[[[[F1 F2] F3] F4] F5] F6].
  destruct s as [n rows]. cbn [fst snd] in *. unfold clean_section, show_section. cbn [fst snd].
  assert (EX : forall k v, In (k, v) (sorted_map (c_extra c)) -> plain_name k /\ without nlc v /\ forall r, In r pacman_rows -> r_key r <> k).
  { intros k v J. apply X. rewrite <- aget_sorted. apply aget_in; [|exact J]. apply ascending_nodup, sorted_ascending. }
  split; [split; [now apply tightb_ok|split; now apply nocharb_ok]|]. split; [destruct rows; [discriminate F6|discriminate]|]. split.
  - apply Forall_app. split.
    + apply Forall_forall. intros x J. apply in_map_iff in J. destruct J as (r & <- & J). cbn [show_row fst snd]. split.
      * apply keyb_ok. rewrite forallb_forall in F4. exact (F4 r J).
      * destruct (written_option n rows r I J) as (s' & r' & O & E1 & E2). destruct (P s' r' O) as (v & Ev & T). unfold show_row. cbn [fst snd]. rewrite <- E1, Ev, <- E2.
        apply show_clean; [exact (options_kind _ _ O)|exact T].
    + destruct (String.eqb n "pacman"); [|constructor]. apply Forall_forall. intros x J. apply in_map_iff in J. destruct J as ([k v] & <- & J). cbn [fst snd].
      destruct (EX k v J) as ((K1 & K2 & K3 & K4 & K5 & K6) & V & _). split; [split; [repeat split; assumption|auto]|now apply quoted_clean].
  - rewrite map_app, map_map. cbn [show_row fst]. change (map (fun x => r_key x) rows) with (map r_key rows).
    destruct (String.eqb_spec n "pacman") as [->|]; [|cbn; rewrite List.app_nil_r; now apply nodupb_ok].
    rewrite map_map. cbn [fst]. assert (R : rows = pacman_rows).
    { pose proof (aget_in _ _ _ write_names I) as A. vm_compute in A. inversion A. reflexivity. }
    subst rows. apply NoDup_app'; [now apply nodupb_ok|apply ascending_nodup, sorted_ascending|].
    intros k J1 J2. apply in_map_iff in J1. destruct J1 as (r & <- & J1). apply in_map_iff in J2. destruct J2 as ([k v] & E & J2). cbn [fst] in E.
    destruct (EX k v J2) as (_ & _ & Z). exact (Z r J1 (eq_sym E)).
Qed.

(** ** Members after reading *)
Definition opts (lg : bool) : list (string * row) := if lg then tl options else options.
Definition copy_opts (t : tree) (l : list (string * row)) (c : cfg) : cfg := fold_left (fun c x => copy_from (subtree (fst x) t) (snd x) c) l c.
Lemma copy_rows_opts t s rows c : copy_rows (subtree s t) rows c = copy_opts t (map (fun r => (s, r)) rows) c.
Proof. revert c. induction rows as [|r rows IH]; intros c; [reflexivity|]. cbn [copy_rows fold_left copy_opts map fst snd] in *. apply IH. Qed.
Lemma copy_opts_app t a b c : copy_opts t (a ++ b) c = copy_opts t b (copy_opts t a c).
Proof. apply fold_left_app. Qed.
Lemma copy_table t l : forall c, fold_left (fun c (s : string * list row) => copy_rows (subtree (fst s) t) (snd s) c) l c = copy_opts t (flat_map (fun s => map (fun r => (fst s, r)) (snd s)) l) c.
Proof. induction l as [|s l IH]; intros c; [reflexivity|]. cbn [fold_left flat_map]. rewrite IH, copy_opts_app, copy_rows_opts. reflexivity. Qed.
Lemma update_opts lg t c : update_tree lg t c = copy_extra (subtree "pacman" t) (copy_opts t (opts lg) c).
Proof.
  unfold update_tree. rewrite copy_table. f_equal. destruct lg; [reflexivity|]. rewrite copy_rows_opts, <- copy_opts_app. reflexivity.
Qed.
Lemma copy_extra_vals l : forall c, c_vals (copy_extra l c) = c_vals c.
Proof. induction l as [|[k w] l IH]; intros c; [reflexivity|]. cbn [copy_extra fold_left]. unfold copy_extra in IH. rewrite IH. destruct (existsb _ pacman_rows); reflexivity. Qed.
Lemma copy_opts_extra t l : forall c, c_extra (copy_opts t l c) = c_extra c.
Proof.
  induction l as [|x l IH]; intros c; [reflexivity|]. cbn [copy_opts fold_left]. unfold copy_opts in IH. rewrite IH. unfold copy_from.
  destruct (aget _ _) as [w|]; [|reflexivity]. destruct (read_value _ w); reflexivity.
Qed.
Definition option_value (t : tree) (s : string) (r : row) : option cval := match aget (r_key r) (subtree s t) with Some w => read_value (r_kd r) w | None => None end.
Lemma copy_from_member t s r c m : member m (copy_from (subtree s t) r c) = if String.eqb m (r_mem r) then match option_value t s r with Some v => Some v | None => member m c end else member m c.
Proof.
  unfold copy_from, option_value. destruct (aget (r_key r) (subtree s t)) as [w|]; [|destruct (String.eqb m (r_mem r)); reflexivity].
  destruct (read_value (r_kd r) w) as [v|]; [|destruct (String.eqb m (r_mem r)); reflexivity]. unfold member, with_member. cbn [c_vals aset aget]. destruct (String.eqb m (r_mem r)); reflexivity.
Qed.
Lemma copy_opts_other t l m : forall c, ~ In m (map (fun x => r_mem (snd x)) l) -> member m (copy_opts t l c) = member m c.
Proof.
  induction l as [|[s r] l IH]; intros c H; [reflexivity|]. cbn [map snd In] in H. cbn [copy_opts fold_left fst snd]. unfold copy_opts in IH. rewrite IH by tauto. rewrite copy_from_member.
  destruct (String.eqb_spec m (r_mem r)) as [->|]; [exfalso; apply H; now left|reflexivity].
Qed.
Lemma copy_opts_member t l s r : NoDup (map (fun x => r_mem (snd x)) l) -> In (s, r) l -> forall c,
  member (r_mem r) (copy_opts t l c) = match option_value t s r with Some v => Some v | None => member (r_mem r) c end.
Proof.
  induction l as [|[s' r'] l IH]; intros N I c; [destruct I|]. cbn [map snd] in N. inversion N as [|? ? N1 N2]; subst. cbn [copy_opts fold_left fst snd].
  change (fold_left (fun c0 (x : string * row) => copy_from (subtree (fst x) t) (snd x) c0) l ?d) with (copy_opts t l d). destruct I as [I|I].
  - inversion I; subst. rewrite copy_opts_other by exact N1. rewrite copy_from_member, String.eqb_refl. reflexivity.
  - unfold copy_opts in *. rewrite (IH N2 I). rewrite copy_from_member. destruct (String.eqb_spec (r_mem r) (r_mem r')) as [E|]; [|reflexivity].
    exfalso. apply N1. rewrite <- E. apply in_map_iff. exists (s, r). auto.
Qed.
Lemma opts_nodup lg : NoDup (map (fun x => r_mem (snd x)) (opts lg)).
Proof. pose proof options_members as N. destruct lg; [|exact N]. unfold opts. unfold options in *. cbn [app map tl log_rows] in *. inversion N; assumption. Qed.
Theorem update_member lg t s r c : In (s, r) (opts lg) -> member (r_mem r) (update_tree lg t c) = match option_value t s r with Some v => Some v | None => member (r_mem r) c end.
Proof.
  intros I. rewrite update_opts. unfold member at 1. rewrite copy_extra_vals. exact (copy_opts_member t (opts lg) s r (opts_nodup lg) I c).
Qed.
Lemma update_other lg t m c : ~ In m (map (fun x => r_mem (snd x)) (opts lg)) -> member m (update_tree lg t c) = member m c.
Proof. intros I. rewrite update_opts. unfold member at 1. rewrite copy_extra_vals. exact (copy_opts_other t (opts lg) m c I). Qed.
Definition known (k : string) : bool := existsb (fun r => String.eqb k (r_key r)) pacman_rows.
Lemma copy_extra_get k l : NoDup (map fst l) -> forall c,
  aget k (c_extra (copy_extra l c)) = if known k then aget k (c_extra c) else match aget k l with Some w => Some (strip_quotes w) | None => aget k (c_extra c) end.
Proof.
  induction l as [|[k' w] l IH]; intros N c; [cbn [aget copy_extra fold_left]; destruct (known k); reflexivity|]. cbn [map fst] in N. inversion N as [|? ? N1 N2]; subst. cbn [copy_extra fold_left]. unfold copy_extra in IH.
  rewrite (IH N2). cbn [aget]. fold (known k'). destruct (String.eqb_spec k k') as [<-|NE].
  - destruct (known k) eqn:K; [reflexivity|]. cbn [c_extra aset aget]. rewrite String.eqb_refl. now rewrite (aget_none k l N1).
  - destruct (known k'); [reflexivity|]. cbn [c_extra aset aget]. destruct (String.eqb_spec k k'); [congruence|reflexivity].
Qed.

(** ** The round trip *)
Theorem read_written c : proper c -> read_ini (write_cfg c) = Some (tree_of (map (show_section c) write_table)).
Proof.
  intros P. unfold write_cfg. apply read_render.
  - apply Forall_forall. intros x I. apply in_map_iff in I. destruct I as (s & <- & I). now apply shown_section.
  - rewrite map_map. cbn [show_section fst]. exact write_names.
Qed.
Lemma written_subtree c s rows : In (s, rows) write_table -> subtree s (tree_of (map (show_section c) write_table)) = snd (show_section c (s, rows)).
Proof.
  intros I. apply subtree_of.
  - rewrite map_map. cbn [show_section fst]. exact write_names.
  - apply in_map_iff. exists (s, rows). auto.
Qed.
Lemma written_value c s r : proper c -> all_kept c -> In (s, r) options -> r_mem r <> "p11.tls_cacert_id" ->
  option_value (tree_of (map (show_section c) write_table)) s r = member (r_mem r) c.
Proof.
  intros P K I NE. destruct (option_written s r I) as [|(rows & A & B)]; [contradiction|].
  destruct (shown_section c (s, rows) P A) as (_ & _ & _ & N). unfold option_value. rewrite (written_subtree c s rows A).
  destruct (proj1 P s r I) as (v & Ev & T). rewrite (aget_in (r_key r) (show_value (r_kd r) v) _ N).
  - rewrite Ev. apply read_show; [exact (options_kind s r I)|exact T|exact (proj1 K s r v I Ev)].
  - cbn [show_section fst snd]. apply in_app_iff. left. apply in_map_iff. exists r. split; [|exact B]. unfold show_row. now rewrite Ev.
Qed.
Lemma known_spec k : known k = true <-> exists r, In r pacman_rows /\ r_key r = k.
Proof. unfold known. rewrite existsb_exists. split; intros (r & A & B); exists r; (split; [exact A|]); [symmetry|rewrite B]; [now apply String.eqb_eq|apply String.eqb_refl]. Qed.
Theorem round_trip c lg d : proper c -> all_kept c -> c_extra d = [] -> (lg = true -> member "logger.loglevel" d = member "logger.loglevel" c) ->
  same_but ["p11.tls_cacert_id"] (update_tree lg (tree_of (map (show_section c) write_table)) d) c.
Proof.
  intros P K D LG. set (t := tree_of (map (show_section c) write_table)). split.
  - intros s r I NE. assert (NE' : r_mem r <> "p11.tls_cacert_id") by (intros E; apply NE; left; auto).
    assert (C : In (s, r) (opts lg) \/ (lg = true /\ r_mem r = "logger.loglevel")).
    { destruct lg; [|now left]. unfold opts, options in *. cbn [app map tl log_rows] in *. destruct I as [I|I]; [inversion I; subst; right; auto|now left]. }
    destruct C as [C|[-> E]].
    + rewrite (update_member lg t s r d C). unfold t. rewrite (written_value c s r P K I NE'). destruct (proj1 P s r I) as (v & Ev & _). now rewrite Ev.
    + rewrite E. rewrite update_other; [exact (LG eq_refl)|]. intros J. apply (in_map (fun x => x)) in J. clear -J. vm_compute in J. repeat (destruct J as [J|J]; [discriminate|]). destruct J.
  - intros k. rewrite update_opts. assert (PA : In ("pacman", pacman_rows) write_table) by (unfold write_table; cbn [In]; tauto).
    destruct (shown_section c _ P PA) as (_ & _ & _ & N). unfold t at 1. rewrite (written_subtree c "pacman" pacman_rows PA). rewrite (copy_extra_get k _ N). rewrite copy_opts_extra, D. cbn [aget].
    cbn [show_section fst snd]. destruct (known k) eqn:KN.
    + apply known_spec in KN. destruct KN as (r & A & B). destruct (aget k (c_extra c)) as [v|] eqn:E; [|reflexivity]. exfalso. destruct (proj2 P k v E) as (_ & _ & Z). exact (Z r A B).
    + rewrite aget_app. replace (aget k (map (show_row c) pacman_rows)) with (@None string).
      * change (String.eqb "pacman" "pacman") with true. cbv iota. rewrite (aget_map k quoted), aget_sorted. destruct (aget k (c_extra c)) as [v|] eqn:E; [|reflexivity]. f_equal. apply strip_quoted. exact (proj2 K k v E).
      * symmetry. apply aget_none. rewrite map_map. cbn [show_row fst]. intros J. apply in_map_iff in J. assert (X : known k = true) by (apply known_spec; destruct J as (r & A & B); eauto). congruence.
Qed.
