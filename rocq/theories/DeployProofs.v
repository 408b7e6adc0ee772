(** Hashes, texts, URLs. *)
From Verif Require Import Base Json TufModel PushModel PushSpec DeployModel DeploySpec.
From Coq Require Import ZArith Lia.

(** ** Hexadecimal digits *)
Lemma hexv_spec c v : hexv c = Some v -> hex_digit c /\ 0 <= v < 16.
Proof.
  unfold hexv, hex_digit. intros H.
  destruct ((48 <=? acode c) && (acode c <=? 57)) eqn:A; [apply andb_true_iff in A; destruct A as [A B]; apply Z.leb_le in A, B; inversion H; lia|].
  destruct ((97 <=? acode c) && (acode c <=? 102)) eqn:B; [apply andb_true_iff in B; destruct B as [B C]; apply Z.leb_le in B, C; inversion H; lia|].
  destruct ((65 <=? acode c) && (acode c <=? 70)) eqn:C; [apply andb_true_iff in C; destruct C as [C D]; apply Z.leb_le in C, D; inversion H; lia|discriminate].
Qed.
Ltac all_ascii := let c := fresh in intros c; destruct c as [[] [] [] [] [] [] [] []]; vm_compute; auto; intuition congruence.
Lemma hexv_hex c : hex_digit c -> exists v, hexv c = Some v /\ hexc v = lower_ascii c /\ 0 <= v < 16.
Proof.
  intros H. assert (A : exists v, hexv c = Some v).
  { unfold hexv. destruct H as [H|[H|H]].
    - replace ((48 <=? acode c) && (acode c <=? 57)) with true by (symmetry; apply andb_true_iff; split; apply Z.leb_le; lia). eauto.
    - destruct ((48 <=? acode c) && (acode c <=? 57)); eauto. destruct ((97 <=? acode c) && (acode c <=? 102)); eauto.
      replace ((65 <=? acode c) && (acode c <=? 70)) with true by (symmetry; apply andb_true_iff; split; apply Z.leb_le; lia). eauto.
    - destruct ((48 <=? acode c) && (acode c <=? 57)); eauto.
      replace ((97 <=? acode c) && (acode c <=? 102)) with true by (symmetry; apply andb_true_iff; split; apply Z.leb_le; lia). eauto. }
  destruct A as [v A]. exists v. split; [exact A|]. split; [|exact (proj2 (hexv_spec c v A))]. clear H.
  revert A. destruct c as [[] [] [] [] [] [] [] []]; intros A; vm_compute in A; try discriminate A; injection A as <-; reflexivity.
Qed.
Lemma hexc_hexv v : 0 <= v < 16 -> hexv (hexc v) = Some v.
Proof.
  intros H. assert (D : v = 0 \/ v = 1 \/ v = 2 \/ v = 3 \/ v = 4 \/ v = 5 \/ v = 6 \/ v = 7 \/ v = 8 \/ v = 9 \/ v = 10 \/ v = 11 \/ v = 12 \/ v = 13 \/ v = 14 \/ v = 15) by lia.
  repeat (destruct D as [-> | D]; [reflexivity|]). subst v. reflexivity.
Qed.
Lemma hexc_digit v : 0 <= v < 16 -> hex_digit (hexc v).
Proof. intros H. exact (proj1 (hexv_spec _ _ (hexc_hexv v H))). Qed.
Lemma hex_not_space c : hex_digit c -> is_space c = false.
Proof.
  unfold hex_digit, is_space. intros H. destruct (acode c =? 32) eqn:A; [apply Z.eqb_eq in A; lia|]. cbn [orb].
  destruct ((9 <=? acode c) && (acode c <=? 13)) eqn:B; [|reflexivity]. apply andb_true_iff in B. destruct B as [B C]. apply Z.leb_le in B, C. lia.
Qed.
Lemma trim_hex s : every hex_digit s -> trim_right s = s.
Proof.
  induction s as [|c s IH]; [reflexivity|]. intros [H1 H2]. cbn [trim_right]. rewrite (IH H2), (hex_not_space c H1). now rewrite andb_false_r.
Qed.
(** ** Reading and showing *)
Lemma pair_byte a b v : pair_val a b = Some v -> 0 <= v < 256.
Proof.
  unfold pair_val. destruct (hexv b) as [y|] eqn:B; [|discriminate]. apply hexv_spec in B. destruct B as [_ B].
  destruct (hexv a) as [x|] eqn:A; [apply hexv_spec in A; destruct A as [_ A]; intros H; assert (v = 16 * x + y) by congruence; lia|].
  destruct (is_space a || (acode a =? 43)); [intros H; assert (v = y) by congruence; lia|]. destruct (acode a =? 45); [|discriminate].
  intros H; assert (E : v = (- y) mod 256) by congruence; rewrite E. apply Z.mod_pos_bound. lia.
Qed.
Lemma pairs_hash n : forall s, (String.length s <= n)%nat -> forall h, pairs_val s = Some h -> String.length s = (2 * List.length h)%nat /\ Forall (fun v => 0 <= v < 256) h.
Proof.
  induction n as [|n IH]; intros s L h H.
  - destruct s; [|cbn in L; lia]. inversion H. auto.
  - destruct s as [|a [|b s]]; cbn [pairs_val] in H; [inversion H; auto|discriminate|].
    destruct (pair_val a b) as [v|] eqn:P; [|discriminate]. destruct (pairs_val s) as [l|] eqn:Q; [|discriminate]. inversion H; subst h.
    cbn [String.length] in L. destruct (IH s ltac:(lia) l Q) as [A B]. cbn [String.length List.length]. split; [lia|].
    constructor; [eapply pair_byte; eauto|exact B].
Qed.
Lemma parse_hash_ok s h : parse_hash s = Some h -> hash32 h /\ String.length (trim_right s) = 64%nat.
Proof.
  unfold parse_hash. cbn zeta. destruct (Nat.eqb_spec (String.length (trim_right s)) 64) as [E|]; [|discriminate]. intros H.
  destruct (pairs_hash _ _ (le_n _) h H) as [A B]. split; [split; [lia|exact B]|exact E].
Qed.
Lemma show_pairs h : Forall (fun v => 0 <= v < 256) h -> pairs_val (show_hash h) = Some h /\ every hex_digit (show_hash h) /\ String.length (show_hash h) = (2 * List.length h)%nat.
Proof.
  induction 1 as [|v h V H IH]; [cbn; auto|]. destruct IH as (A & B & C). cbn [show_hash pairs_val every String.length List.length].
  assert (D : 0 <= v / 16 < 16) by (split; [apply Z.div_pos; lia|apply Z.div_lt_upper_bound; lia]).
  assert (E : 0 <= v mod 16 < 16) by (apply Z.mod_pos_bound; lia).
  unfold pair_val. rewrite (hexc_hexv _ D), (hexc_hexv _ E), A. split; [|split; [split; [now apply hexc_digit|split; [now apply hexc_digit|exact B]]|lia]].
  f_equal. f_equal. pose proof (Z.div_mod v 16). lia.
Qed.
Theorem parse_show h : hash32 h -> parse_hash (show_hash h) = Some h.
Proof.
  intros [L F]. destruct (show_pairs h F) as (A & B & C). unfold parse_hash. cbn zeta. rewrite (trim_hex _ B), C, L. exact A.
Qed.
Lemma show_hex64 h : hash32 h -> hex64 (show_hash h).
Proof. intros [L F]. destruct (show_pairs h F) as (A & B & C). split; [lia|exact B]. Qed.
Lemma pairs_hex n : forall s, (String.length s <= 2 * n)%nat -> every hex_digit s -> Nat.Even (String.length s) -> exists h, pairs_val s = Some h /\ show_hash h = to_lower s.
Proof.
  induction n as [|n IH]; intros s L H [k E].
  - destruct s; [|cbn in L; lia]. exists []. auto.
  - destruct s as [|a [|b s]]; [exists []; auto|cbn in E; lia|]. destruct H as (Ha & Hb & H). cbn [String.length] in *.
    destruct (IH s ltac:(lia) H) as (h & P & Q); [exists (k - 1)%nat; lia|].
    destruct (hexv_hex a Ha) as (x & X1 & X2 & X3). destruct (hexv_hex b Hb) as (y & Y1 & Y2 & Y3).
    exists ((16 * x + y) :: h). cbn [pairs_val show_hash]. unfold pair_val. rewrite Y1, X1, P. split; [reflexivity|].
    replace ((16 * x + y) / 16) with x by (apply (Z.div_unique _ _ _ y); lia).
    replace ((16 * x + y) mod 16) with y by (apply (Z.mod_unique _ _ x); lia).
    unfold to_lower in *. cbn [map_string]. now rewrite X2, Y2, Q.
Qed.
Theorem parse_hex s : hex64 s -> exists h, parse_hash s = Some h /\ show_hash h = to_lower s.
Proof.
  intros [L H]. destruct (pairs_hex 32 s ltac:(lia) H) as (h & A & B); [exists 32%nat; lia|]. exists h. split; [|exact B].
  unfold parse_hash. cbn zeta. rewrite (trim_hex _ H), L. exact A.
Qed.
Lemma is_space_blank c : is_space c = true <-> blank c.
Proof.
  unfold is_space, blank. rewrite orb_true_iff, andb_true_iff, Z.eqb_eq, !Z.leb_le. lia.
Qed.
Lemma trim_blank w : every blank w -> trim_right w = "".
Proof. induction w as [|c w IH]; [reflexivity|]. intros [A B]. cbn [trim_right]. rewrite (IH B). apply is_space_blank in A. rewrite A. reflexivity. Qed.
Lemma trim_app s w : every blank w -> trim_right (append s w) = trim_right s.
Proof.
  intros H. induction s as [|c s IH]; cbn [append]; [now apply trim_blank|]. cbn [trim_right]. now rewrite IH.
Qed.
Theorem parse_trailing s w : every blank w -> parse_hash (append s w) = parse_hash s.
Proof. intros H. unfold parse_hash. cbn zeta. now rewrite (trim_app s w H). Qed.
(** Refs. *)
Lemma skip_hex s : every hex_digit s -> skip_space s = s.
Proof. induction s as [|c s IH]; [reflexivity|]. intros [A B]. cbn [skip_space]. now rewrite (hex_not_space c A), (IH B). Qed.
Lemma skip_app s w : skip_space (append s w) = append (skip_space s) (skip_space w).
Proof. induction s as [|c s IH]; [reflexivity|]. cbn [append skip_space]. rewrite IH. destruct (is_space c); reflexivity. Qed.
Lemma skip_blank w : every blank w -> skip_space w = "".
Proof. induction w as [|c w IH]; [reflexivity|]. intros [A B]. cbn [skip_space]. apply is_space_blank in A. now rewrite A, (IH B). Qed.
Lemma strip_hex s : every hex_digit s -> strip_lf s = s.
Proof.
  induction s as [|c s IH]; [reflexivity|]. intros [A B]. cbn [strip_lf]. rewrite (IH B). replace (acode c =? 10) with false; [now rewrite andb_false_r|].
  symmetry. apply Z.eqb_neq. unfold hex_digit in A. lia.
Qed.
Lemma app_nil_r s : append s "" = s.
Proof. induction s as [|c s IH]; cbn [append]; [reflexivity|now rewrite IH]. Qed.
Theorem ref_of_file s w : every hex_digit s -> every blank w -> ref_content (append s w) = s.
Proof. intros A B. unfold ref_content. now rewrite skip_app, (skip_hex s A), (skip_blank w B), app_nil_r, strip_hex. Qed.

(** ** URLs *)
Definition no_trim (s : string) : Prop := every (fun c => is_trim c = false) s.
Lemma trim_left4_id s : no_trim s -> trim_left4 s = s.
Proof. destruct s as [|c s]; [reflexivity|]. intros [A _]. cbn [trim_left4]. now rewrite A. Qed.
Lemma trim_right4_id s : no_trim s -> trim_right4 s = s.
Proof. induction s as [|c s IH]; [reflexivity|]. intros [A B]. cbn [trim_right4]. rewrite (IH B), A. now rewrite andb_false_r. Qed.
Lemma every_app P a b : every P a -> every P b -> every P (append a b).
Proof. induction a as [|c a IH]; [auto|]. intros [A B] C. split; auto. Qed.
Lemma last_app_c s c d : last_is c (append s (String d "")) = Ascii.eqb d c.
Proof. induction s as [|a s IH]; [reflexivity|]. cbn [append last_is]. destruct (append s (String d "")) eqn:E; [destruct s; discriminate|exact IH]. Qed.
Lemma drop_app_c s d : drop_last (append s (String d "")) = s.
Proof. induction s as [|a s IH]; [reflexivity|]. cbn [append drop_last]. destruct (append s (String d "")) eqn:E; [destruct s; discriminate|now rewrite IH]. Qed.
Lemma drop_every P s : every P s -> every P (drop_last s).
Proof. induction s as [|a s IH]; [auto|]. intros [A B]. cbn [drop_last]. destruct s; [exact Logic.I|]. split; auto. Qed.
Lemma drop_slash s : last_is slash s = true -> s = append (drop_last s) "/".
Proof.
  induction s as [|a s IH]; [discriminate|]. cbn [last_is drop_last]. destruct s as [|b s]; [intros H; apply Ascii.eqb_eq in H; now subst|].
  intros H. cbn [append]. f_equal. now apply IH.
Qed.
Lemma app_assoc s t u : append (append s t) u = append s (append t u).
Proof. induction s as [|a s IH]; [reflexivity|]. cbn [append]. now rewrite IH. Qed.
Lemma app_nonempty s c t : append s (String c t) <> "".
Proof. destruct s; discriminate. Qed.
Lemma eqb_ne s : s <> "" -> String.eqb s "" = false.
Proof. intros H. now apply String.eqb_neq. Qed.
Lemma set_url_slash b : b <> "" -> set_url b = append (no_end_slash b) "/" .
Proof.
  intros N. unfold set_url, no_end_slash. rewrite (eqb_ne b N). destruct (last_is slash b) eqn:L; [now apply drop_slash|reflexivity].
Qed.
Theorem inject_ok b s : b <> "" -> s <> "" -> no_trim b -> inject (set_url b) s = Url (joined b s).
Proof.
  intros B S0 T. rewrite (set_url_slash b B). unfold inject. rewrite (eqb_ne _ (app_nonempty _ _ _)), (eqb_ne s S0). cbn [orb].
  rewrite last_app_c. change (Ascii.eqb "/" slash) with true. cbn [negb andb].
  assert (T' : no_trim (no_end_slash b)) by (unfold no_end_slash; destruct (last_is slash b); [now apply drop_every|exact T]).
  unfold joined, no_first_slash. destruct s as [|c s]; [congruence|]. cbn [first_is]. destruct (Ascii.eqb c slash) eqn:E.
  - apply Ascii.eqb_eq in E. subst c. rewrite drop_app_c, (trim_right4_id _ T'), (trim_left4_id _ T'). reflexivity.
  - assert (T2 : no_trim (append (no_end_slash b) "/")) by (apply every_app; [exact T'|split; [reflexivity|exact Logic.I]]).
    rewrite (trim_right4_id _ T2), (trim_left4_id _ T2), app_assoc. reflexivity.
Qed.
Lemma trim_right4_blank w : every (fun c => is_trim c = true) w -> trim_right4 w = "".
Proof. induction w as [|c w IH]; [reflexivity|]. intros [A B]. cbn [trim_right4]. rewrite (IH B), A. reflexivity. Qed.
Lemma trim_right4_app s w : every (fun c => is_trim c = true) w -> trim_right4 (append s w) = trim_right4 s.
Proof. intros H. induction s as [|c s IH]; cbn [append]; [now apply trim_right4_blank|]. cbn [trim_right4]. now rewrite IH. Qed.
Lemma last_blank b w : w <> "" -> every (fun c => is_trim c = true) w -> last_is slash (append b w) = false.
Proof.
  intros N H. induction b as [|c b IH]; cbn [append].
  - induction w as [|d w IHw]; [congruence|]. destruct H as [A B]. cbn [last_is]. destruct w as [|e w]; [|apply IHw; [discriminate|exact B]].
    destruct (Ascii.eqb d slash) eqn:E; [|reflexivity]. apply Ascii.eqb_eq in E. subst d. discriminate A.
  - cbn [last_is]. destruct (append b w) eqn:E; [destruct b; [cbn in E; congruence|discriminate]|exact IH].
Qed.
Theorem inject_blank b w s : b <> "" -> no_trim b -> last_is slash b = false -> every (fun c => is_trim c = true) w -> first_is slash s = true ->
  inject (set_url (append b w)) s = Url (append b s).
Proof.
  intros B T L W F. assert (S0 : s <> "") by (intros ->; discriminate F).
  assert (NE : append b w <> "") by (destruct b; [congruence|discriminate]).
  assert (LB : last_is slash (append b w) = false).
  { destruct w as [|c w]; [now rewrite app_nil_r|]. apply last_blank; [discriminate|exact W]. }
  unfold set_url. rewrite (eqb_ne _ NE), LB. unfold inject. rewrite (eqb_ne _ (app_nonempty _ _ _)), (eqb_ne s S0). cbn [orb].
  rewrite last_app_c, F. change (Ascii.eqb "/" slash) with true. cbn [negb andb].
  rewrite drop_app_c, (trim_right4_app b w W), (trim_right4_id b T), (trim_left4_id b T). reflexivity.
Qed.

(** ** Shell words *)
Lemma pieces_ne s : exists p r, pieces s = p :: r.
Proof. destruct s as [|c s]; [exists "", []; reflexivity|]. cbn [pieces]. destruct (Ascii.eqb c " "); [eauto|]. destruct (pieces s); eauto. Qed.
Lemma pieces_app a b : pieces (append a (String " " b)) = pieces a ++ pieces b.
Proof.
  induction a as [|c a IH]; [reflexivity|]. cbn [append pieces]. rewrite IH. destruct (Ascii.eqb c " "); [reflexivity|].
  destruct (pieces_ne a) as (p & r & E). rewrite E. reflexivity.
Qed.
Lemma words_app a b : words (append a (String " " b)) = words a ++ words b.
Proof. unfold words. now rewrite pieces_app, filter_app. Qed.
Lemma plain_space c : plain c = true -> Ascii.eqb c " " = false.
Proof. intros H. destruct (Ascii.eqb c " ") eqn:E; [|reflexivity]. apply Ascii.eqb_eq in E. subst c. discriminate H. Qed.
Lemma pieces_plain s : all_chars plain s = true -> pieces s = [s].
Proof.
  induction s as [|c s IH]; [reflexivity|]. cbn [all_chars pieces]. intros H. apply andb_true_iff in H. destruct H as [A B]. now rewrite (plain_space c A), (IH B).
Qed.
Lemma words_plain s : all_chars plain s = true -> s <> "" -> words s = [s].
Proof. intros A B. unfold words. rewrite (pieces_plain s A). cbn [filter]. now rewrite (eqb_ne s B). Qed.
Lemma all_app f a b : all_chars f (append a b) = all_chars f a && all_chars f b.
Proof. induction a as [|c a IH]; [reflexivity|]. cbn [append all_chars]. rewrite IH. now rewrite andb_assoc. Qed.
Lemma all_weak f g s : (forall c, f c = true -> g c = true) -> all_chars f s = true -> all_chars g s = true.
Proof. intros H. induction s as [|c s IH]; [auto|]. cbn [all_chars]. rewrite !andb_true_iff. intros [A B]. auto. Qed.
Lemma hex_plain s : every hex_digit s -> all_chars plain s = true.
Proof.
  induction s as [|c s IH]; [auto|]. intros [A B]. cbn [all_chars]. rewrite (IH B), andb_true_r. unfold plain. cbn zeta.
  destruct A as [A|[A|A]].
  - replace ((48 <=? acode c) && (acode c <=? 57)) with true by (symmetry; apply andb_true_iff; split; apply Z.leb_le; lia). reflexivity.
  - replace ((65 <=? acode c) && (acode c <=? 90)) with true by (symmetry; apply andb_true_iff; split; apply Z.leb_le; lia). now rewrite orb_true_r.
  - replace ((97 <=? acode c) && (acode c <=? 122)) with true by (symmetry; apply andb_true_iff; split; apply Z.leb_le; lia). now rewrite !orb_true_r.
Qed.
Theorem sign_shell cred_path name h hwids : hash32 h ->
  all_chars plain cred_path = true -> cred_path <> "" -> all_chars plain name = true -> name <> "" -> all_chars plain hwids = true -> hwids <> "" ->
  map shell (sign_cmds cred_path name h hwids) = map Some (sign_words cred_path name (show_hash h) hwids).
Proof.
  intros Hh C1 C2 N1 N2 W1 W2. destruct (show_hex64 h Hh) as [L E]. pose proof (hex_plain _ E) as H1.
  assert (H2 : show_hash h <> "") by (intros X; rewrite X in L; discriminate L).
  assert (PB : forall s, all_chars plain s = true -> all_chars (fun c => plain c || Ascii.eqb c " ") s = true)
    by (intros s; apply all_weak; intros c X; now rewrite X).
  assert (E1 : shell (append "garage-sign init --repo aktualizr --credentials " cred_path) = Some ["garage-sign"; "init"; "--repo"; "aktualizr"; "--credentials"; cred_path]).
  { unfold shell. rewrite all_app, (PB _ C1).
    change (all_chars (fun c => plain c || Ascii.eqb c " ") "garage-sign init --repo aktualizr --credentials ") with true. cbn [andb]. f_equal.
    change (append "garage-sign init --repo aktualizr --credentials " cred_path) with (append "garage-sign init --repo aktualizr --credentials" (String " " cred_path)).
    rewrite words_app, (words_plain cred_path C1 C2). reflexivity. }
  assert (E3 : shell (cat ["garage-sign targets add --repo aktualizr --format OSTREE --length 0"; " --name "; name; " --version "; show_hash h; " --sha256 "; show_hash h; " --hardwareids "; hwids])
    = Some ["garage-sign"; "targets"; "add"; "--repo"; "aktualizr"; "--format"; "OSTREE"; "--length"; "0"; "--name"; name; "--version"; show_hash h; "--sha256"; show_hash h; "--hardwareids"; hwids]).
  { unfold cat. cbn [fold_right]. rewrite app_nil_r. unfold shell. rewrite !all_app, (PB _ N1), (PB _ H1), (PB _ W1).
    change (all_chars (fun c => plain c || Ascii.eqb c " ") "garage-sign targets add --repo aktualizr --format OSTREE --length 0") with true.
    change (all_chars (fun c => plain c || Ascii.eqb c " ") " --name ") with true.
    change (all_chars (fun c => plain c || Ascii.eqb c " ") " --version ") with true.
    change (all_chars (fun c => plain c || Ascii.eqb c " ") " --sha256 ") with true.
    change (all_chars (fun c => plain c || Ascii.eqb c " ") " --hardwareids ") with true. cbn [andb]. f_equal.
    change (append " --hardwareids " hwids) with (String " " (append "--hardwareids" (String " " hwids))).
    change (append " --sha256 " (append (show_hash h) (String " " (append "--hardwareids" (String " " hwids)))))
      with (String " " (append "--sha256" (String " " (append (show_hash h) (String " " (append "--hardwareids" (String " " hwids))))))).
    set (t1 := append "--sha256" _).
    change (append " --version " (append (show_hash h) (String " " t1))) with (String " " (append "--version" (String " " (append (show_hash h) (String " " t1))))).
    set (t2 := append "--version" _).
    change (append " --name " (append name (String " " t2))) with (String " " (append "--name" (String " " (append name (String " " t2))))).
    rewrite !words_app. subst t2. rewrite !words_app. subst t1. rewrite !words_app.
    rewrite (words_plain name N1 N2), (words_plain _ H1 H2), (words_plain hwids W1 W2). reflexivity. }
  unfold sign_cmds, sign_words. cbn [map]. rewrite E1, E3. reflexivity.
Qed.
