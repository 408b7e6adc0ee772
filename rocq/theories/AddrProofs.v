(** Lemmas for C196. *)
From Coq Require Import Ascii.
From Verif Require Import Base TufModel CodecModel AddrModel AddrSpec CodecSpec CodecProofs.

Lemma occurs_app c a b : occurs c (append a b) <-> occurs c a \/ occurs c b.
Proof. induction a as [|x a IH]; cbn [append occurs]; [tauto|]. rewrite IH. tauto. Qed.
Lemma app_assoc_s a b c : append (append a b) c = append a (append b c).
Proof. induction a as [|x a IH]; cbn [append]; [reflexivity|]. now rewrite IH. Qed.
Lemma append_inj_l a b c : append a b = append a c -> b = c.
Proof. induction a as [|x a IH]; cbn [append]; intros H; [exact H|]. injection H as H. now apply IH. Qed.
Lemma append_inj_r a b c : append a c = append b c -> a = b.
Proof.
  assert (L : forall x y, String.length (append x y) = (String.length x + String.length y)%nat) by (induction x; intros; cbn; auto).
  revert b. induction a as [|x a IH]; intros [|y b] H; try reflexivity.
  - apply (f_equal String.length) in H. change (append "" c) with c in H. rewrite L in H. cbn in H. lia.
  - apply (f_equal String.length) in H. change (append "" c) with c in H. rewrite L in H. cbn in H. lia.
  - cbn in H. injection H as -> H. f_equal. now apply IH.
Qed.

Lemma break_app c a b : ~ occurs c a -> break c (append a b) = (append a (fst (break c b)), snd (break c b)).
Proof.
  induction a as [|x a IH]; cbn [append occurs]; intros H; [now destruct (break c b)|]. cbn [break].
  destruct (Ascii.eqb x c) eqn:E; [apply Ascii.eqb_eq in E; tauto|]. rewrite IH by tauto. reflexivity.
Qed.
Lemma break_none c a : ~ occurs c a -> break c a = (a, None).
Proof.
  induction a as [|x a IH]; cbn [occurs]; intros H; [reflexivity|]. cbn [break].
  destruct (Ascii.eqb x c) eqn:E; [apply Ascii.eqb_eq in E; tauto|]. rewrite IH by tauto. reflexivity.
Qed.
Lemma break_at c b : break c (String c b) = ("", Some b).
Proof. cbn [break]. now rewrite Ascii.eqb_refl. Qed.

Lemma split_seg a b : ~ occurs "/" a -> split_all "/" (append a (String "/" b)) = a :: split_all "/" b.
Proof.
  induction a as [|x a IH]; cbn [append occurs]; intros H; [reflexivity|]. cbn [split_all].
  destruct (Ascii.eqb x "/") eqn:E; [apply Ascii.eqb_eq in E; tauto|]. now rewrite IH by tauto.
Qed.
Lemma split_one c a : ~ occurs c a -> split_all c a = [a].
Proof.
  induction a as [|x a IH]; cbn [occurs]; intros H; [reflexivity|]. cbn [split_all].
  destruct (Ascii.eqb x c) eqn:E; [apply Ascii.eqb_eq in E; tauto|]. now rewrite IH by tauto.
Qed.
Lemma split_at c a b : ~ occurs c a -> split_all c (append a (String c b)) = a :: split_all c b.
Proof.
  induction a as [|x a IH]; cbn [append occurs]; intros H; [cbn [split_all]; now rewrite Ascii.eqb_refl|]. cbn [split_all].
  destruct (Ascii.eqb x c) eqn:E; [apply Ascii.eqb_eq in E; tauto|]. now rewrite IH by tauto.
Qed.
Lemma split_dirs l : Forall plain l -> forall a b, ~ occurs "/" a ->
  split_all "/" (append a (append (dirs_text l) (String "/" b))) = a :: l ++ split_all "/" b.
Proof.
  induction 1 as [|d l D F IH]; intros a b A; cbn [dirs_text].
  - change (append "" (String "/" b)) with (String "/" b). now apply split_seg.
  - change (append (append "/" (append d (dirs_text l))) (String "/" b)) with (String "/" (append (append d (dirs_text l)) (String "/" b))).
    rewrite split_seg by exact A. rewrite app_assoc_s, IH by apply D. reflexivity.
Qed.

Lemma dirs_plain t : proper t -> Forall plain (t_dirs t).
Proof. intros (_ & _ & F). revert F. apply Forall_impl. tauto. Qed.
Lemma dirs_text_no c l : Forall plain l -> c = "?"%char \/ c = "#"%char -> ~ occurs c (dirs_text l).
Proof.
  intros F C. induction F as [|d l (D1 & D2 & D3) F IH]; cbn [dirs_text]; [exact (fun x => x)|].
  rewrite occurs_app, occurs_app. intros [O | [O | O]]; [|destruct C; subst; tauto|tauto].
  cbn [occurs] in O. destruct O as [O | []]. destruct C; subst; discriminate.
Qed.
Lemma site_text_no t c : proper t -> c = "?"%char \/ c = "#"%char -> ~ occurs c (site_text t).
Proof.
  intros P C. pose proof (dirs_plain t P) as F. destruct P as ((S1 & S2 & S3) & (H1 & H2 & H3) & _). unfold site_text.
  rewrite !occurs_app. intros [O | [O | [O | O]]].
  - destruct C; subst; tauto.
  - cbn [occurs] in O. destruct C; subst; destruct O as [O | [O | [O | []]]]; discriminate.
  - destruct C; subst; tauto.
  - revert O. now apply dirs_text_no.
Qed.

Lemma dedot_clean l : Forall (fun d => d <> "." /\ d <> "..") l -> forall acc r, dedot acc (l ++ r) = dedot (rev l ++ acc) r.
Proof.
  induction 1 as [|d l (D1 & D2) F IH]; intros acc r; [reflexivity|]. cbn [List.app dedot].
  rewrite (proj2 (String.eqb_neq _ _) D1), (proj2 (String.eqb_neq _ _) D2). rewrite IH. cbn [rev]. now rewrite <- app_assoc.
Qed.
Lemma dirs_clean t : proper t -> Forall (fun d => d <> "." /\ d <> "..") (t_dirs t).
Proof. intros (_ & _ & F). revert F. apply Forall_impl. tauto. Qed.

(** What becomes of an address below a place, whatever follows. *)
Lemma wire_below t tail : proper t ->
  wire (append (site_text t) (String "/" tail)) =
    Some {| q_scheme := append (t_scheme t) ":"; q_host := t_host t;
            q_path := dedot (rev (t_dirs t)) (split_all "/" (fst (break "?" (fst (break "#" tail)))));
            q_query := snd (break "?" (fst (break "#" tail))) |}.
Proof.
  intros P. unfold wire. rewrite (break_app "#") by (apply site_text_no; auto). cbn [fst].
  assert (B : forall c, Ascii.eqb "/" c = false -> break c (String "/" tail) = (String "/" (fst (break c tail)), snd (break c tail))).
  { intros c E. cbn [break]. now rewrite E. }
  rewrite B by reflexivity. cbn [fst]. rewrite (break_app "?") by (apply site_text_no; auto).
  set (u := fst (break "#" tail)). cbn [break fst snd]. change (Ascii.eqb "/" "?") with false. cbn [fst snd].
  set (p := fst (break "?" u)). unfold site_text. pose proof (dirs_plain t P) as F. pose proof (dirs_clean t P) as G.
  destruct P as ((S1 & _) & (H1 & _) & _).
  assert (E : split_all "/" (append (append (t_scheme t) (append "://" (append (t_host t) (dirs_text (t_dirs t))))) (String "/" p)) =
              append (t_scheme t) ":" :: "" :: t_host t :: t_dirs t ++ split_all "/" p).
  { rewrite app_assoc_s. change (append "://" (append (t_host t) (dirs_text (t_dirs t)))) with (append ":" (String "/" (String "/" (append (t_host t) (dirs_text (t_dirs t)))))).
    rewrite app_assoc_s. rewrite <- (app_assoc_s (t_scheme t) ":").
    change (append (String "/" (String "/" (append (t_host t) (dirs_text (t_dirs t))))) (String "/" p)) with
      (String "/" (String "/" (append (append (t_host t) (dirs_text (t_dirs t))) (String "/" p)))).
    rewrite split_seg by (rewrite occurs_app; cbn [occurs]; intros [O | [O | []]]; [tauto|discriminate]).
    change (split_all "/" (String "/" (append (append (t_host t) (dirs_text (t_dirs t))) (String "/" p)))) with
      ("" :: split_all "/" (append (append (t_host t) (dirs_text (t_dirs t))) (String "/" p))).
    rewrite app_assoc_s, split_dirs by assumption. reflexivity. }
  rewrite E. rewrite (dedot_clean _ G). now rewrite app_nil_r.
Qed.

Lemma dirs_text_app a b : dirs_text (a ++ b) = append (dirs_text a) (dirs_text b).
Proof. induction a as [|d a IH]; [reflexivity|]. cbn [List.app dirs_text]. rewrite IH, !app_assoc_s. reflexivity. Qed.
Lemma wire_plain t l f : proper t -> Forall (fun d => plain d /\ d <> "." /\ d <> "..") l -> plain f -> f <> "." -> f <> ".." ->
  wire (append (append (site_text t) (dirs_text l)) (String "/" f)) =
    Some {| q_scheme := append (t_scheme t) ":"; q_host := t_host t; q_path := t_dirs t ++ l ++ [f]; q_query := None |}.
Proof.
  intros P L (F1 & F2 & F3) N1 N2.
  assert (T : site_text {| t_scheme := t_scheme t; t_host := t_host t; t_dirs := t_dirs t ++ l |} = append (site_text t) (dirs_text l)).
  { unfold site_text. cbn [t_scheme t_host t_dirs]. rewrite dirs_text_app, !app_assoc_s. reflexivity. }
  rewrite <- T, wire_below.
  - cbn [t_scheme t_host t_dirs]. rewrite (break_none "#") by exact F3. cbn [fst]. rewrite (break_none "?") by exact F2. cbn [fst snd].
    rewrite split_one by exact F1. cbn [dedot]. rewrite (proj2 (String.eqb_neq _ _) N1), (proj2 (String.eqb_neq _ _) N2). cbn [rev].
    rewrite rev_involutive, <- app_assoc. reflexivity.
  - destruct P as (P1 & P2 & P3). split; [exact P1|]. split; [exact P2|]. cbn. apply Forall_app. now split.
Qed.

(** Decimal numbers consist of digits and the sign. *)
Lemma digit_not c d : 0 <= d <= 9 -> digit_ascii d = c -> 48 <= Z.of_nat (nat_of_ascii c) <= 57.
Proof.
  intros H <-. assert (d = 0 \/ d = 1 \/ d = 2 \/ d = 3 \/ d = 4 \/ d = 5 \/ d = 6 \/ d = 7 \/ d = 8 \/ d = 9) as Hd by lia.
  repeat (destruct Hd as [-> | Hd]; [vm_compute; split; discriminate|]). subst; vm_compute; split; discriminate.
Qed.
Lemma digits_occurs c f : forall n acc, 0 <= n -> occurs c (dec_digits f n acc) -> 48 <= Z.of_nat (nat_of_ascii c) <= 57 \/ occurs c acc.
Proof.
  induction f as [|f IH]; intros n acc Hn O; cbn [dec_digits] in O; [now right|].
  assert (R : 0 <= n mod 10 <= 9) by (pose proof (Z.mod_pos_bound n 10); lia).
  assert (D : occurs c (String (digit_ascii (n mod 10)) acc) -> 48 <= Z.of_nat (nat_of_ascii c) <= 57 \/ occurs c acc).
  { cbn [occurs]. intros [E | E]; [left; now apply (digit_not c _ R)|now right]. }
  destruct (n / 10 =? 0); [now apply D|]. apply IH in O; [|apply Z.div_pos; lia]. destruct O as [O | O]; [now left|now apply D].
Qed.
Lemma dec_occurs c z : occurs c (to_dec z) -> 48 <= Z.of_nat (nat_of_ascii c) <= 57 \/ c = "-"%char.
Proof.
  unfold to_dec. destruct (z <? 0) eqn:N.
  - apply Z.ltb_lt in N. cbn [occurs]. intros [O | O]; [right; congruence|]. apply digits_occurs in O; [|lia]. destruct O as [O | []]. now left.
  - apply Z.ltb_ge in N. intros O. apply digits_occurs in O; [|lia]. destruct O as [O | []]. now left.
Qed.
Lemma dec_no c z : c = "."%char \/ c = "/"%char \/ c = "?"%char \/ c = "#"%char -> ~ occurs c (to_dec z).
Proof. intros C O. apply dec_occurs in O. repeat (destruct C as [-> | C]; [destruct O as [O | O]; [vm_compute in O; destruct O as [O1 O2]; first [now apply O1 | now apply O2]|discriminate]|]). subst. destruct O as [O | O]; [vm_compute in O; destruct O as [O1 O2]; first [now apply O1 | now apply O2]|discriminate]. Qed.
Lemma dec_inj v w : version_ok v -> version_ok w -> to_dec v = to_dec w -> v = w.
Proof. intros V W E. pose proof (stoi_dec v V) as A. pose proof (stoi_dec w W) as B. rewrite E in A. congruence. Qed.

(** The names of the four roles. *)
Lemma top_name_no r c : top r -> c = "."%char \/ c = "/"%char \/ c = "?"%char \/ c = "#"%char -> ~ occurs c (r_name r).
Proof.
  intros T C O. destruct C as [-> | [-> | [-> | ->]]]; destruct T as [-> | [-> | [-> | ->]]]; cbn in O;
    repeat (destruct O as [O | O]; [discriminate|]); exact O.
Qed.
Lemma file_no v n c : ~ occurs c n -> c = "/"%char \/ c = "?"%char \/ c = "#"%char -> forall k,
  ~ occurs c (role_file_name v {| r_kind := k; r_name := n |}).
Proof.
  intros N C k. unfold role_file_name. cbn [r_name]. rewrite occurs_app, occurs_app. intros [O | [O | O]]; [|tauto|].
  - destruct (v =? ANY_VERSION); [exact O|]. rewrite occurs_app in O. destruct O as [O | O]; [revert O; apply dec_no; tauto|].
    cbn in O. destruct O as [O | []]. destruct C as [-> | [-> | ->]]; discriminate.
  - cbn in O. destruct C as [-> | [-> | ->]]; repeat (destruct O as [O | O]; [discriminate|]); exact O.
Qed.
Lemma file_plain v r : plain (r_name r) -> plain (role_file_name v r).
Proof. destruct r as [k n]. cbn [r_name]. intros (A & B & C). split; [|split]; apply file_no; tauto. Qed.
Lemma length_append a b : String.length (append a b) = (String.length a + String.length b)%nat.
Proof. induction a; cbn; auto. Qed.
Lemma file_long v r : (5 <= String.length (role_file_name v r))%nat.
Proof. unfold role_file_name. rewrite length_append, length_append. change (String.length ".json") with 5%nat. lia. Qed.
Lemma file_not_dots v r : role_file_name v r <> "." /\ role_file_name v r <> "..".
Proof. pose proof (file_long v r) as L. split; intros E; rewrite E in L; cbn in L; lia. Qed.

Lemma file_inj r s v w : top r -> top s -> version_ok v -> version_ok w -> role_file_name v r = role_file_name w s -> r = s /\ v = w.
Proof.
  intros R S V W E. apply (f_equal (split_all ".")) in E.
  assert (P : forall n x, ~ occurs "." n -> split_all "." (append (if x =? ANY_VERSION then "" else append (to_dec x) ".") (append n ".json")) =
            (if x =? ANY_VERSION then [] else [to_dec x]) ++ [n; "json"]).
  { intros n x N. destruct (x =? ANY_VERSION).
    - change (append "" (append n ".json")) with (append n (String "." "json")). rewrite split_at by exact N. reflexivity.
    - rewrite app_assoc_s. change (append "." (append n ".json")) with (String "." (append n (String "." "json"))).
      rewrite split_at by (apply dec_no; tauto). rewrite split_at by exact N. reflexivity. }
  unfold role_file_name in E. rewrite !P in E by (apply top_name_no; auto).
  assert (N : r_name r = r_name s -> r = s).
  { destruct R as [-> | [-> | [-> | ->]]]; destruct S as [-> | [-> | [-> | ->]]]; cbn; intros; try discriminate; reflexivity. }
  destruct (v =? ANY_VERSION) eqn:A; destruct (w =? ANY_VERSION) eqn:B; cbn [List.app] in E.
  - injection E as E. apply Z.eqb_eq in A, B. subst. auto.
  - discriminate.
  - discriminate.
  - injection E as E1 E2. apply dec_inj in E1; auto.
Qed.
