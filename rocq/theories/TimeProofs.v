From Verif Require Import Base Json TufModel TimeSpec.
Require Import Lia.

Lemma str_ltb_app a : forall c b d, String.length a = String.length c ->
  str_ltb (append a b) (append c d) = str_ltb a c || (String.eqb a c && str_ltb b d).
Proof.
  induction a as [|x a IH]; intros [|y c] b d Hl; simpl in *; try discriminate; auto.
  - injection Hl as Hl.
    destruct (Nat.ltb (nat_of_ascii x) (nat_of_ascii y)) eqn:H1; auto.
    destruct (Nat.eqb (nat_of_ascii x) (nat_of_ascii y)) eqn:H2.
    + apply Nat.eqb_eq in H2. assert (x = y).
      { rewrite <- (ascii_nat_embedding x), <- (ascii_nat_embedding y). now rewrite H2. }
      subst. rewrite Ascii.eqb_refl. now apply IH.
    + destruct (Ascii.eqb x y) eqn:H3; auto. apply Ascii.eqb_eq in H3. subst. rewrite Nat.eqb_refl in H2. discriminate.
Qed.

Lemma pad_length w : forall n, String.length (pad w n) = w.
Proof.
  induction w; intros n; cbn [pad]; auto.
  assert (forall a b, String.length (append a b) = (String.length a + String.length b)%nat) as Happ.
  { induction a; intros; simpl; auto. }
  rewrite Happ, IHw. simpl. lia.
Qed.

Lemma digit_nat d : 0 <= d <= 9 -> nat_of_ascii (digit_ascii d) = (48 + Z.to_nat d)%nat.
Proof. intros H. unfold digit_ascii. apply nat_ascii_embedding. lia. Qed.

Lemma append_inj_len a : forall c b d, String.length a = String.length c ->
  String.eqb (append a b) (append c d) = String.eqb a c && String.eqb b d.
Proof.
  induction a; intros [|y c] b d Hl; simpl in *; try discriminate; auto.
  injection Hl as Hl. destruct (Ascii.eqb a y); auto.
Qed.

Lemma pad_cmp w : forall x y, 0 <= x < 10 ^ Z.of_nat w -> 0 <= y < 10 ^ Z.of_nat w ->
  str_ltb (pad w x) (pad w y) = (x <? y) /\ String.eqb (pad w x) (pad w y) = (x =? y).
Proof.
  induction w; intros x y Hx Hy.
  - simpl in *. assert (x = 0) by lia. assert (y = 0) by lia. subst. auto.
  - rewrite Nat2Z.inj_succ, Z.pow_succ_r in Hx, Hy by lia.
    assert (Hx' : 0 <= x / 10 < 10 ^ Z.of_nat w) by (split; [apply Z.div_pos; lia | apply Z.div_lt_upper_bound; lia]).
    assert (Hy' : 0 <= y / 10 < 10 ^ Z.of_nat w) by (split; [apply Z.div_pos; lia | apply Z.div_lt_upper_bound; lia]).
    destruct (IHw _ _ Hx' Hy') as [H1 H2]. cbn [pad].
    rewrite str_ltb_app, append_inj_len by (now rewrite !pad_length). rewrite H1, H2.
    assert (Hmx := Z.mod_pos_bound x 10 ltac:(lia)). assert (Hmy := Z.mod_pos_bound y 10 ltac:(lia)).
    assert (Hdx := Z.div_mod x 10 ltac:(lia)). assert (Hdy := Z.div_mod y 10 ltac:(lia)).
    cbn [str_ltb String.eqb]. rewrite !digit_nat by lia.
    set (qx := x / 10) in *. set (qy := y / 10) in *. set (rx := x mod 10) in *. set (ry := y mod 10) in *.
    assert (Hd : Ascii.eqb (digit_ascii rx) (digit_ascii ry) = (rx =? ry)).
    { destruct (Z.eqb_spec rx ry) as [->|Hne]. apply Ascii.eqb_refl.
      apply Ascii.eqb_neq. intros Heq. apply (f_equal nat_of_ascii) in Heq. rewrite !digit_nat in Heq by lia. lia. }
    rewrite Hd.
    assert (Hdl : Nat.ltb (48 + Z.to_nat rx) (48 + Z.to_nat ry) = (rx <? ry)).
    { destruct (Z.ltb_spec rx ry); [apply Nat.ltb_lt | apply Nat.ltb_ge]; lia. }
    rewrite Hdl. clear Hdl Hd.
    destruct (Nat.eqb (48 + Z.to_nat rx) (48 + Z.to_nat ry));
    destruct (Z.ltb_spec rx ry); destruct (Z.ltb_spec qx qy); destruct (Z.eqb_spec qx qy); destruct (Z.eqb_spec rx ry);
    destruct (Z.ltb_spec x y); destruct (Z.eqb_spec x y); simpl; split; auto; lia.
Qed.

(** Lexicographic comparison of the fields. *)
Definition civil_ltb (a b : civil) : bool :=
  (cy a <? cy b) || ((cy a =? cy b) && ((cmo a <? cmo b) || ((cmo a =? cmo b) && ((cd a <? cd b) || ((cd a =? cd b) &&
  ((ch a <? ch b) || ((ch a =? ch b) && ((cmi a <? cmi b) || ((cmi a =? cmi b) && (cs a <? cs b)))))))))).

Lemma field_cmp w x y s t : 0 <= x < 10 ^ Z.of_nat w -> 0 <= y < 10 ^ Z.of_nat w ->
  str_ltb (append (pad w x) s) (append (pad w y) t) = (x <? y) || ((x =? y) && str_ltb s t).
Proof.
  intros Hx Hy. rewrite str_ltb_app by now rewrite !pad_length.
  destruct (pad_cmp w x y Hx Hy) as [-> ->]. reflexivity.
Qed.
Lemma sep_cmp c s t : str_ltb (String c s) (String c t) = str_ltb s t.
Proof. simpl. rewrite Nat.ltb_irrefl, Nat.eqb_refl. reflexivity. Qed.

Lemma month_len_le y m : month_len y m <= 31.
Proof.
  unfold month_len.
  destruct m as [|p|p]; [lia| |lia].
  do 4 (try destruct p as [p|p|]); try destruct (leap y); lia.
Qed.

Lemma rfc_cmp a b : civil_valid a -> civil_valid b -> str_ltb (rfc3339 a) (rfc3339 b) = civil_ltb a b.
Proof.
  intros (A1 & A2 & A3 & A4 & A5 & A6) (B1 & B2 & B3 & B4 & B5 & B6).
  pose proof (month_len_le (cy a) (cmo a)). pose proof (month_len_le (cy b) (cmo b)).
  unfold rfc3339, civil_ltb.
  rewrite field_cmp, sep_cmp by (change (10 ^ Z.of_nat 4) with 10000; lia).
  rewrite field_cmp, sep_cmp by (change (10 ^ Z.of_nat 2) with 100; lia).
  rewrite field_cmp, sep_cmp by (change (10 ^ Z.of_nat 2) with 100; lia).
  rewrite field_cmp, sep_cmp by (change (10 ^ Z.of_nat 2) with 100; lia).
  rewrite field_cmp, sep_cmp by (change (10 ^ Z.of_nat 2) with 100; lia).
  rewrite field_cmp by (change (10 ^ Z.of_nat 2) with 100; lia).
  change (str_ltb "Z" "Z") with false. rewrite andb_false_r, orb_false_r. reflexivity.
Qed.

Lemma days_before_year_mono n m : (n <= m)%nat -> days_before_year n + 365 * Z.of_nat (m - n) <= days_before_year m.
Proof.
  induction 1.
  - rewrite Nat.sub_diag. lia.
  - simpl days_before_year. rewrite Nat.sub_succ_l by lia. destruct (leap (Z.of_nat m)); lia.
Qed.
Lemma days_before_year_next n m : (n < m)%nat ->
  days_before_year n + (if leap (Z.of_nat n) then 366 else 365) <= days_before_year m.
Proof.
  intros H. assert (Hs : (S n <= m)%nat) by lia. pose proof (days_before_year_mono _ _ Hs) as H0. change (days_before_year (S n)) with (days_before_year n + (if leap (Z.of_nat n) then 366 else 365)) in H0. lia.
Qed.

Lemma dbm_cases m : 1 <= m <= 12 ->
  m = 1 \/ m = 2 \/ m = 3 \/ m = 4 \/ m = 5 \/ m = 6 \/ m = 7 \/ m = 8 \/ m = 9 \/ m = 10 \/ m = 11 \/ m = 12.
Proof. lia. Qed.

Local Opaque leap.
Lemma dbm_bound y m d : 1 <= m <= 12 -> 1 <= d <= month_len y m ->
  0 <= days_before_month y (Z.to_nat (m - 1)) + (d - 1) < (if leap y then 366 else 365).
Proof.
  intros Hm Hd. cut (exists x, x = days_before_month y (Z.to_nat (m - 1)) /\ 0 <= x /\ x + month_len y m <= (if leap y then 366 else 365)).
  { intros (x & <- & H1 & H2). lia. }
  clear Hd d. eexists. split; [reflexivity|].
  destruct (dbm_cases m Hm) as [->|[->|[->|[->|[->|[->|[->|[->|[->|[->|[->| ->]]]]]]]]]]];
  unfold days_before_month, month_len; simpl; destruct (leap y); lia.
Qed.
Lemma dbm_mono y m m' d : 1 <= m -> m < m' <= 12 -> 1 <= d <= month_len y m ->
  days_before_month y (Z.to_nat (m - 1)) + d <= days_before_month y (Z.to_nat (m' - 1)).
Proof.
  intros Hm Hm' Hd.
  assert (Hgen : forall k n, (k < n)%nat -> (n <= 11)%nat ->
     days_before_month y k + month_len y (Z.of_nat k + 1) <= days_before_month y n).
  { intros k n Hkn Hn. induction Hkn; simpl; [lia|].
    assert (H0 : (m0 <= 11)%nat) by lia. specialize (IHHkn H0).
    assert (0 <= month_len y (Z.of_nat m0 + 1)).
    { unfold month_len. destruct (Z.of_nat m0 + 1) as [|p|p]; [lia| |lia].
      do 4 (try destruct p as [p|p|]); try destruct (leap y); lia. }
    lia. }
  specialize (Hgen (Z.to_nat (m - 1)) (Z.to_nat (m' - 1)) ltac:(lia) ltac:(lia)).
  replace (Z.of_nat (Z.to_nat (m - 1)) + 1) with m in Hgen by lia. lia.
Qed.

Lemma lex_seconds a b : civil_valid a -> civil_valid b -> civil_ltb a b = true -> seconds a < seconds b.
Proof.
  intros (A1 & A2 & A3 & A4 & A5 & A6) (B1 & B2 & B3 & B4 & B5 & B6) H.
  unfold civil_ltb in H. unfold seconds.
  pose proof (dbm_bound _ _ _ A2 A3) as Ba. pose proof (dbm_bound _ _ _ B2 B3) as Bb.
  rewrite orb_true_iff, andb_true_iff, Z.ltb_lt, Z.eqb_eq in H.
  destruct H as [H | [Ey H]].
  { pose proof (days_before_year_next (Z.to_nat (cy a)) (Z.to_nat (cy b)) ltac:(lia)) as Hn.
    rewrite Z2Nat.id in Hn by lia. lia. }
  rewrite Ey in *.
  rewrite orb_true_iff, andb_true_iff, Z.ltb_lt, Z.eqb_eq in H.
  destruct H as [H | [Em H]].
  { pose proof (dbm_mono (cy b) (cmo a) (cmo b) (cd a) ltac:(lia) ltac:(lia) A3). lia. }
  rewrite Em in *.
  repeat (rewrite orb_true_iff, andb_true_iff, Z.ltb_lt, Z.eqb_eq in H). rewrite Z.ltb_lt in H. lia.
Qed.

Lemma civil_trichotomy a b : civil_ltb a b = true \/ civil_ltb b a = true \/
  (cy a = cy b /\ cmo a = cmo b /\ cd a = cd b /\ ch a = ch b /\ cmi a = cmi b /\ cs a = cs b).
Proof.
  unfold civil_ltb.
  destruct (Z.lt_trichotomy (cy a) (cy b)) as [H|[H|H]]; [left; apply Z.ltb_lt in H; now rewrite H | |
     right; left; apply Z.ltb_lt in H; now rewrite H]. rewrite H, Z.ltb_irrefl, Z.eqb_refl. cbn [orb andb].
  destruct (Z.lt_trichotomy (cmo a) (cmo b)) as [H1|[H1|H1]]; [left; apply Z.ltb_lt in H1; now rewrite H1 | |
     right; left; apply Z.ltb_lt in H1; now rewrite H1]. rewrite H1, Z.ltb_irrefl, Z.eqb_refl. cbn [orb andb].
  destruct (Z.lt_trichotomy (cd a) (cd b)) as [H2|[H2|H2]]; [left; apply Z.ltb_lt in H2; now rewrite H2 | |
     right; left; apply Z.ltb_lt in H2; now rewrite H2]. rewrite H2, Z.ltb_irrefl, Z.eqb_refl. cbn [orb andb].
  destruct (Z.lt_trichotomy (ch a) (ch b)) as [H3|[H3|H3]]; [left; apply Z.ltb_lt in H3; now rewrite H3 | |
     right; left; apply Z.ltb_lt in H3; now rewrite H3]. rewrite H3, Z.ltb_irrefl, Z.eqb_refl. cbn [orb andb].
  destruct (Z.lt_trichotomy (cmi a) (cmi b)) as [H4|[H4|H4]]; [left; apply Z.ltb_lt in H4; now rewrite H4 | |
     right; left; apply Z.ltb_lt in H4; now rewrite H4]. rewrite H4, Z.ltb_irrefl, Z.eqb_refl. cbn [orb andb].
  rewrite !Z.ltb_lt. lia.
Qed.

Lemma rfc_len c : String.length (rfc3339 c) = 20%nat.
Proof. reflexivity. Qed.

Lemma get_app_r a : forall b n, String.get (String.length a + n) (append a b) = String.get n b.
Proof. induction a; intros; simpl; auto. Qed.

Theorem expiry_chronological a b : civil_valid a -> civil_valid b ->
  ts_expired_at (rfc3339 a) (rfc3339 b) = true <-> seconds a < seconds b.
Proof.
  intros Ha Hb.
  assert (Hne : forall c, ts_valid (rfc3339 c) = true).
  { intros c. unfold ts_valid. destruct (String.eqb_spec (rfc3339 c) ""); auto.
    apply (f_equal String.length) in e. rewrite rfc_len in e. discriminate. }
  unfold ts_expired_at, ts_lt. rewrite !Hne. cbn [negb andb].
  rewrite rfc_cmp by auto. split.
  - now apply lex_seconds.
  - intros Hs. destruct (civil_trichotomy a b) as [H|[H|H]]; auto.
    + apply lex_seconds in H; auto. lia.
    + destruct H as (H1 & H2 & H3 & H4 & H5 & H6). unfold seconds in Hs. rewrite H1, H2, H3, H4, H5, H6 in Hs. lia.
Qed.

Theorem timestamp_accepts_wellformed c : timestamp_of_string (rfc3339 c) = Ok (rfc3339 c).
Proof. reflexivity. Qed.

Theorem timestamp_accepts_iff s t :
  timestamp_of_string s = Ok t <-> (t = s /\ String.length s = 20%nat /\ String.get 19 s = Some "Z"%char).
Proof.
  unfold timestamp_of_string. destruct (Nat.eqb_spec (String.length s) 20); simpl.
  - destruct (String.get 19 s) as [c|]. 2: { split; [discriminate|]. intros (_ & _ & H); discriminate. }
    destruct (Ascii.eqb_spec c "Z").
    + subst. split; [intros H; inversion H; subst; auto | intros (-> & _); reflexivity].
    + split; [discriminate|]. intros (_ & _ & H). congruence.
  - split; [discriminate|]. intros (_ & H & _). contradiction.
Qed.
