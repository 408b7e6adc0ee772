(** CER integers: exactly which values survive, and where decoding goes wrong. *)
From Verif Require Import Base CerModel CerProofs.

(** Two's complement value of a big-endian byte string. *)
Definition sval (c : bytes) : Z := if byte_at c 0 <? 128 then be_value c 0 else be_value c 0 - 256 ^ blen c.

(** The integers whose encoding is read back correctly: the encoder looks at the lowest byte instead of the highest one to
    decide whether a padding byte is needed. *)
Definition cer_int_ok (n : Z) : Prop :=
  let m := if n <? 0 then -1 - n else n in
  m < 256 \/ (256 <= m < 65536 /\ (32768 <= m -> 128 <= m mod 256)) \/
  (65536 <= m < 16777216 /\ (8388608 <= m -> 128 <= m mod 256)) \/ (16777216 <= m /\ m mod 256 < 128).

Lemma wrap32_id z : -2147483648 <= z < 2147483648 -> wrap32 z = z.
Proof. intros H. unfold wrap32. cbv zeta. destruct (z mod 4294967296 <? 2147483648) eqn:E; [apply Z.ltb_lt in E|apply Z.ltb_ge in E]; Z.to_euclidean_division_equations; lia. Qed.
Lemma lor_byte m b : 0 <= b < 256 -> Z.lor (256 * m) b = 256 * m + b.
Proof. intros H. replace (256 * m) with (m * 2 ^ 8) by lia. rewrite lor_add by (simpl; lia). lia. Qed.
Lemma wrap32_mul m : exists q, wrap32 (256 * m) = 256 * q.
Proof.
  unfold wrap32. cbv zeta. destruct (256 * m mod 4294967296 <? 2147483648).
  - exists (m - 16777216 * (256 * m / 4294967296)). Z.to_euclidean_division_equations; lia.
  - exists (m - 16777216 * (256 * m / 4294967296) - 16777216). Z.to_euclidean_division_equations; lia.
Qed.
Lemma int_bytes_step acc b : 0 <= b < 256 -> Z.lor (wrap32 (256 * acc)) (char_val false b) = wrap32 (256 * acc) + b.
Proof. intros H. destruct (wrap32_mul acc) as (q & E). rewrite E. unfold char_val. simpl. now apply lor_byte. Qed.

Lemma fill3 acc : 0 <= acc < 2 ^ 24 -> sign_fill 4 3 acc = acc - 2 ^ 24.
Proof.
  intros H. cbn [sign_fill]. change (3 <? 4) with true. change (3 + 1 <? 4) with false. cbv iota.
  change (wrap32 (255 * 2 ^ (8 * 3))) with ((-1) * 2 ^ 24). rewrite lor_add' by lia. lia.
Qed.
Lemma fill_step k i acc : 0 <= i < 3 -> 0 <= acc < 2 ^ (8 * i) -> sign_fill (S k) i acc = sign_fill k (i + 1) (acc + 255 * 2 ^ (8 * i)).
Proof.
  intros Hi Ha. cbn [sign_fill]. rewrite (proj2 (Z.ltb_lt i 4)) by lia.
  rewrite wrap32_id. 2: { assert (i = 0 \/ i = 1 \/ i = 2) as [-> | [-> | ->]] by lia; simpl; lia. }
  rewrite lor_add' by lia. reflexivity.
Qed.
Lemma fill_more k i acc : 4 <= i -> sign_fill k i acc = acc.
Proof. intros H. destruct k; cbn [sign_fill]; auto. now rewrite (proj2 (Z.ltb_ge i 4)) by lia. Qed.
Lemma fill3' k acc : 0 <= acc < 2 ^ 24 -> sign_fill (S k) 3 acc = acc - 2 ^ 24.
Proof.
  intros H. cbn [sign_fill]. change (3 <? 4) with true. cbv iota. rewrite fill_more by lia.
  change (wrap32 (255 * 2 ^ (8 * 3))) with ((-1) * 2 ^ 24). rewrite lor_add' by lia. lia.
Qed.

Lemma sign_test c : byte_ok (byte_at c 0) -> (Z.land (byte_at c 0) 128 =? 0) = (byte_at c 0 <? 128).
Proof.
  intros H. unfold byte_ok in H. destruct (Z.ltb_spec (byte_at c 0) 128).
  - rewrite land128_low by lia. reflexivity.
  - rewrite land128_high by lia. reflexivity.
Qed.
Ltac pw := change (2 ^ (8 * 1)) with 256; change (2 ^ (8 * (1 + 1))) with 65536; change (2 ^ (8 * 2)) with 65536;
  change (2 ^ 24) with 16777216; change (256 ^ 1) with 256; change (256 ^ 2) with 65536; change (256 ^ 3) with 16777216; lia.
Lemma decode_int_value c : 1 <= blen c <= 4 -> Forall byte_ok c -> decode_int false c (blen c) = sval c.
Proof.
  intros Hl Hb. unfold decode_int, sval. cbv zeta.
  assert (Hl' : (1 <= List.length c <= 4)%nat) by (unfold blen in Hl; lia).
  destruct c as [|a [|b [|d [|e [|x c]]]]]; try (exfalso; simpl in Hl'; lia);
    repeat match goal with H : Forall _ (_ :: _) |- _ => inversion H; clear H; subst end; unfold byte_ok in *;
    rewrite sign_test by (unfold byte_ok, byte_at; simpl; lia); cbn [int_bytes]; rewrite !int_bytes_step by lia;
    unfold byte_at; cbn [nth Z.to_nat be_value].
  - change (blen [a]) with 1. rewrite (wrap32_id (256 * 0)) by lia. destruct (Z.ltb_spec a 128); [lia|].
    rewrite (fill_step 3 1) by pw. rewrite (fill_step 2 (1 + 1)) by pw. change (1 + 1 + 1) with 3. rewrite fill3' by pw.
    pw.
  - change (blen [a; b]) with 2. rewrite (wrap32_id (256 * 0)) by lia. rewrite wrap32_id by lia. destruct (Z.ltb_spec a 128); [lia|].
    rewrite (fill_step 3 2) by pw. change (2 + 1) with 3. rewrite fill3' by pw. pw.
  - change (blen [a; b; d]) with 3. rewrite (wrap32_id (256 * 0)) by lia. rewrite (wrap32_id (256 * (256 * 0 + a))) by lia. rewrite wrap32_id by lia.
    destruct (Z.ltb_spec a 128); [lia|]. rewrite fill3' by pw. pw.
  - change (blen [a; b; d; e]) with 4. rewrite (wrap32_id (256 * 0)) by lia. rewrite (wrap32_id (256 * (256 * 0 + a))) by lia.
    rewrite (wrap32_id (256 * (256 * (256 * 0 + a) + b))) by lia. rewrite fill_more by lia.
    unfold wrap32. cbv zeta. simpl (256 ^ 4).
    destruct (Z.ltb_spec a 128); [rewrite Z.mod_small by lia; destruct (Z.ltb_spec (256 * (256 * (256 * (256 * 0 + a) + b) + d)) 2147483648); lia|].
    rewrite Z.mod_small by lia. destruct (Z.ltb_spec (256 * (256 * (256 * (256 * 0 + a) + b) + d)) 2147483648); lia.
Qed.
Lemma decode_int_five sgn f tag c rest : int_tag tag -> blen c = 5 -> decode_token sgn (S f) (tag :: (blen c :: c) ++ rest) = d_unknown.
Proof.
  intros Ht Hc. rewrite decode_token_S. cbv zeta.
  change (byte_at (tag :: (blen c :: c) ++ rest) 0) with tag.
  change (drop 1 (tag :: (blen c :: c) ++ rest)) with (blen c :: c ++ rest).
  assert (Hl : decode_length (blen c :: c ++ rest) = LenOk (blen c) 1).
  { unfold decode_length. change (byte_at (blen c :: c ++ rest) 0) with (blen c).
    rewrite (proj2 (Z.eqb_neq (blen c) 128)) by lia. rewrite land128_low by lia. reflexivity. }
  rewrite Hl. cbn [app]. rewrite !blen_cons, blen_app. pose proof (blen_nonneg rest).
  rewrite (proj2 (Z.ltb_ge _ 2)) by lia. rewrite (proj2 (Z.ltb_ge (blen c) (-1))) by lia.
  rewrite (proj2 (Z.eqb_neq (blen c) (-1))) by lia. rewrite (proj2 (Z.ltb_ge _ (1 + 1))) by lia. cbn [negb andb]. cbv iota zeta.
  assert (Hcont : take (blen c) (drop (1 + 1) (tag :: blen c :: c ++ rest)) = c).
  { change (drop (1 + 1) (tag :: blen c :: c ++ rest)) with (c ++ rest). apply take_app. }
  rewrite Hcont. rewrite (proj2 (Z.ltb_lt 4 (blen c))) by lia.
  destruct Ht as [-> | [-> | ->]]; reflexivity.
Qed.

(** The content bytes of the encoder. *)
Definition int_content (n : Z) : bytes :=
  let (l, m) := int_loop 4 n in
  let high := negb (Z.land (byte_at l 0) 128 =? 0) in
  rev (if high && (m =? 0) then l ++ [0] else if negb high && (m =? -1) then l ++ [255] else l).
Lemma encode_integer_content n : encode_integer n = blen (int_content n) :: int_content n.
Proof.
  unfold encode_integer, int_content. destruct (int_loop 4 n) as (l, m). cbv zeta. rewrite rev_unit. f_equal.
  unfold blen. now rewrite rev_length.
Qed.
Lemma high_bit b : byte_ok b -> negb (Z.land b 128 =? 0) = (128 <=? b).
Proof.
  unfold byte_ok. intros H. destruct (Z.leb_spec 128 b); [rewrite land128_high by lia|rewrite land128_low by lia]; reflexivity.
Qed.
Lemma loop_stop f n : n / 256 = 0 \/ n / 256 = -1 -> int_loop (S f) n = ([n mod 256], n / 256).
Proof. intros H. cbn [int_loop]. cbv zeta. destruct H as [-> | ->]; reflexivity. Qed.
Lemma loop_go f n l m : n / 256 <> 0 -> n / 256 <> -1 -> int_loop f (n / 256) = (l, m) -> int_loop (S f) n = ((n mod 256) :: l, m).
Proof.
  intros H1 H2 H. cbn [int_loop]. cbv zeta. rewrite (proj2 (Z.eqb_neq _ _) H1), (proj2 (Z.eqb_neq _ _) H2). cbn [orb]. now rewrite H.
Qed.
Definition int_good (n : Z) (c : bytes) : Prop := blen c <= 4 /\ sval c = n.
(** The outcome of the padding decision for the bytes [b0 :: more] (least significant first). *)
Lemma content_of n l m : int_loop 4 n = (l, m) -> byte_ok (byte_at l 0) ->
  int_content n = rev (if (128 <=? byte_at l 0) && (m =? 0) then l ++ [0] else if negb (128 <=? byte_at l 0) && (m =? -1) then l ++ [255] else l).
Proof. intros H Hb. unfold int_content. rewrite H. cbv zeta. now rewrite high_bit. Qed.
Ltac dm := Z.to_euclidean_division_equations; lia.
Lemma loop_values n : -2147483648 <= n < 2147483648 ->
  let m := if n <? 0 then -1 else 0 in
  let a := if n <? 0 then -1 - n else n in
  int_loop 4 n = (if a <? 256 then [n mod 256]
    else if a <? 65536 then [n mod 256; n / 256 mod 256]
    else if a <? 16777216 then [n mod 256; n / 256 mod 256; n / 256 / 256 mod 256]
    else [n mod 256; n / 256 mod 256; n / 256 / 256 mod 256; n / 256 / 256 / 256 mod 256], m).
Proof.
  intros H m a. subst m a.
  destruct (Z.ltb_spec n 0).
  - destruct (Z.ltb_spec (-1 - n) 256); [rewrite loop_stop by dm; f_equal; dm|].
    destruct (Z.ltb_spec (-1 - n) 65536).
    { apply loop_go; [dm|dm|]. rewrite loop_stop by dm. f_equal. dm. }
    destruct (Z.ltb_spec (-1 - n) 16777216).
    { apply loop_go; [dm|dm|]. apply loop_go; [dm|dm|]. rewrite loop_stop by dm. f_equal. dm. }
    apply loop_go; [dm|dm|]. apply loop_go; [dm|dm|]. apply loop_go; [dm|dm|]. rewrite loop_stop by dm. f_equal. dm.
  - destruct (Z.ltb_spec n 256); [rewrite loop_stop by dm; f_equal; dm|].
    destruct (Z.ltb_spec n 65536).
    { apply loop_go; [dm|dm|]. rewrite loop_stop by dm. f_equal. dm. }
    destruct (Z.ltb_spec n 16777216).
    { apply loop_go; [dm|dm|]. apply loop_go; [dm|dm|]. rewrite loop_stop by dm. f_equal. dm. }
    apply loop_go; [dm|dm|]. apply loop_go; [dm|dm|]. apply loop_go; [dm|dm|]. rewrite loop_stop by dm. f_equal. dm.
Qed.
Lemma bmod z : byte_ok (z mod 256).
Proof. unfold byte_ok. apply Z.mod_pos_bound. lia. Qed.
Lemma content_bytes n : -2147483648 <= n < 2147483648 -> Forall byte_ok (int_content n) /\ 1 <= blen (int_content n) <= 5.
Proof.
  intros H. pose proof (loop_values n H) as L. cbv zeta in L.
  set (a := if n <? 0 then -1 - n else n) in *.
  assert (B0 : byte_ok 0) by (unfold byte_ok; lia). assert (B255 : byte_ok 255) by (unfold byte_ok; lia).
  destruct (a <? 256); [|destruct (a <? 65536); [|destruct (a <? 16777216)]];
    (rewrite (content_of n _ _ L) by (unfold byte_at; simpl; apply bmod);
     match goal with |- context [if ?c then _ else _] => destruct c end;
     [|match goal with |- context [if ?c then _ else _] => destruct c end];
     cbn [rev app]; (split; [repeat (constructor; auto using bmod)|unfold blen; simpl; lia])).
Qed.
Lemma sval_content n : -2147483648 <= n < 2147483648 -> (int_good n (int_content n) <-> cer_int_ok n).
Proof.
  intros H. pose proof (loop_values n H) as L. cbv zeta in L. unfold cer_int_ok. cbv zeta.
  set (a := if n <? 0 then -1 - n else n) in *.
  assert (Ha : (n < 0 /\ a = -1 - n /\ (n <? 0) = true) \/ (0 <= n /\ a = n /\ (n <? 0) = false)).
  { subst a. destruct (Z.ltb_spec n 0); [left|right]; auto. }
  clearbody a.
  assert (Hb : byte_at (fst (int_loop 4 n)) 0 = n mod 256).
  { rewrite L. simpl. destruct (a <? 256); [|destruct (a <? 65536); [|destruct (a <? 16777216)]]; reflexivity. }
  unfold int_good.
  destruct (Z.ltb_spec a 256); [|destruct (Z.ltb_spec a 65536); [|destruct (Z.ltb_spec a 16777216)]];
    rewrite (content_of n _ _ L) by (unfold byte_at; simpl; apply bmod);
    change (byte_at (n mod 256 :: _) 0) with (n mod 256);
    destruct Ha as [(Hn & -> & ->) | (Hn & -> & ->)]; change (-1 =? 0) with false; change (0 =? 0) with true; change (-1 =? -1) with true;
    change (0 =? -1) with false; rewrite ?andb_true_r, ?andb_false_r;
    destruct (Z.leb_spec 128 (n mod 256)); cbn [negb rev app]; unfold sval, byte_at, blen; cbn [nth Z.to_nat be_value List.length];
    repeat match goal with |- context [?x <? 128] => destruct (Z.ltb_spec x 128) end.
  all: cbn [Z.of_nat Pos.of_succ_nat Pos.succ]; change (256 ^ 1) with 256; change (256 ^ 2) with 65536; change (256 ^ 3) with 16777216;
       change (256 ^ 4) with 4294967296; change (256 ^ 5) with 1099511627776.
  all: split; intros HH; Z.to_euclidean_division_equations; lia.
Qed.
Lemma int_round_trip_iff f tag n rest : int_tag tag -> -2147483648 <= n < 2147483648 ->
  (decode_token false (S f) (tag :: encode_integer n ++ rest) = DTok tag (1 + blen (encode_integer n)) (Some n) None <-> cer_int_ok n).
Proof.
  intros Ht Hn. rewrite <- (sval_content n Hn). destruct (content_bytes n Hn) as (Hf & Hl). unfold int_good.
  rewrite encode_integer_content, blen_cons.
  destruct (Z.eq_dec (blen (int_content n)) 5) as [H5 | H5].
  - rewrite decode_int_five by auto. split; [discriminate|lia].
  - rewrite decode_int_token by (auto; lia). rewrite decode_int_value by (auto; lia). split.
    + intros E. split; [lia|]. injection E. auto.
    + intros (_ & ->). f_equal. lia.
Qed.
