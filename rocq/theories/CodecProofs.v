(** Proofs about the text codecs. *)
From Verif Require Import Base TufModel CodecModel CodecSpec.

(** ** Splitting *)
Lemma split_first_app c s t : has_char c s = false -> split_first c (append s (String c t)) = Some (s, t).
Proof.
  unfold has_char. induction s as [|a s IH]; simpl; intros H.
  - now rewrite Ascii.eqb_refl.
  - destruct (Ascii.eqb a c); [discriminate|]. destruct (split_first c s) as [(x, y)|]; [discriminate|]. now rewrite IH.
Qed.
Lemma split_all_plain c s : has_char c s = false -> split_all c s = [s].
Proof.
  unfold has_char. induction s as [|a s IH]; simpl; intros H; auto.
  destruct (Ascii.eqb a c); [discriminate|]. destruct (split_first c s) as [(x, y)|]; [discriminate|]. now rewrite IH.
Qed.
Lemma split_all_app c s t : has_char c s = false -> split_all c (append s (String c t)) = s :: split_all c t.
Proof.
  unfold has_char. induction s as [|a s IH]; simpl; intros H.
  - now rewrite Ascii.eqb_refl.
  - destruct (Ascii.eqb a c); [discriminate|]. destruct (split_first c s) as [(x, y)|]; [discriminate|]. now rewrite IH.
Qed.

(** ** Hash lists *)
Lemma token_no_sep h : storable_hash h -> has_char ";" (hash_token h) = false.
Proof.
  intros (_ & _ & _ & H). unfold hash_token, has_char in *.
  destruct (h_type h); simpl; destruct (split_first ";" (h_val h)) as [(x, y)|]; auto; discriminate.
Qed.
Lemma decode_token h l : storable_hash h -> decode_tokens (hash_token h :: l) = h :: decode_tokens l.
Proof.
  intros (H1 & H2 & H3 & _). destruct h as [ty v]. simpl in *. unfold hash_token; simpl.
  assert (Hv : String.eqb v "" = false) by (now apply String.eqb_neq).
  destruct ty; simpl; rewrite ?Hv; unfold mk_hash, htype_of_string; simpl; try congruence; now rewrite H3.
Qed.
Lemma hash_list_round_trip hs : Forall storable_hash hs -> decode_vector (encode_vector hs) = hs.
Proof.
  unfold decode_vector. induction hs as [|h hs IH]; intros H; auto. inversion H as [|? ? H1 H2]; subst. specialize (IH H2).
  destruct hs as [|h2 hs].
  - simpl encode_vector. rewrite split_all_plain by now apply token_no_sep. rewrite decode_token by auto. reflexivity.
  - change (encode_vector (h :: h2 :: hs)) with (append (hash_token h) (String ";" (encode_vector (h2 :: hs)))).
    rewrite split_all_app by now apply token_no_sep. rewrite decode_token by auto. now rewrite IH.
Qed.
(** Hashes of unknown algorithms are left out when read. *)
Lemma decode_token_any h l : writable_hash h -> decode_tokens (hash_token h :: l) = (if have_alg h then [h] else []) ++ decode_tokens l.
Proof.
  intros (H2 & H3 & _). destruct h as [ty v]. simpl in *. unfold hash_token; simpl.
  assert (Hv : String.eqb v "" = false) by (now apply String.eqb_neq).
  destruct ty; simpl; rewrite ?Hv; unfold mk_hash, htype_of_string; simpl; now rewrite ?H3.
Qed.
Lemma hash_list_known hs : Forall writable_hash hs -> decode_vector (encode_vector hs) = filter have_alg hs.
Proof.
  intros H. unfold decode_vector. induction H as [|h hs Hh H IH]; [reflexivity|].
  assert (N : has_char ";" (hash_token h) = false).
  { destruct Hh as (_ & _ & N). unfold hash_token, has_char in *. destruct (h_type h); simpl; destruct (split_first ";" (h_val h)) as [(x, y)|]; auto; discriminate. }
  destruct hs as [|h2 hs].
  - cbn [encode_vector]. rewrite split_all_plain by exact N. rewrite decode_token_any by exact Hh. cbn. destruct (have_alg h); reflexivity.
  - change (encode_vector (h :: h2 :: hs)) with (append (hash_token h) (String ";" (encode_vector (h2 :: hs)))).
    rewrite split_all_app by exact N. rewrite decode_token_any by exact Hh. rewrite IH. cbn [filter]. destruct (have_alg h); reflexivity.
Qed.

(** ** Numbers *)
Lemma digit_val_digit d : 0 <= d <= 9 -> digit_val (digit_ascii d) = Some d.
Proof.
  intros H. assert (d = 0 \/ d = 1 \/ d = 2 \/ d = 3 \/ d = 4 \/ d = 5 \/ d = 6 \/ d = 7 \/ d = 8 \/ d = 9) as Hd by lia.
  repeat (destruct Hd as [-> | Hd]; [reflexivity|]). now subst.
Qed.
Lemma scan_dec : forall f n acc, 0 <= n < 2 ^ Z.of_nat f -> (0 < f)%nat -> scan_digits (dec_digits f n acc) 0 = scan_digits acc n.
Proof.
  induction f as [|f IH]; intros n acc Hn Hf; [lia|].
  assert (Hm : 0 <= n mod 10 < 10) by (apply Z.mod_pos_bound; lia).
  pose proof (Z.div_mod n 10 ltac:(lia)) as Hdm. assert (0 <= n / 10) by (apply Z.div_pos; lia).
  cbn [dec_digits]. destruct (n / 10 =? 0) eqn:E.
  - apply Z.eqb_eq in E. cbn [scan_digits]. rewrite digit_val_digit by lia. f_equal. lia.
  - apply Z.eqb_neq in E. rewrite IH; cbn [scan_digits].
    + rewrite digit_val_digit by lia. f_equal. lia.
    + rewrite Nat2Z.inj_succ, Z.pow_succ_r in Hn by lia. lia.
    + destruct f; [simpl in Hn; lia|lia].
Qed.
Lemma dec_digits_head : forall f n acc, 0 <= n -> (0 < f)%nat -> exists d s, 0 <= d <= 9 /\ dec_digits f n acc = String (digit_ascii d) s.
Proof.
  induction f as [|f IH]; intros n acc Hn Hf; [lia|]. cbn [dec_digits].
  assert (Hm : 0 <= n mod 10 < 10) by (apply Z.mod_pos_bound; lia).
  destruct (n / 10 =? 0); [exists (n mod 10), acc; split; [lia|reflexivity]|].
  destruct f as [|f]; [exists (n mod 10), acc; split; [lia|reflexivity]|].
  apply IH; [apply Z.div_pos; lia|lia].
Qed.
Lemma dec_nonneg_scan n : 0 <= n -> scan_digits (dec_nonneg n) 0 = n.
Proof.
  intros H. unfold dec_nonneg. rewrite scan_dec; [reflexivity| |lia].
  rewrite Nat2Z.inj_succ, Z2Nat.id by apply Z.log2_nonneg.
  destruct (Z.eq_dec n 0) as [->|]; [simpl; lia|]. pose proof (Z.log2_spec n ltac:(lia)). lia.
Qed.
Lemma scan_number_dec n : 0 <= n -> scan_number (dec_nonneg n) = Some n.
Proof.
  intros H. pose proof (dec_nonneg_scan n H) as Hs. unfold dec_nonneg in *.
  destruct (dec_digits_head (S (Z.to_nat (Z.log2 n))) n "" H ltac:(lia)) as (d & s & Hd & E). rewrite E in *.
  cbn [scan_number scan_digits] in *. rewrite digit_val_digit in * by lia. f_equal. rewrite <- Hs. f_equal; lia.
Qed.
Lemma dec_nonneg_head n : 0 <= n -> exists d s, 0 <= d <= 9 /\ dec_nonneg n = String (digit_ascii d) s.
Proof. intros H. apply dec_digits_head; auto. lia. Qed.
Lemma digit_plain d : 0 <= d <= 9 -> is_space (digit_ascii d) = false /\ digit_ascii d <> "-"%char /\ digit_ascii d <> "+"%char.
Proof.
  intros H. assert (d = 0 \/ d = 1 \/ d = 2 \/ d = 3 \/ d = 4 \/ d = 5 \/ d = 6 \/ d = 7 \/ d = 8 \/ d = 9) as Hd by lia.
  repeat (destruct Hd as [-> | Hd]; [repeat split; discriminate|]). subst; repeat split; discriminate.
Qed.
Lemma stoi_dec n : int32 n -> stoi (to_dec n) = Ok n.
Proof.
  intros (H1 & H2). assert (Hr : in_int32 n = true) by (unfold in_int32; apply andb_true_intro; split; apply Z.leb_le; auto).
  unfold stoi, to_dec. destruct (n <? 0) eqn:E.
  - apply Z.ltb_lt in E. change (skip_space (String "-" (dec_nonneg (- n)))) with (String "-" (dec_nonneg (- n))).
    cbv iota beta. rewrite scan_number_dec by lia. rewrite Z.opp_involutive. now rewrite Hr.
  - apply Z.ltb_ge in E. pose proof (scan_number_dec n E) as Hs. destruct (dec_nonneg_head n E) as (d & s & Hd & Eq).
    rewrite Eq in *. destruct (digit_plain d Hd) as (P1 & P2 & P3). cbn [skip_space]. rewrite P1.
    set (c := digit_ascii d) in *. clearbody c.
    assert (match String c s with String "-" s' => match scan_number s' with Some z => Some (- z) | None => None end
           | String "+" s' => scan_number s' | s' => scan_number s' end = scan_number (String c s)) as ->.
    { destruct c as [[] [] [] [] [] [] [] []]; try reflexivity; congruence. }
    rewrite Hs, Hr. reflexivity.
Qed.

(** ** Result codes *)
Lemma to_repr_ok r s : to_repr r = Ok s ->
  exists t, rc_string r = Ok t /\ has_char quote t = false /\ s = String quote (append t (String quote (String ":" (to_dec (rc_num r))))).
Proof.
  unfold to_repr. destruct (rc_string r) as [t|] eqn:E; [|discriminate]. simpl. destruct (has_char quote t) eqn:Q; [discriminate|].
  intros H. inversion H. eauto.
Qed.
Lemma rc_string_idem r t : rc_string r = Ok t -> rc_string {| rc_num := rc_num r; rc_text := t |} = Ok t.
Proof.
  unfold rc_string. cbn [rc_text rc_num]. destruct (String.eqb (rc_text r) "") eqn:E; cbn [negb].
  - match goal with |- context [find ?f rc_strings] => destruct (find f rc_strings) as [p|] eqn:F; [|discriminate] end. intros H. inversion H; subst; clear H.
    apply find_some in F. destruct F as (F & _). simpl in F.
    repeat (destruct F as [<- | F]; [reflexivity|]). destruct F.
  - intros H. inversion H; subst. now rewrite E.
Qed.
Lemma to_dec_nonempty n : exists c s, to_dec n = String c s.
Proof.
  unfold to_dec. destruct (n <? 0) eqn:E; eauto. apply Z.ltb_ge in E. destruct (dec_nonneg_head n E) as (d & s & _ & ->). eauto.
Qed.
Lemma result_code_round_trip r s : int32 (rc_num r) -> to_repr r = Ok s -> exists r', from_repr s = Ok r' /\ rc_same r' r.
Proof.
  intros Hi H. apply to_repr_ok in H. destruct H as (t & Ht & Hq & ->).
  exists {| rc_num := rc_num r; rc_text := t |}. split.
  - unfold from_repr.
    change (split_first quote (String quote (append t (String quote (String ":" (to_dec (rc_num r)))))))
      with (Some (EmptyString, append t (String quote (String ":" (to_dec (rc_num r)))))).
    assert (E : split_first quote (append t (String quote (String ":" (to_dec (rc_num r))))) = Some (t, String ":" (to_dec (rc_num r))))
      by now apply split_first_app.
    destruct (append t (String quote (String ":" (to_dec (rc_num r))))) as [|c0 rest] eqn:Ea.
    + destruct t; discriminate.
    + rewrite E. change (split_first ":" (String ":" (to_dec (rc_num r)))) with (Some (EmptyString, to_dec (rc_num r))). destruct (to_dec_nonempty (rc_num r)) as (c & s & Ed).
      rewrite Ed. rewrite <- Ed. rewrite stoi_dec by auto. reflexivity.
  - split; auto. rewrite Ht. now apply rc_string_idem.
Qed.
Lemma to_repr_defined r t : rc_string r = Ok t -> has_char quote t = false -> exists s, to_repr r = Ok s.
Proof. intros H1 H2. unfold to_repr. rewrite H1. simpl. rewrite H2. eauto. Qed.

(** ** URL encoding *)
Ltac all_ascii c := destruct c as [[] [] [] [] [] [] [] []].
Lemma url_round_trip s : percent_decode (url_encode s) = Some s.
Proof.
  induction s as [|c s IH]; auto. cbn [url_encode].
  destruct (url_plain c) eqn:E.
  - cbn [percent_decode]. rewrite IH. destruct (Ascii.eqb c "%") eqn:P; auto. apply Ascii.eqb_eq in P. subst. discriminate.
  - cbn [percent_decode]. rewrite IH. clear IH E. all_ascii c; reflexivity.
Qed.
Lemma url_encode_safe s : url_safe (url_encode s).
Proof.
  induction s as [|c s IH]; [constructor|]. cbn [url_encode]. destruct (url_plain c) eqn:E.
  - apply us_char; auto. clear IH. unfold unreserved. unfold url_plain, in_range in E.
    repeat (apply orb_prop in E; destruct E as [E | E]);
      try (apply andb_prop in E; destruct E as (E1 & E2); apply Z.leb_le in E1; apply Z.leb_le in E2); try (apply Ascii.eqb_eq in E; subst; tauto).
    + left. left. split; assumption.
    + left. right. left. split; assumption.
    + left. right. right. left. split; assumption.
  - assert (H : upper_hex (nib_char (code c / 16)) /\ upper_hex (nib_char (code c mod 16))).
    { clear. unfold upper_hex. all_ascii c; vm_compute; split; first [left; split; discriminate | right; split; discriminate]. }
    destruct H. now apply us_esc.
Qed.

(** ** Base64 *)
Lemma string_ind3 (P : string -> Prop) : P EmptyString -> (forall x, P (String x EmptyString)) ->
  (forall x y, P (String x (String y EmptyString))) -> (forall x y z s, P s -> P (String x (String y (String z s)))) -> forall s, P s.
Proof.
  intros H0 H1 H2 H3.
  assert (forall n s, (String.length s <= n)%nat -> P s) as H.
  { induction n as [|n IH]; intros s Hl; destruct s as [|x [|y [|z s]]]; auto; simpl in Hl; try lia. apply H3. apply IH. lia. }
  intros s. apply (H (String.length s)). lia.
Qed.
Lemma b64_char_digit x : b64_char x = b64_digit (sextet_val x).
Proof. destruct x as [[[[[[] []] []] []] []] []]; reflexivity. Qed.
Lemma b64_val_char x : b64_val (b64_char x) = Some x /\ Ascii.eqb (b64_char x) "=" = false.
Proof. destruct x as [[[[[[] []] []] []] []] []]; split; reflexivity. Qed.
Lemma b64_val_char' x : b64_val (if Ascii.eqb (b64_char x) "=" then "A"%char else b64_char x) = Some x.
Proof. destruct (b64_val_char x) as (H1 & H2). now rewrite H2. Qed.
Lemma code_bits b0 b1 b2 b3 b4 b5 b6 b7 : code (Ascii b0 b1 b2 b3 b4 b5 b6 b7) =
  bit b0 + 2 * bit b1 + 4 * bit b2 + 8 * bit b3 + 16 * bit b4 + 32 * bit b5 + 64 * bit b6 + 128 * bit b7.
Proof. destruct b0, b1, b2, b3, b4, b5, b6, b7; reflexivity. Qed.
Lemma bit_bound b : 0 <= bit b <= 1.
Proof. destruct b; simpl; lia. Qed.

Definition pad_len (n : nat) : nat := Nat.modulo (3 - Nat.modulo n 3) 3.
Lemma pad_len3 n : pad_len (S (S (S n))) = pad_len n.
Proof. unfold pad_len. replace (S (S (S n))) with (n + 1 * 3)%nat by lia. now rewrite Nat.mod_add by lia. Qed.
Lemma split4 A B C D : 0 <= A < 64 -> 0 <= B < 64 -> 0 <= C < 64 -> 0 <= D < 64 ->
  let n := 262144 * A + 4096 * B + 64 * C + D in
  n / 262144 = A /\ n / 4096 mod 64 = B /\ n / 64 mod 64 = C /\ n mod 64 = D.
Proof. intros HA HB HC HD n. subst n. Z.to_euclidean_division_equations. lia. Qed.
Lemma sextet_bound x : 0 <= sextet_val x < 64.
Proof.
  destruct x as [[[[[a b] c] d] e] f]. unfold sextet_val.
  pose proof (bit_bound a); pose proof (bit_bound b); pose proof (bit_bound c); pose proof (bit_bound d); pose proof (bit_bound e);
  pose proof (bit_bound f). lia.
Qed.
Lemma to_base64_rfc s : to_base64 s = rfc4648 s.
Proof.
  unfold to_base64. change (Nat.modulo (3 - Nat.modulo (String.length s) 3) 3) with (pad_len (String.length s)).
  induction s as [| x | x y | x y z s IH] using string_ind3.
  - reflexivity.
  - destruct x as [a0 a1 a2 a3 a4 a5 a6 a7].
    set (s1 := (a7, a6, a5, a4, a3, a2) : sextet). set (s2 := (a1, a0, false, false, false, false) : sextet).
    change (String (b64_char s1) (String (b64_char s2) "==") = rfc4648 (String (Ascii a0 a1 a2 a3 a4 a5 a6 a7) "")).
    cbn [rfc4648]. rewrite !b64_char_digit.
    replace (16 * code (Ascii a0 a1 a2 a3 a4 a5 a6 a7)) with (262144 * 0 + 4096 * 0 + 64 * sextet_val s1 + sextet_val s2)
      by (rewrite code_bits; subst s1 s2; cbv [sextet_val]; change (bit false) with 0; ring).
    pose proof (split4 0 0 (sextet_val s1) (sextet_val s2) ltac:(lia) ltac:(lia) (sextet_bound s1) (sextet_bound s2)) as (_ & _ & H3 & H4).
    rewrite H4. replace ((262144 * 0 + 4096 * 0 + 64 * sextet_val s1 + sextet_val s2) / 64) with (sextet_val s1); auto.
    rewrite Z.mod_small in H3; [auto|]. pose proof (sextet_bound s1). pose proof (sextet_bound s2).
    split; [apply Z.div_pos; lia|apply Z.div_lt_upper_bound; lia].
  - destruct x as [a0 a1 a2 a3 a4 a5 a6 a7], y as [b0 b1 b2 b3 b4 b5 b6 b7].
    set (s1 := (a7, a6, a5, a4, a3, a2) : sextet). set (s2 := (a1, a0, b7, b6, b5, b4) : sextet).
    set (s3 := (b3, b2, b1, b0, false, false) : sextet).
    change (String (b64_char s1) (String (b64_char s2) (String (b64_char s3) "="))
            = rfc4648 (String (Ascii a0 a1 a2 a3 a4 a5 a6 a7) (String (Ascii b0 b1 b2 b3 b4 b5 b6 b7) ""))).
    cbn [rfc4648]. rewrite !b64_char_digit.
    replace (4 * (256 * code (Ascii a0 a1 a2 a3 a4 a5 a6 a7) + code (Ascii b0 b1 b2 b3 b4 b5 b6 b7)))
      with (262144 * 0 + 4096 * sextet_val s1 + 64 * sextet_val s2 + sextet_val s3)
      by (rewrite !code_bits; subst s1 s2 s3; cbv [sextet_val]; change (bit false) with 0; ring).
    pose proof (split4 0 (sextet_val s1) (sextet_val s2) (sextet_val s3) ltac:(lia) (sextet_bound s1) (sextet_bound s2) (sextet_bound s3)) as (_ & H2 & H3 & H4).
    rewrite H3, H4. replace ((262144 * 0 + 4096 * sextet_val s1 + 64 * sextet_val s2 + sextet_val s3) / 4096) with (sextet_val s1); auto.
    rewrite Z.mod_small in H2; [auto|]. pose proof (sextet_bound s1). pose proof (sextet_bound s2). pose proof (sextet_bound s3).
    split; [apply Z.div_pos; lia|apply Z.div_lt_upper_bound; lia].
  - destruct x as [a0 a1 a2 a3 a4 a5 a6 a7], y as [b0 b1 b2 b3 b4 b5 b6 b7], z as [c0 c1 c2 c3 c4 c5 c6 c7].
    set (s1 := (a7, a6, a5, a4, a3, a2) : sextet). set (s2 := (a1, a0, b7, b6, b5, b4) : sextet).
    set (s3 := (b3, b2, b1, b0, c7, c6) : sextet). set (s4 := (c5, c4, c3, c2, c1, c0) : sextet).
    cbn [String.length]. rewrite pad_len3.
    change (String (b64_char s1) (String (b64_char s2) (String (b64_char s3) (String (b64_char s4)
              (append (b64_chars (sextets (str_bits s))) (repeat_char (pad_len (String.length s)) "="))))) =
            rfc4648 (String (Ascii a0 a1 a2 a3 a4 a5 a6 a7) (String (Ascii b0 b1 b2 b3 b4 b5 b6 b7) (String (Ascii c0 c1 c2 c3 c4 c5 c6 c7) s)))).
    rewrite IH. cbn [rfc4648]. rewrite !b64_char_digit.
    replace (65536 * code (Ascii a0 a1 a2 a3 a4 a5 a6 a7) + 256 * code (Ascii b0 b1 b2 b3 b4 b5 b6 b7) + code (Ascii c0 c1 c2 c3 c4 c5 c6 c7))
      with (262144 * sextet_val s1 + 4096 * sextet_val s2 + 64 * sextet_val s3 + sextet_val s4)
      by (rewrite !code_bits; subst s1 s2 s3 s4; cbv [sextet_val]; ring).
    destruct (split4 (sextet_val s1) (sextet_val s2) (sextet_val s3) (sextet_val s4) (sextet_bound s1) (sextet_bound s2) (sextet_bound s3) (sextet_bound s4))
      as (H1 & H2 & H3 & H4).
    now rewrite H1, H2, H3, H4.
Qed.

(** Decoding: the padding signs read as zero sextets, whose bytes are cut off again. *)
Lemma substring_all : forall s n, n = String.length s -> String.substring 0 n s = s.
Proof. induction s as [|c s IH]; intros n ->; auto. simpl. now rewrite IH. Qed.
Lemma base64_decode s : exists r, b64_bytes (replace_char "=" "A" (to_base64 s)) = BOk r /\
  String.length r = (String.length s + count_char "=" (to_base64 s))%nat /\ String.substring 0 (String.length s) r = s.
Proof.
  unfold to_base64. change (Nat.modulo (3 - Nat.modulo (String.length s) 3) 3) with (pad_len (String.length s)).
  induction s as [| x | x y | x y z s IH] using string_ind3.
  - exists EmptyString. repeat split.
  - destruct x as [a0 a1 a2 a3 a4 a5 a6 a7].
    set (s1 := (a7, a6, a5, a4, a3, a2) : sextet). set (s2 := (a1, a0, false, false, false, false) : sextet).
    change (append (b64_chars (sextets (str_bits (String (Ascii a0 a1 a2 a3 a4 a5 a6 a7) "")))) (repeat_char (pad_len (String.length (String (Ascii a0 a1 a2 a3 a4 a5 a6 a7) ""))) "="))
      with (String (b64_char s1) (String (b64_char s2) "==")).
    unfold replace_char. cbn [map_string b64_bytes count_char]. rewrite !b64_val_char'.
    rewrite (proj2 (b64_val_char s1)), (proj2 (b64_val_char s2)). subst s1 s2.
    eexists. split; [reflexivity|]. split; reflexivity.
  - destruct x as [a0 a1 a2 a3 a4 a5 a6 a7], y as [b0 b1 b2 b3 b4 b5 b6 b7].
    set (s1 := (a7, a6, a5, a4, a3, a2) : sextet). set (s2 := (a1, a0, b7, b6, b5, b4) : sextet).
    set (s3 := (b3, b2, b1, b0, false, false) : sextet).
    match goal with |- context [append ?u ?w] => change (append u w) with (String (b64_char s1) (String (b64_char s2) (String (b64_char s3) "="))) end.
    unfold replace_char. cbn [map_string b64_bytes count_char]. rewrite !b64_val_char'.
    rewrite (proj2 (b64_val_char s1)), (proj2 (b64_val_char s2)), (proj2 (b64_val_char s3)). subst s1 s2 s3.
    eexists. split; [reflexivity|]. split; reflexivity.
  - destruct x as [a0 a1 a2 a3 a4 a5 a6 a7], y as [b0 b1 b2 b3 b4 b5 b6 b7], z as [c0 c1 c2 c3 c4 c5 c6 c7].
    set (s1 := (a7, a6, a5, a4, a3, a2) : sextet). set (s2 := (a1, a0, b7, b6, b5, b4) : sextet).
    set (s3 := (b3, b2, b1, b0, c7, c6) : sextet). set (s4 := (c5, c4, c3, c2, c1, c0) : sextet).
    cbn [String.length]. rewrite pad_len3. destruct IH as (r & I1 & I2 & I3).
    set (tl := append (b64_chars (sextets (str_bits s))) (repeat_char (pad_len (String.length s)) "=")) in *.
    match goal with |- context [append ?u ?w] => change (append u w) with (String (b64_char s1) (String (b64_char s2) (String (b64_char s3) (String (b64_char s4) tl)))) end.
    unfold replace_char in *. cbn [map_string b64_bytes count_char]. rewrite !b64_val_char'.
    rewrite (proj2 (b64_val_char s1)), (proj2 (b64_val_char s2)), (proj2 (b64_val_char s3)), (proj2 (b64_val_char s4)). subst s1 s2 s3 s4.
    cbv beta iota. rewrite I1. eexists. split; [reflexivity|]. cbn [String.length]. split; [lia|]. cbn [String.substring]. now rewrite I3.
Qed.
Lemma base64_round_trip s : from_base64 (to_base64 s) = BOk s.
Proof.
  unfold from_base64. destruct (base64_decode s) as (r & H1 & H2 & H3). rewrite H1.
  destruct (Nat.ltb_spec (String.length r) (count_char "=" (to_base64 s))) as [H | H]; [lia|].
  replace (String.length r - count_char "=" (to_base64 s))%nat with (String.length s) by lia. now rewrite H3.
Qed.
