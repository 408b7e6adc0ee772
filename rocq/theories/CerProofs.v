(** Proofs about the CER codec. *)
From Verif Require Import Base CerModel.

Definition byte_ok (b : Z) : Prop := 0 <= b < 256.

(** ** Bit arithmetic *)
Lemma land_shift k m b : 0 <= k -> 0 <= b < 2 ^ k -> Z.land (m * 2 ^ k) b = 0.
Proof.
  intros Hk Hb. apply Z.bits_inj'. intros i Hi. rewrite Z.land_spec, Z.bits_0.
  destruct (Z_lt_ge_dec i k).
  - rewrite Z.mul_pow2_bits_low by lia. reflexivity.
  - destruct (Z.eq_dec b 0) as [->|]; [now rewrite Z.bits_0, andb_false_r|].
    rewrite (Z.bits_above_log2 b i); [now rewrite andb_false_r|lia|].
    assert (Z.log2 b < k) by (apply Z.log2_lt_pow2; lia). lia.
Qed.
Lemma lor_add k m b : 0 <= k -> 0 <= b < 2 ^ k -> Z.lor (m * 2 ^ k) b = m * 2 ^ k + b.
Proof. intros Hk Hb. pose proof (land_shift k m b Hk Hb) as H. rewrite <- Z.lxor_lor by auto. now rewrite Z.add_nocarry_lxor. Qed.
Lemma lor_add' k m b : 0 <= k -> 0 <= b < 2 ^ k -> Z.lor b (m * 2 ^ k) = b + m * 2 ^ k.
Proof. intros. rewrite Z.lor_comm, lor_add by auto. lia. Qed.
Lemma all_below (P : Z -> bool) n : forallb P (map Z.of_nat (seq 0 n)) = true -> forall z, 0 <= z < Z.of_nat n -> P z = true.
Proof.
  intros H z Hz. rewrite forallb_forall in H. apply H. apply in_map_iff. exists (Z.to_nat z). split; [lia|].
  apply in_seq. lia.
Qed.
Lemma land128_low b : 0 <= b < 128 -> Z.land b 128 = 0.
Proof. intros H. apply Z.eqb_eq. revert b H. apply (all_below (fun b => Z.land b 128 =? 0) 128). vm_compute. reflexivity. Qed.
Lemma land128_high b : 128 <= b < 256 -> Z.land b 128 = 128.
Proof.
  intros H. assert (Hx : (b <? 128) || (Z.land b 128 =? 128) = true).
  { apply (all_below (fun b => (b <? 128) || (Z.land b 128 =? 128)) 256); [vm_compute; reflexivity|lia]. }
  apply orb_prop in Hx. destruct Hx as [Hx | Hx]; [apply Z.ltb_lt in Hx; lia|now apply Z.eqb_eq in Hx].
Qed.

(** ** Lists *)
Lemma blen_app a b : blen (a ++ b) = blen a + blen b.
Proof. unfold blen. rewrite app_length. lia. Qed.
Lemma blen_cons x a : blen (x :: a) = 1 + blen a.
Proof. unfold blen. simpl List.length. lia. Qed.
Lemma blen_nonneg a : 0 <= blen a.
Proof. unfold blen. lia. Qed.
Lemma take_app a b : take (blen a) (a ++ b) = a.
Proof. unfold take, blen. rewrite Nat2Z.id. rewrite firstn_app, firstn_all, Nat.sub_diag. simpl. now rewrite app_nil_r. Qed.
Lemma drop_app a b : drop (blen a) (a ++ b) = b.
Proof. unfold drop, blen. rewrite Nat2Z.id. rewrite skipn_app, skipn_all, Nat.sub_diag. reflexivity. Qed.
Lemma take_drop n s : take n s ++ drop n s = s.
Proof. apply firstn_skipn. Qed.
Lemma blen_take n s : 0 <= n <= blen s -> blen (take n s) = n.
Proof. unfold take, blen. intros. rewrite firstn_length. lia. Qed.

(** ** Lengths *)
Lemma encode_length_small n : 0 <= n <= 127 -> encode_length n = [n].
Proof. intros H. unfold encode_length. now rewrite (proj2 (Z.leb_le n 127)) by lia. Qed.
Lemma encode_length_1 n : 128 <= n <= 255 -> encode_length n = [129; n].
Proof.
  intros H. unfold encode_length. rewrite (proj2 (Z.leb_gt n 127)) by lia. cbn [le_bytes].
  rewrite Z.div_small by lia. rewrite Z.mod_small by lia. reflexivity.
Qed.
Lemma encode_length_2 n : 256 <= n <= 65535 -> encode_length n = [130; n / 256; n mod 256].
Proof.
  intros H. unfold encode_length. rewrite (proj2 (Z.leb_gt n 127)) by lia. cbn [le_bytes].
  assert (1 <= n / 256 < 256) by (split; [apply Z.div_le_lower_bound; lia|apply Z.div_lt_upper_bound; lia]).
  rewrite (proj2 (Z.eqb_neq (n / 256) 0)) by lia. rewrite (Z.div_small (n / 256)) by lia. rewrite (Z.mod_small (n / 256)) by lia. reflexivity.
Qed.
Lemma decode_encode_length n rest : 0 <= n <= 1000 -> decode_length (encode_length n ++ rest) = LenOk n (blen (encode_length n)).
Proof.
  intros H. assert (n <= 127 \/ 128 <= n <= 255 \/ 256 <= n) as [Hn | [Hn | Hn]] by lia.
  - rewrite encode_length_small by lia. unfold decode_length. cbn [app byte_at nth Z.to_nat].
    rewrite (proj2 (Z.eqb_neq n 128)) by lia. rewrite land128_low by lia. reflexivity.
  - rewrite encode_length_1 by lia. unfold decode_length. change (byte_at ([129; n] ++ rest) 0) with 129.
    change (129 =? 128) with false. change (Z.land 129 128 =? 0) with false. change (Z.land 129 127) with 1. cbv iota zeta beta.
    change (4 <? 1) with false. cbv iota. cbn [app]. rewrite !blen_cons. pose proof (blen_nonneg rest).
    rewrite (proj2 (Z.ltb_ge _ 1)) by lia. change (Z.to_nat 1) with 1%nat. cbn [seq map be_value].
    change (byte_at (129 :: n :: rest) (Z.of_nat 1)) with n. replace (256 * 0 + n) with n by lia.
    rewrite (proj2 (Z.ltb_lt n 2147483648)) by lia. reflexivity.
  - rewrite encode_length_2 by lia. unfold decode_length. change (byte_at ([130; n / 256; n mod 256] ++ rest) 0) with 130.
    change (130 =? 128) with false. change (Z.land 130 128 =? 0) with false. change (Z.land 130 127) with 2. cbv iota zeta beta.
    change (4 <? 2) with false. cbv iota. cbn [app]. rewrite !blen_cons. pose proof (blen_nonneg rest).
    rewrite (proj2 (Z.ltb_ge _ 2)) by lia. change (Z.to_nat 2) with 2%nat. cbn [seq map be_value].
    change (byte_at (130 :: n / 256 :: n mod 256 :: rest) (Z.of_nat 1)) with (n / 256).
    change (byte_at (130 :: n / 256 :: n mod 256 :: rest) (Z.of_nat 2)) with (n mod 256).
    pose proof (Z.div_mod n 256 ltac:(lia)) as Hdm.
    replace (256 * (256 * 0 + n / 256) + n mod 256) with n by lia.
    rewrite (proj2 (Z.ltb_lt n 2147483648)) by lia. reflexivity.
Qed.

(** ** Unfolding *)
Lemma string_loop_S sgn f ber tag pos acc : string_loop sgn (S f) ber tag pos acc =
  if blen ber <? pos then DThrow else
  match decode_token sgn f (drop pos ber) with
  | DTok t e _ sp => if t =? kCerEnd then DTok tag 0 None (Some acc) else if negb (t =? tag) then d_unknown
      else string_loop sgn f ber tag (pos + e) (acc ++ match sp with Some s => s | None => [] end)
  | x => x end.
Proof. reflexivity. Qed.
Lemma decode_token_S sgn f ber : decode_token sgn (S f) ber =
  if blen ber <? 2 then d_unknown else
  let b0 := byte_at ber 0 in
  let cls := Z.land b0 192 in
  let tag := Z.land b0 31 in
  let constructed := negb (Z.land b0 32 =? 0) in
  match decode_length (drop 1 ber) with
  | LenUB => DUB
  | LenOk len lend =>
      if len <? -1 then d_unknown
      else if negb (len =? -1) && (blen ber <? 1 + lend) then DThrow
      else
      let content := if len =? -1 then drop 2 ber else take len (drop (1 + lend) ber) in
      if cls =? 0 then
        if tag =? kCerSequence then
          if constructed then DTok kCerSequence (lend + 1) (Some len) None else d_unknown
        else if tag =? kCerEnd then
          if len =? 0 then DTok kCerEnd 0 None None else d_unknown
        else if is_int_tag tag then
          if constructed || (len =? -1) then d_unknown
          else if (4 <? blen content) || (blen content <? 1) then d_unknown
          else DTok tag (1 + lend + len) (Some (decode_int sgn content len)) None
        else if is_string_tag tag then
          if 0 <=? len then DTok tag (1 + lend + len) None (Some content)
          else string_loop sgn f ber tag (1 + lend) []
        else d_unknown
      else if constructed then DTok (Z.lor tag cls) (lend + 1) (Some len) None else d_unknown
  end.
Proof. reflexivity. Qed.

(** ** Strings *)
Definition string_tag (t : Z) : Prop := t = 4 \/ t = 12 \/ 18 <= t <= 29.
Lemma string_tag_facts t : string_tag t ->
  Z.land t 192 = 0 /\ Z.land t 31 = t /\ (t =? kCerSequence) = false /\ (t =? kCerEnd) = false /\ is_int_tag t = false /\ is_string_tag t = true.
Proof.
  intros [-> | [-> | H]]; [repeat split; reflexivity|repeat split; reflexivity|].
  assert (t = 18 \/ t = 19 \/ t = 20 \/ t = 21 \/ t = 22 \/ t = 23 \/ t = 24 \/ t = 25 \/ t = 26 \/ t = 27 \/ t = 28 \/ t = 29) as Ht by lia.
  repeat (destruct Ht as [-> | Ht]; [repeat split; reflexivity|]). subst. repeat split; reflexivity.
Qed.
Lemma decode_short sgn f s tag rest : string_tag tag -> blen s <= 1000 ->
  decode_token sgn (S f) (tag :: (encode_length (blen s) ++ s) ++ rest) =
  DTok tag (1 + blen (encode_length (blen s) ++ s)) None (Some s).
Proof.
  intros Ht Hs. destruct (string_tag_facts tag Ht) as (T1 & T2 & T3 & T4 & T5 & T6). pose proof (blen_nonneg s). pose proof (blen_nonneg rest).
  assert (He : 1 <= blen (encode_length (blen s))).
  { unfold encode_length. destruct (blen s <=? 127); [unfold blen; simpl; lia|].
    cbv zeta. rewrite rev_unit, blen_cons. pose proof (blen_nonneg (rev (le_bytes 8 (blen s)))). lia. }
  rewrite decode_token_S. cbv zeta.
  change (byte_at (tag :: (encode_length (blen s) ++ s) ++ rest) 0) with tag.
  change (drop 1 (tag :: (encode_length (blen s) ++ s) ++ rest)) with ((encode_length (blen s) ++ s) ++ rest).
  rewrite <- app_assoc. rewrite decode_encode_length by lia. rewrite T1, T2, T3, T4, T5, T6.
  rewrite blen_cons, blen_app. rewrite !blen_app.
  rewrite (proj2 (Z.ltb_ge _ 2)) by lia. rewrite (proj2 (Z.ltb_ge (blen s) (-1))) by lia.
  rewrite (proj2 (Z.eqb_neq (blen s) (-1))) by lia. rewrite (proj2 (Z.ltb_ge _ (1 + blen (encode_length (blen s))))) by lia.
  rewrite (proj2 (Z.leb_le 0 (blen s))) by lia. cbv iota beta zeta. cbn [negb andb]. change (0 =? 0) with true. cbv iota.
  f_equal; [lia|]. f_equal.
  replace (1 + blen (encode_length (blen s))) with (blen (tag :: encode_length (blen s))) by (rewrite blen_cons; lia).
  change (tag :: encode_length (blen s) ++ s ++ rest) with ((tag :: encode_length (blen s)) ++ s ++ rest).
  rewrite drop_app, take_app. reflexivity.
Qed.
Lemma decode_end sgn f rest : decode_token sgn (S f) ([0; 0] ++ rest) = DTok kCerEnd 0 None None.
Proof.
  rewrite decode_token_S. cbn [app]. cbv zeta. rewrite !blen_cons. pose proof (blen_nonneg rest). rewrite (proj2 (Z.ltb_ge _ 2)) by lia.
  change (byte_at (0 :: 0 :: rest) 0) with 0. change (drop 1 (0 :: 0 :: rest)) with (0 :: rest).
  change (decode_length (0 :: rest)) with (LenOk 0 1). change (0 <? -1) with false. change (0 =? -1) with false.
  cbv iota. cbn [negb andb]. rewrite (proj2 (Z.ltb_ge _ (1 + 1))) by lia. reflexivity.
Qed.
Lemma chunk_loop sgn tag rest : string_tag tag -> forall k s pre acc fuel, (List.length s <= k)%nat -> (k + 2 <= fuel)%nat ->
  string_loop sgn fuel (pre ++ encode_chunks k s tag ++ [0; 0] ++ rest) tag (blen pre) acc = DTok tag 0 None (Some (acc ++ s)).
Proof.
  intros Ht. destruct (string_tag_facts tag Ht) as (T1 & T2 & T3 & T4 & T5 & T6).
  induction k as [|k IH]; intros s pre acc fuel Hk Hf; (destruct fuel as [|[|fuel]]; [lia|lia|]).
  - destruct s; [|simpl in Hk; lia]. rewrite string_loop_S. cbn [encode_chunks app].
    rewrite (proj2 (Z.ltb_ge _ (blen pre))) by (rewrite blen_app; pose proof (blen_nonneg (0 :: 0 :: rest)); lia).
    rewrite drop_app. change (0 :: 0 :: rest) with ([0; 0] ++ rest). rewrite decode_end.
    change (kCerEnd =? kCerEnd) with true. cbv iota. now rewrite app_nil_r.
  - destruct s as [|x s].
    + rewrite string_loop_S. cbn [encode_chunks app].
      rewrite (proj2 (Z.ltb_ge _ (blen pre))) by (rewrite blen_app; pose proof (blen_nonneg (0 :: 0 :: rest)); lia).
      rewrite drop_app. change (0 :: 0 :: rest) with ([0; 0] ++ rest). rewrite decode_end.
      change (kCerEnd =? kCerEnd) with true. cbv iota. now rewrite app_nil_r.
    + set (st := x :: s) in *. assert (Hpos : 1 <= blen st) by (unfold st; rewrite blen_cons; pose proof (blen_nonneg s); lia).
      set (size := if cer_max_primitive <? blen st then cer_max_primitive else blen st).
      assert (Hsz : 1 <= size <= blen st /\ size <= 1000).
      { unfold size, cer_max_primitive. destruct (Z.ltb_spec 1000 (blen st)); lia. }
      assert (Ec : encode_chunks (S k) st tag = tag :: (encode_length size ++ take size st) ++ encode_chunks k (drop size st) tag) by reflexivity.
      rewrite Ec. assert (Hts : blen (take size st) = size) by (apply blen_take; lia).
      set (tok := tag :: encode_length size ++ take size st).
      replace (pre ++ (tag :: (encode_length size ++ take size st) ++ encode_chunks k (drop size st) tag) ++ [0; 0] ++ rest)
        with (pre ++ tok ++ encode_chunks k (drop size st) tag ++ [0; 0] ++ rest)
        by (unfold tok; cbn [app]; rewrite <- !app_assoc; reflexivity).
      set (more := encode_chunks k (drop size st) tag ++ [0; 0] ++ rest) in *.
      rewrite string_loop_S.
      rewrite (proj2 (Z.ltb_ge _ (blen pre))) by (rewrite blen_app; pose proof (blen_nonneg (tok ++ more)); lia).
      rewrite drop_app.
      assert (Hd : decode_token sgn (S fuel) (tok ++ more) = DTok tag (blen tok) None (Some (take size st))).
      { unfold tok. rewrite blen_cons. rewrite <- Hts at 1 3. apply decode_short; auto. lia. }
      rewrite Hd, T4, Z.eqb_refl. cbv iota. cbn [negb].
      rewrite <- blen_app. rewrite app_assoc. unfold more. rewrite IH.
      * rewrite <- app_assoc, take_drop. reflexivity.
      * unfold drop. rewrite skipn_length. unfold blen in *. lia.
      * lia.
Qed.
Lemma decode_long sgn s tag rest fuel : string_tag tag -> 1000 < blen s -> (List.length s + 3 <= fuel)%nat ->
  decode_token sgn fuel (tag :: encode_string s tag ++ rest) = DTok tag 0 None (Some s).
Proof.
  intros Ht Hs Hf. destruct (string_tag_facts tag Ht) as (T1 & T2 & T3 & T4 & T5 & T6). destruct fuel as [|fuel]; [lia|].
  unfold encode_string. rewrite (proj2 (Z.leb_gt (blen s) cer_max_primitive)) by (unfold cer_max_primitive; lia).
  set (ch := encode_chunks (List.length s) s tag).
  rewrite decode_token_S. cbv zeta.
  change (byte_at (tag :: (128 :: ch ++ [0; 0]) ++ rest) 0) with tag.
  change (drop 1 (tag :: (128 :: ch ++ [0; 0]) ++ rest)) with (128 :: (ch ++ [0; 0]) ++ rest).
  change (decode_length (128 :: (ch ++ [0; 0]) ++ rest)) with (LenOk (-1) 1).
  rewrite T1, T2, T3, T4, T5, T6. cbn [app]. rewrite !blen_cons. pose proof (blen_nonneg ((ch ++ [0; 0]) ++ rest)).
  rewrite (proj2 (Z.ltb_ge _ 2)) by lia. change (-1 <? -1) with false. change (-1 =? -1) with true. change (0 =? 0) with true.
  change (0 <=? -1) with false. cbv iota beta zeta. cbn [negb andb].
  rewrite <- app_assoc. exact (chunk_loop sgn tag rest Ht (List.length s) s [tag; 128] [] fuel ltac:(lia) ltac:(lia)).
Qed.

(** ** Integers *)
Definition int_tag (t : Z) : Prop := t = 1 \/ t = 2 \/ t = 10.
Lemma decode_int_token sgn f tag c rest : int_tag tag -> 1 <= blen c <= 4 ->
  decode_token sgn (S f) (tag :: (blen c :: c) ++ rest) = DTok tag (2 + blen c) (Some (decode_int sgn c (blen c))) None.
Proof.
  intros Ht Hc. rewrite decode_token_S. cbv zeta.
  change (byte_at (tag :: (blen c :: c) ++ rest) 0) with tag.
  change (drop 1 (tag :: (blen c :: c) ++ rest)) with (blen c :: c ++ rest).
  assert (Hl : decode_length (blen c :: c ++ rest) = LenOk (blen c) 1).
  { unfold decode_length. change (byte_at (blen c :: c ++ rest) 0) with (blen c).
    rewrite (proj2 (Z.eqb_neq (blen c) 128)) by lia. rewrite land128_low by lia. reflexivity. }
  rewrite Hl. cbn [app]. rewrite !blen_cons, blen_app. pose proof (blen_nonneg rest).
  rewrite (proj2 (Z.ltb_ge _ 2)) by lia. rewrite (proj2 (Z.ltb_ge (blen c) (-1))) by lia.
  rewrite (proj2 (Z.eqb_neq (blen c) (-1))) by lia. rewrite (proj2 (Z.ltb_ge _ (1 + 1))) by lia. cbn [negb andb]. cbv iota zeta.
  assert (Hcont : take (blen c) (drop (1 + 1) (tag :: blen c :: c ++ rest)) = c).
  { change (drop (1 + 1) (tag :: blen c :: c ++ rest)) with (c ++ rest). apply take_app. }
  rewrite Hcont. rewrite (proj2 (Z.ltb_ge 4 (blen c))) by lia. rewrite (proj2 (Z.ltb_ge (blen c) 1)) by lia.
  destruct Ht as [-> | [-> | ->]]; cbn - [blen decode_int Z.add]; f_equal; lia.
Qed.
