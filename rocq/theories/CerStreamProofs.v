From Verif Require Import Base CerModel CerProofs CerProofs2 PropsCodec CerStreamModel CerStreamSpec.

(** ** Tokens *)
Lemma token_S : forall sgn b, token sgn b = decode_token sgn (S (List.length b + 2)) b.
Proof. intros. unfold token. replace (List.length b + 3)%nat with (S (List.length b + 2)) by lia. reflexivity. Qed.

Lemma length_ge1 : forall n, 1 <= blen (encode_length n).
Proof.
  intros n. unfold encode_length. destruct (n <=? 127); [unfold blen; simpl; lia|].
  cbv zeta. rewrite rev_unit, blen_cons. pose proof (blen_nonneg (rev (le_bytes 8 n))). lia.
Qed.
Lemma encode_length_dec : forall n rest, 0 <= n <= 65535 -> decode_length (encode_length n ++ rest) = LenOk n (blen (encode_length n)).
Proof.
  intros n rest H. destruct (Z_le_gt_dec n 1000) as [Hn|Hn]; [apply decode_encode_length; lia|].
  rewrite encode_length_2 by lia. unfold decode_length. change (byte_at ([130; n / 256; n mod 256] ++ rest) 0) with 130.
  change (130 =? 128) with false. change (Z.land 130 128 =? 0) with false. change (Z.land 130 127) with 2. cbv iota zeta beta.
  change (4 <? 2) with false. cbv iota. cbn [app]. rewrite !blen_cons. pose proof (blen_nonneg rest).
  rewrite (proj2 (Z.ltb_ge _ 2)) by lia. change (Z.to_nat 2) with 2%nat. cbn [seq map be_value].
  change (byte_at (130 :: n / 256 :: n mod 256 :: rest) (Z.of_nat 1)) with (n / 256).
  change (byte_at (130 :: n / 256 :: n mod 256 :: rest) (Z.of_nat 2)) with (n mod 256).
  pose proof (Z.div_mod n 256 ltac:(lia)) as Hdm.
  replace (256 * (256 * 0 + n / 256) + n mod 256) with n by lia.
  rewrite (proj2 (Z.ltb_lt n 2147483648)) by lia. reflexivity.
Qed.

(** The first byte of a sequence (48) or of an explicit tag. *)
Definition open_byte (b full : Z) : Prop := (b = 48 /\ full = 16) \/ (exists t c, fine_expl t c /\ b = t + c + 32 /\ full = Z.lor t c).
Lemma expl_facts : forall t c, fine_expl t c ->
  Z.land (t + c + 32) 192 = c /\ Z.land (t + c + 32) 31 = t /\ (Z.land (t + c + 32) 32 =? 0) = false /\ (c =? 0) = false /\
  Z.land (Z.lor t c) 255 = Z.lor t c /\ Z.lor (Z.lor t c) 32 = t + c + 32 /\ 64 <= Z.lor t c <= 254.
Proof.
  intros t c [Ht Hc].
  pose (P := fun z => forallb (fun c => (Z.land (z + c + 32) 192 =? c) && (Z.land (z + c + 32) 31 =? z) && negb (Z.land (z + c + 32) 32 =? 0) &&
       negb (c =? 0) && (Z.land (Z.lor z c) 255 =? Z.lor z c) && (Z.lor (Z.lor z c) 32 =? z + c + 32) && (64 <=? Z.lor z c) && (Z.lor z c <=? 254))
       [64; 128; 192]).
  assert (HP : P t = true) by (apply (all_below P 31); [vm_compute; reflexivity | lia]).
  unfold P in HP. rewrite forallb_forall in HP.
  assert (Hin : In c [64; 128; 192]) by (cbn; lia). specialize (HP c Hin). cbv beta in HP.
  repeat (rewrite andb_true_iff in HP). destruct HP as [[[[[[[A B] C] D] E] F] G] H].
  apply Z.eqb_eq in A, B, E, F. apply negb_true_iff in C, D. apply Z.leb_le in G, H. repeat (split; [assumption|]). lia.
Qed.
Lemma open_facts : forall b full, open_byte b full -> full <> 255 /\ full <> 0 /\ 16 <= full /\
  forall sgn f n lb rest, decode_length (lb ++ rest) = LenOk n (blen lb) -> -1 <= n -> 1 <= blen lb ->
  decode_token sgn (S f) (b :: lb ++ rest) = DTok full (1 + blen lb) (Some n) None.
Proof.
  intros b full Ho.
  assert (Hx : forall sgn f n lb rest, decode_length (lb ++ rest) = LenOk n (blen lb) -> -1 <= n -> 1 <= blen lb ->
     decode_token sgn (S f) (b :: lb ++ rest) = DTok full (1 + blen lb) (Some n) None).
  { intros sgn f n lb rest Hl Hn Hb. rewrite decode_token_S. cbv zeta. change (byte_at (b :: lb ++ rest) 0) with b.
    change (drop 1 (b :: lb ++ rest)) with (lb ++ rest). rewrite Hl. rewrite blen_cons, blen_app. pose proof (blen_nonneg rest).
    rewrite (proj2 (Z.ltb_ge _ 2)) by lia. rewrite (proj2 (Z.ltb_ge n (-1))) by lia.
    assert (negb (n =? -1) && (1 + (blen lb + blen rest) <? 1 + blen lb) = false) as ->.
    { apply andb_false_iff. right. apply Z.ltb_ge. lia. }
    destruct Ho as [[-> ->] | [t [c [Hf [-> ->]]]]].
    - change (Z.land 48 192 =? 0) with true. change (Z.land 48 31 =? kCerSequence) with true. change (negb (Z.land 48 32 =? 0)) with true.
      cbv iota. f_equal. lia.
    - destruct (expl_facts t c Hf) as [A [B [C [D _]]]]. rewrite A, B, C, D. cbn [negb]. cbv iota. f_equal. lia. }
  destruct Ho as [[Hb ->] | [t [c [Hf [Hb ->]]]]].
  - split; [lia|]. split; [lia|]. split; [lia | exact Hx].
  - destruct (expl_facts t c Hf) as [_ [_ [_ [_ [_ [_ R]]]]]]. split; [lia|]. split; [lia|]. split; [lia | exact Hx].
Qed.

Lemma tag_ranges : forall sgn f, good_field sgn f -> 1 <= ftag f <= 29 /\ ftag f <> 16.
Proof. intros sgn [t n|t b|t s]; cbn; unfold int_tag, string_tag; intros H; lia. Qed.

(** A field is read as one token with its end and its value. *)
Definition carries (f : field) (ip : option Z) (sp : option bytes) : Prop :=
  match f with
  | FInt _ n => ip = Some n
  | FBool _ b => ip = Some (if b then 1 else 0)
  | FStr _ s => sp = Some s
  end.
Lemma field_token : forall sgn f rest, good_field sgn f -> exists ip sp,
  token sgn (der_field f ++ rest) = DTok (ftag f) (blen (der_field f)) ip sp /\ carries f ip sp.
Proof.
  intros sgn f rest H. rewrite token_S. destruct f as [t n|t b|t s]; cbn [der_field ftag carries] in *.
  - destruct H as [Ht Hn]. exists (Some n), None. split; [|reflexivity]. rewrite blen_cons. cbn [app].
    destruct Hn as [Hn | [-> [Hr Hn]]]; [apply C37_small_integer_partial; assumption|].
    apply (int_round_trip_iff _ t n rest Ht Hr). exact Hn.
  - exists (Some (if b then 1 else 0)), None. split; [|reflexivity]. rewrite blen_cons. cbn [app].
    apply C37_small_integer_partial; [exact H|destruct b; lia].
  - destruct H as [Ht [_ Hs]]. exists None, (Some s). split; [|reflexivity]. rewrite blen_cons. cbn [app]. apply decode_short; assumption.
Qed.
Lemma field_len : forall f, 2 <= blen (der_field f).
Proof.
  intros [t n|t b|t s]; cbn [der_field]; rewrite blen_cons.
  - rewrite encode_integer_content, blen_cons. pose proof (blen_nonneg (int_content n)). lia.
  - rewrite encode_integer_content, blen_cons. pose proof (blen_nonneg (int_content (if b then 1 else 0))). lia.
  - rewrite blen_app. pose proof (length_ge1 (blen s)). pose proof (blen_nonneg s). lia.
Qed.

(** ** Steps *)
Lemma rsteps_app : forall sgn a b d d1 v1, rsteps sgn d a = RDone (d1, v1) ->
  rsteps sgn d (a ++ b) = match rsteps sgn d1 b with RDone (d2, v2) => RDone (d2, v1 ++ v2) | x => x end.
Proof.
  intros sgn a. induction a as [|o a IH]; intros b d d1 v1 H; cbn [rsteps app] in *.
  - injection H as <- <-. destruct (rsteps sgn d b) as [[d2 v2]| | |]; reflexivity.
  - destruct (rstep sgn d o) as [[d' v]| | |]; try discriminate H.
    destruct (rsteps sgn d' a) as [[d'' v']| | |] eqn:E; try discriminate H. injection H as <- <-.
    rewrite (IH b d' d'' v' E). destruct (rsteps sgn d'' b) as [[d2 v2]| | |]; try reflexivity. rewrite List.app_assoc. reflexivity.
Qed.
Lemma advance_app : forall a b d, d_data d = a ++ b -> advance (blen a) d = RDone (set_data b d).
Proof.
  intros a b d H. unfold advance. rewrite H, blen_app. pose proof (blen_nonneg b). rewrite (proj2 (Z.ltb_ge _ _)) by lia.
  rewrite drop_app. reflexivity.
Qed.

(** A reader outside of any OPTIONAL. *)
Definition plain (d : des) : Prop := d_optc d = 0.
Lemma plain_facts : forall d, plain d -> skipping d = false /\ found d = d /\ in_opt d = false.
Proof. intros d H. unfold plain in H. unfold skipping, found, in_opt. rewrite H. split; [|split]; reflexivity. Qed.

(** What reading [n] bytes of parts does to the counts of the sequences around. *)
Definition counted (n : Z) (d d' : des) : Prop :=
  d_lens d' = d_lens d /\
  match d_lens d, d_cons d with
  | l :: _, c :: cs => d_cons d' = (if 0 <? l then c + n else c) :: cs
  | _, _ => d_cons d' = d_cons d
  end.
(** There is room. *)
Definition room (n : Z) (d : des) : Prop := match d_lens d, d_cons d with l :: _, c :: _ => 0 < l -> c + n <= l | _, _ => True end.

Lemma tag_step : forall sgn t e ip sp a b d, plain d -> d_data d = a ++ b -> token sgn (a ++ b) = DTok t e ip sp -> e = blen a -> room e d ->
  exists d', read_tag sgn t d = RDone d' /\ plain d' /\ d_data d' = b /\ counted e d d' /\
    d_int d' = match ip with Some z => z | None => d_int d end /\ d_str d' = match sp with Some s => s | None => d_str d end.
Proof.
  intros sgn t e ip sp a b d Hp Hd Ht -> Hr. unfold read_tag. destruct (plain_facts d Hp) as [-> _]. rewrite Hd, Ht, Z.eqb_refl. cbn [negb].
  assert (Hf : found (set_params ip sp d) = set_params ip sp d) by (apply plain_facts; exact Hp). rewrite Hf.
  unfold room in Hr. unfold counted. change (d_lens (set_params ip sp d)) with (d_lens d). change (d_cons (set_params ip sp d)) with (d_cons d).
  destruct (d_lens d) as [|l ls] eqn:El.
  - rewrite (advance_app a b) by exact Hd. eexists. split; [reflexivity|]. cbn. rewrite El. repeat split; first [exact Hp | reflexivity | assumption].
  - destruct (d_cons d) as [|c cs] eqn:Ec.
    + rewrite (advance_app a b) by exact Hd. eexists. split; [reflexivity|]. cbn. rewrite El, Ec. repeat split; first [exact Hp | reflexivity | assumption].
    + destruct (0 <? l) eqn:Epos.
      * apply Z.ltb_lt in Epos. rewrite (proj2 (Z.ltb_ge _ _)) by (apply Hr; exact Epos).
        rewrite (advance_app a b) by exact Hd. eexists. split; [reflexivity|]. cbn. repeat split; first [exact Hp | reflexivity | assumption].
      * rewrite (advance_app a b) by exact Hd. eexists. split; [reflexivity|]. cbn. rewrite El, Ec. repeat split; first [exact Hp | reflexivity | assumption].
Qed.

Lemma field_steps : forall sgn f b d, good_field sgn f -> plain d -> d_data d = der_field f ++ b -> room (blen (der_field f)) d ->
  exists d', rsteps sgn d (rfield f) = RDone (d', vfield f) /\ plain d' /\ d_data d' = b /\ counted (blen (der_field f)) d d'.
Proof.
  intros sgn f b d Hg Hp Hd Hr. destruct (field_token sgn f b Hg) as [ip [sp [Ht Hc]]].
  destruct (tag_step sgn _ _ ip sp _ _ d Hp Hd Ht eq_refl Hr) as [d' [H1 [H2 [H3 [H4 [H5 H6]]]]]].
  exists d'. split; [|split; [exact H2|split; [exact H3|exact H4]]].
  destruct f as [t n|t v|t s]; cbn [rfield vfield rsteps rstep ftag carries] in *; rewrite H1; cbn [app]; unfold plain in H2; rewrite H2;
    cbn [Z.eqb orb]; cbn [app].
  - rewrite H5, Hc. reflexivity.
  - rewrite H5, Hc. destruct v; reflexivity.
  - rewrite H6, Hc. reflexivity.
Qed.

Lemma open_steps : forall sgn b full n lb rest d, open_byte b full -> plain d -> d_data d = b :: lb ++ rest ->
  decode_length (lb ++ rest) = LenOk n (blen lb) -> -1 <= n -> 1 <= blen lb ->
  read_open sgn full d = RDone (opush n (set_data rest d)).
Proof.
  intros sgn b full n lb rest d Ho Hp Hd Hl Hn Hb. destruct (open_facts b full Ho) as [_ [_ [_ Ht]]].
  unfold read_open. rewrite Hd, token_S, (Ht sgn _ n lb rest Hl Hn Hb), Z.eqb_refl. cbn [negb].
  destruct (plain_facts d Hp) as [_ [-> _]].
  replace (1 + blen lb) with (blen (b :: lb)) by (rewrite blen_cons; reflexivity).
  rewrite (advance_app (b :: lb) rest) by exact Hd. reflexivity.
Qed.

(** ** Writing chains *)
Definition open_of (t k : Z) : bytes := [Z.lor (Z.land (Z.lor t k) 255) 32; 128].
Fixpoint cbytes (c : chain) : bytes :=
  match c with
  | CNil => []
  | CField f c => der_field f ++ cbytes c
  | COpt p f c => (if p then der_field f else []) ++ cbytes c
  | CSeq c => [48; 128] ++ cbytes c ++ [0; 0]
  | CExpl t k c => open_of t k ++ cbytes c ++ [0; 0]
  end.
Lemma write_field : forall sgn f s, good_field sgn f -> exists last,
  fold_left wstep (wfield f) s = {| w_out := w_out s ++ der_field f; w_last := last |}.
Proof.
  intros sgn f s H. pose proof (tag_ranges sgn f H) as Ht.
  assert (Hl : Z.land (ftag f) 255 = ftag f).
  { change 255 with (Z.ones 8). rewrite Z.land_ones by lia. apply Z.mod_small. change (2 ^ 8) with 256. lia. }
  destruct f as [t n|t b|t v]; cbn [wfield fold_left wstep der_field ftag good_field] in *; exists t; unfold add; cbn [w_out w_last]; rewrite Hl.
  - rewrite <- List.app_assoc. reflexivity.
  - rewrite <- List.app_assoc. reflexivity.
  - destruct H as [_ [_ Hv]]. unfold encode_string. rewrite (proj2 (Z.leb_le (blen v) cer_max_primitive)) by (unfold cer_max_primitive; lia).
    rewrite <- List.app_assoc. reflexivity.
Qed.
Lemma write_chain : forall sgn c s, good sgn c -> exists last,
  fold_left wstep (List.concat (map wops (items c))) s = {| w_out := w_out s ++ cbytes c; w_last := last |}.
Proof.
  intros sgn c. induction c as [|f c IH|p f c IH|c IH|t k c IH]; intros s H; cbn [items map List.concat cbytes wops good] in *.
  - exists (w_last s). cbn. rewrite List.app_nil_r. destruct s; reflexivity.
  - destruct H as [Hf H]. rewrite fold_left_app. destruct (write_field sgn f s Hf) as [l1 ->]. destruct (IH {| w_out := w_out s ++ der_field f; w_last := l1 |} H) as [l2 ->].
    exists l2. cbn [w_out]. rewrite <- List.app_assoc. reflexivity.
  - destruct H as [Hf [_ H]]. destruct p; cbn [app].
    + rewrite List.app_nil_r, fold_left_app. destruct (write_field sgn f s Hf) as [l1 ->]. destruct (IH {| w_out := w_out s ++ der_field f; w_last := l1 |} H) as [l2 ->].
      exists l2. cbn [w_out]. rewrite <- List.app_assoc. reflexivity.
    + apply IH. exact H.
  - rewrite List.app_nil_r. cbn [fold_left]. rewrite fold_left_app. destruct (IH (wstep s WSeq) H) as [l ->].
    exists l. cbn [fold_left wstep]. unfold add. cbn [w_out w_last]. rewrite <- !List.app_assoc. reflexivity.
  - destruct H as [_ H]. rewrite List.app_nil_r. cbn [fold_left]. rewrite fold_left_app. destruct (IH (wstep s (WExpl t k)) H) as [l ->].
    exists l. cbn [fold_left wstep]. unfold add. cbn [w_out w_last]. rewrite <- !List.app_assoc. reflexivity.
Qed.
Lemma open_of_byte : forall t k, fine_expl t k -> open_of t k = [t + k + 32; 128] /\ open_byte (t + k + 32) (Z.land (Z.lor t k) 255) /\
  Z.land (Z.lor t k) 255 = Z.lor t k.
Proof.
  intros t k H. destruct (expl_facts t k H) as [_ [_ [_ [_ [E [F _]]]]]]. unfold open_of. rewrite E, F. split; [reflexivity|]. split; [|reflexivity].
  right. exists t, k. split; [exact H|]. split; reflexivity.
Qed.

(** ** Reading chains *)
Fixpoint ends (c : chain) : bytes :=
  match c with CNil => [] | CField _ c | COpt _ _ c => ends c | CSeq c | CExpl _ _ c => ends c ++ [0; 0] end.
Lemma ends_zero : forall c rest, exists rest', ends c ++ [0; 0] ++ rest = [0; 0] ++ rest'.
Proof.
  induction c as [|f c IH|p f c IH|c IH|t k c IH]; intros rest; cbn [ends].
  - exists rest. reflexivity.
  - apply IH.
  - apply IH.
  - rewrite <- List.app_assoc. apply IH.
  - rewrite <- List.app_assoc. apply IH.
Qed.
(** What may come after the chain: nothing, or an end mark. *)
Definition after (rest : bytes) : Prop := rest = [] \/ exists r, rest = [0; 0] ++ r.

Lemma next_token : forall sgn c rest, good sgn c -> after rest -> exists tg e ip sp,
  token sgn (cbytes c ++ rest) = DTok tg e ip sp /\ (tg = next_tag c \/ tg = 255).
Proof.
  intros sgn c. induction c as [|f c IH|p f c IH|c IH|t k c IH]; intros rest H Ha; cbn [cbytes next_tag good app] in *.
  - destruct Ha as [-> | [r ->]]; rewrite token_S.
    + exists 255, 0, None, None. split; [reflexivity | right; reflexivity].
    + rewrite decode_end. exists 0, 0, None, None. split; [reflexivity | left; reflexivity].
  - destruct H as [Hf _]. destruct (field_token sgn f (cbytes c ++ rest) Hf) as [ip [sp [Ht _]]].
    exists (ftag f), (blen (der_field f)), ip, sp. rewrite <- List.app_assoc, Ht. split; [reflexivity | left; reflexivity].
  - destruct H as [Hf [_ H]]. destruct p; cbn [app]; [|exact (IH rest H Ha)].
    destruct (field_token sgn f (cbytes c ++ rest) Hf) as [ip [sp [Ht _]]].
    exists (ftag f), (blen (der_field f)), ip, sp. rewrite <- List.app_assoc, Ht. split; [reflexivity | left; reflexivity].
  - destruct (open_facts 48 16 (or_introl (conj eq_refl eq_refl))) as [_ [_ [_ Ht]]].
    rewrite token_S. exists 16, 2, (Some (-1)), None. split; [|left; reflexivity].
    apply (Ht sgn _ (-1) [128] ((cbytes c ++ [0; 0]) ++ rest)); [reflexivity | lia | unfold blen; cbn; lia].
  - destruct H as [Hf H]. destruct (open_of_byte t k Hf) as [-> [Hob He]]. rewrite He in Hob.
    destruct (open_facts _ _ Hob) as [_ [_ [_ Ht]]].
    rewrite token_S. exists (Z.lor t k), 2, (Some (-1)), None. split; [|left; reflexivity].
    apply (Ht sgn _ (-1) [128] ((cbytes c ++ [0; 0]) ++ rest)); [reflexivity | lia | unfold blen; cbn; lia].
Qed.

(** The sequences around are of unknown length. *)
Definition unknown_around (d : des) : Prop := Forall (fun l => l = -1) (d_lens d) /\ List.length (d_cons d) = List.length (d_lens d).
Lemma unknown_room : forall n d, unknown_around d -> room n d.
Proof. intros n d [H _]. unfold room. destruct (d_lens d) as [|l ls]; [exact Logic.I|]. destruct (d_cons d); [exact Logic.I|]. inversion_clear H. lia. Qed.
Lemma unknown_counted : forall n d d', unknown_around d -> counted n d d' -> unknown_around d' /\ d_lens d' = d_lens d /\ d_cons d' = d_cons d.
Proof.
  intros n d d' [H L] [C1 C2]. assert (Hc : d_cons d' = d_cons d).
  { destruct (d_lens d) as [|l ls]; [exact C2|]. destruct (d_cons d) as [|c cs]; [exact C2|]. inversion_clear H as [|? ? Hl _]. subst l. exact C2. }
  split; [|split; [exact C1 | exact Hc]]. split; [rewrite C1; exact H | rewrite C1, Hc; exact L].
Qed.

Lemma opt_present_steps : forall sgn f b d, good_field sgn f -> plain d -> unknown_around d -> d_data d = der_field f ++ b ->
  exists d', rsteps sgn d (ROpt :: rfield f ++ [REndOpt]) = RDone (d', vfield f ++ [VPresent true]) /\ plain d' /\ d_data d' = b /\
    d_lens d' = d_lens d /\ d_cons d' = d_cons d.
Proof.
  intros sgn f b d Hg Hp Hu Hd. destruct (field_token sgn f b Hg) as [ip [sp [Ht Hc]]].
  cbn [rsteps rstep]. destruct (plain_facts d Hp) as [-> _]. unfold plain in Hp. rewrite Hp. change (0 + 1) with 1.
  set (d1 := set_optc 1 true d).
  assert (Hrt : exists d2, read_tag sgn (ftag f) d1 = RDone d2 /\ d_data d2 = b /\ d_lens d2 = d_lens d /\ d_cons d2 = d_cons d /\ d_optc d2 = 1 /\
     d_optp d2 = true /\ d_int d2 = match ip with Some z => z | None => d_int d end /\ d_str d2 = match sp with Some s => s | None => d_str d end).
  { unfold read_tag. assert (skipping d1 = false) as -> by (unfold skipping, d1; cbn; rewrite andb_false_r; reflexivity).
    change (d_data d1) with (d_data d). rewrite Hd, Ht, Z.eqb_refl. cbn [negb].
    assert (found (set_params ip sp d1) = set_opt false true (set_params ip sp d1)) as -> by reflexivity.
    set (d3 := set_opt false true (set_params ip sp d1)).
    assert (Hadv : advance (blen (der_field f)) d3 = RDone (set_data b d3)) by (apply advance_app; exact Hd).
    change (d_lens d3) with (d_lens d). change (d_cons d3) with (d_cons d).
    exists (set_data b d3). destruct Hu as [Hu _]. split; [|repeat (split; [reflexivity|]); reflexivity].
    destruct (d_lens d) as [|l ls]; [exact Hadv|]. destruct (d_cons d) as [|c cs]; [exact Hadv|].
    inversion_clear Hu as [|? ? Hl _]. subst l. exact Hadv. }
  destruct Hrt as [d2 [R1 [R2 [R3 [R4 [R5 [R6 [R7 R8]]]]]]]].
  exists (set_optc (d_optc d2 - 1) (d_optf d2) d2). split; [|split; [unfold plain; cbn; lia|split; [exact R2|split; [exact R3|exact R4]]]].
  destruct f as [t n|t v|t s]; cbn [rfield rsteps rstep vfield ftag carries app] in *; rewrite R1; cbn [rsteps rstep app]; rewrite R6, R5;
    cbn [Z.eqb orb app].
  - rewrite R7, Hc. reflexivity.
  - rewrite R7, Hc. destruct v; reflexivity.
  - rewrite R8, Hc. reflexivity.
Qed.
Lemma opt_absent_steps : forall sgn f d tg e ip sp, plain d -> token sgn (d_data d) = DTok tg e ip sp -> tg <> ftag f ->
  exists d', rsteps sgn d (ROpt :: rfield f ++ [REndOpt]) = RDone (d', map gone (vfield f) ++ [VPresent false]) /\ plain d' /\ d_data d' = d_data d /\
    d_lens d' = d_lens d /\ d_cons d' = d_cons d.
Proof.
  intros sgn f d tg e ip sp Hp Ht Hne.
  cbn [rsteps rstep]. destruct (plain_facts d Hp) as [-> _]. unfold plain in Hp. rewrite Hp. change (0 + 1) with 1.
  set (d1 := set_optc 1 true d).
  assert (Hrt : read_tag sgn (ftag f) d1 = RDone (set_opt false false (set_params ip sp d1))).
  { unfold read_tag. assert (skipping d1 = false) as -> by (unfold skipping, d1; cbn; rewrite andb_false_r; reflexivity).
    change (d_data d1) with (d_data d). rewrite Ht, (proj2 (Z.eqb_neq _ _) Hne). cbn [negb]. reflexivity. }
  exists (set_optc 0 false (set_opt false false (set_params ip sp d1))). split; [|split; [reflexivity|split; [reflexivity|split; reflexivity]]].
  destruct f as [t n|t v|t s]; cbn [rfield rsteps rstep vfield ftag app] in *; rewrite Hrt; reflexivity.
Qed.

Lemma read_chain : forall sgn c rest d, good sgn c -> after rest -> plain d -> unknown_around d -> d_data d = cbytes c ++ rest ->
  exists d', rsteps sgn d (List.concat (map rops (items c))) = RDone (d', List.concat (map vals (items c))) /\ plain d' /\ d_data d' = ends c ++ rest /\
    d_lens d' = d_lens d /\ List.length (d_cons d') = List.length (d_cons d).
Proof.
  intros sgn c. induction c as [|f c IH|p f c IH|c IH|t k c IH]; intros rest d H Ha Hp Hu Hd; cbn [items map List.concat cbytes rops vals good ends] in *.
  - exists d. repeat (split; [first [reflexivity | assumption]|]). reflexivity.
  - destruct H as [Hf H]. rewrite <- List.app_assoc in Hd.
    destruct (field_steps sgn f _ d Hf Hp Hd (unknown_room _ _ Hu)) as [d1 [S1 [P1 [D1 C1]]]].
    destruct (unknown_counted _ _ _ Hu C1) as [U1 [L1 K1]].
    destruct (IH rest d1 H Ha P1 U1 D1) as [d2 [S2 [P2 [D2 [L2 K2]]]]].
    exists d2. rewrite (rsteps_app sgn _ _ _ _ _ S1), S2. split; [reflexivity|]. split; [exact P2|]. split; [exact D2|]. rewrite L2, K2, L1, K1. split; reflexivity.
  - destruct H as [Hf [Hne H]].
    assert (Hfirst : exists d1, rsteps sgn d (ROpt :: rfield f ++ [REndOpt]) =
        RDone (d1, (if p then vfield f else map gone (vfield f)) ++ [VPresent p]) /\ plain d1 /\ d_data d1 = cbytes c ++ rest /\
        d_lens d1 = d_lens d /\ d_cons d1 = d_cons d).
    { destruct p.
      - rewrite <- List.app_assoc in Hd. exact (opt_present_steps sgn f _ d Hf Hp Hu Hd).
      - cbn [app] in Hd. destruct (next_token sgn c rest H Ha) as [tg [e [ip [sp [Ht Htg]]]]]. rewrite <- Hd in Ht.
        destruct (opt_absent_steps sgn f d tg e ip sp Hp Ht) as [d1 [A [B [C [D E]]]]].
        { pose proof (tag_ranges sgn f Hf). destruct Htg as [ -> | -> ]; [exact (Hne eq_refl) | lia]. }
        exists d1. rewrite C, Hd. repeat (split; [assumption || reflexivity|]). exact E. }
    destruct Hfirst as [d1 [S1 [P1 [D1 [L1 K1]]]]].
    assert (U1 : unknown_around d1) by (unfold unknown_around; rewrite L1, K1; exact Hu).
    destruct (IH rest d1 H Ha P1 U1 D1) as [d2 [S2 [P2 [D2 [L2 K2]]]]].
    exists d2. replace ((rfield f ++ []) ++ [REndOpt]) with (rfield f ++ [REndOpt]) by (rewrite List.app_nil_r; reflexivity).
    rewrite (rsteps_app sgn _ _ _ _ _ S1), S2. split; [destruct p; cbn [List.concat map]; rewrite ?List.app_nil_r; reflexivity|].
    split; [exact P2|]. split; [exact D2|]. rewrite L2, K2, L1, K1. split; reflexivity.
  - rewrite !List.app_nil_r. cbn [rsteps rstep]. destruct (plain_facts d Hp) as [-> _].
    assert (Hop : read_open sgn kCerSequence d = RDone (opush (-1) (set_data (cbytes c ++ [0; 0] ++ rest) d))).
    { apply (open_steps sgn 48 16 (-1) [128]); try assumption; [left; split; reflexivity| |reflexivity|lia|unfold blen; cbn; lia].
      rewrite Hd. cbn [app]. rewrite <- !List.app_assoc. reflexivity. }
    rewrite Hop. set (d1 := opush (-1) (set_data (cbytes c ++ [0; 0] ++ rest) d)).
    assert (U1 : unknown_around d1). { destruct Hu as [A B]. split; [cbn; constructor; [reflexivity | exact A] | cbn; rewrite B; reflexivity]. }
    destruct (IH ([0; 0] ++ rest) d1 H (or_intror (ex_intro _ rest eq_refl)) Hp U1 eq_refl) as [d2 [S2 [P2 [D2 [L2 K2]]]]].
    rewrite (rsteps_app sgn _ _ _ _ _ S2). cbn [rsteps rstep]. destruct (plain_facts d2 P2) as [-> _].
    change (d_lens d1) with (-1 :: d_lens d) in L2. change (List.length (d_cons d1)) with (S (List.length (d_cons d))) in K2.
    unfold read_end. rewrite L2. destruct (d_cons d2) as [|k2 cs2] eqn:E2; [discriminate K2|]. cbn in K2. injection K2 as K2.
    change (0 <=? -1) with false. cbn iota. destruct (ends_zero c rest) as [r' Er]. rewrite D2, Er, token_S, decode_end. change (kCerEnd =? kCerEnd) with true. cbn [negb].
    assert (Hadv : advance 0 d2 = RDone (set_data ([0; 0] ++ r') d2)). { change 0 with (blen []). apply advance_app. rewrite D2, Er. reflexivity. }
    rewrite Hadv.
    assert (Hcl : exists cs3, close (k2 + 0) (d_lens d) cs2 (set_data ([0; 0] ++ r') d2) = set_stacks (d_lens d) cs3 (set_data ([0; 0] ++ r') d2) /\ List.length cs3 = List.length cs2).
    { unfold close. destruct (d_lens d); [exists cs2; split; reflexivity|]. destruct cs2; eexists; split; reflexivity. }
    destruct Hcl as [cs3 [-> Hcs3]]. eexists. cbn [app]. rewrite ?List.app_nil_r. split; [reflexivity|]. split; [exact P2|]. cbn [d_data set_stacks set_data d_lens d_cons].
    split; [change (0 :: 0 :: r') with ([0; 0] ++ r'); rewrite <- Er, <- (List.app_assoc (ends c)); reflexivity|]. split; [reflexivity|]. rewrite Hcs3. exact K2.
  - destruct H as [Hf H]. destruct (open_of_byte t k Hf) as [Hob [Hbyte He]].
    rewrite !List.app_nil_r. cbn [rsteps rstep]. destruct (plain_facts d Hp) as [-> _].
    assert (Hop : read_open sgn (Z.land (Z.lor t k) 255) d = RDone (opush (-1) (set_data (cbytes c ++ [0; 0] ++ rest) d))).
    { apply (open_steps sgn (t + k + 32) _ (-1) [128]); try assumption; [|reflexivity|lia|unfold blen; cbn; lia].
      rewrite Hd, Hob. cbn [app]. rewrite <- !List.app_assoc. reflexivity. }
    rewrite Hop. set (d1 := opush (-1) (set_data (cbytes c ++ [0; 0] ++ rest) d)).
    assert (U1 : unknown_around d1). { destruct Hu as [A B]. split; [cbn; constructor; [reflexivity | exact A] | cbn; rewrite B; reflexivity]. }
    destruct (IH ([0; 0] ++ rest) d1 H (or_intror (ex_intro _ rest eq_refl)) Hp U1 eq_refl) as [d2 [S2 [P2 [D2 [L2 K2]]]]].
    rewrite (rsteps_app sgn _ _ _ _ _ S2). cbn [rsteps rstep]. destruct (plain_facts d2 P2) as [-> _].
    change (d_lens d1) with (-1 :: d_lens d) in L2. change (List.length (d_cons d1)) with (S (List.length (d_cons d))) in K2.
    unfold read_end. rewrite L2. destruct (d_cons d2) as [|k2 cs2] eqn:E2; [discriminate K2|]. cbn in K2. injection K2 as K2.
    change (0 <=? -1) with false. cbn iota. destruct (ends_zero c rest) as [r' Er]. rewrite D2, Er, token_S, decode_end. change (kCerEnd =? kCerEnd) with true. cbn [negb].
    assert (Hadv : advance 0 d2 = RDone (set_data ([0; 0] ++ r') d2)). { change 0 with (blen []). apply advance_app. rewrite D2, Er. reflexivity. }
    rewrite Hadv.
    assert (Hcl : exists cs3, close (k2 + 0) (d_lens d) cs2 (set_data ([0; 0] ++ r') d2) = set_stacks (d_lens d) cs3 (set_data ([0; 0] ++ r') d2) /\ List.length cs3 = List.length cs2).
    { unfold close. destruct (d_lens d); [exists cs2; split; reflexivity|]. destruct cs2; eexists; split; reflexivity. }
    destruct Hcl as [cs3 [-> Hcs3]]. eexists. cbn [app]. rewrite ?List.app_nil_r. split; [reflexivity|]. split; [exact P2|]. cbn [d_data set_stacks set_data d_lens d_cons].
    split; [change (0 :: 0 :: r') with ([0; 0] ++ r'); rewrite <- Er, <- (List.app_assoc (ends c)); reflexivity|]. split; [reflexivity|]. rewrite Hcs3. exact K2.
Qed.
