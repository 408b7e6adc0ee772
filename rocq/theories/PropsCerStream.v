(** C171: what is written to a CER stream is read back by the matching calls.  C172: so is what others write with given lengths (DER). *)
From Verif Require Import Base CerModel CerProofs CerProofs2 PropsCodec CerStreamModel CerStreamSpec CerStreamProofs.

(** ** C171 *)
Definition C171_statement (sgn : bool) : Prop :=
  forall l, fold_right (fun x P => fine x /\ P) True l ->
  read sgn (List.concat (map rops l)) (write (List.concat (map wops l))) = RDone (List.concat (map vals l)).

(** Fields the tokens carry, OPTIONAL ones, and sequences that end where everything ends. *)
Theorem C171_partial : forall sgn c, good sgn c ->
  read sgn (List.concat (map rops (items c))) (write (List.concat (map wops (items c)))) = RDone (List.concat (map vals (items c))).
Proof.
  intros sgn c H. unfold write. destruct (write_chain sgn c ser0 H) as [last ->]. cbn [w_out ser0 app]. unfold read.
  destruct (read_chain sgn c [] (des0 (cbytes c)) H (or_introl eq_refl) eq_refl) as [d' [-> _]].
  - split; [constructor | reflexivity].
  - cbn. rewrite List.app_nil_r. reflexivity.
  - reflexivity.
Qed.

(** After a sequence nothing is read: its end mark is not consumed. *)
Theorem C171_refuted : forall sgn, ~ C171_statement sgn.
Proof.
  intros sgn H. specialize (H [ISeq [IField (FInt 2 1)]; IField (FInt 2 5)]).
  assert (E : read sgn (List.concat (map rops [ISeq [IField (FInt 2 1)]; IField (FInt 2 5)])) (write (List.concat (map wops [ISeq [IField (FInt 2 1)]; IField (FInt 2 5)]))) = RErr)
    by (destruct sgn; vm_compute; reflexivity).
  rewrite E in H. discriminate H. cbn. unfold int_tag. lia.
Qed.
(** An OPTIONAL within an OPTIONAL that is there: when the inner one is not, the rest of the outer one is not read either. *)
Theorem C171_optional_refuted : forall sgn,
  let l := [IOpt true [IField (FInt 2 1); IOpt false [IField (FStr 4 [])]; IField (FInt 10 7)]] in
  fold_right (fun x P => fine x /\ P) True l /\
  List.concat (map vals l) = [VInt 1; VKept; VPresent false; VInt 7; VPresent true] /\
  read sgn (List.concat (map rops l)) (write (List.concat (map wops l))) = RDone [VInt 1; VKept; VPresent false; VKept; VPresent false].
Proof.
  intros sgn l. split; [|split; [reflexivity | destruct sgn; vm_compute; reflexivity]].
  cbn. unfold int_tag, string_tag. repeat split; try discriminate; try constructor; lia.
Qed.
(** Skipping the rest of a sequence that holds a string of more than 1000 bytes never ends. *)
Definition long_string : bytes := repeat 65 (Z.to_nat 1001).
Theorem C171_rest_refuted : read false [RSeq; RRest] (write [WSeq; WTag 4; WStr long_string; WEnd]) = RLoop.
Proof. vm_compute. reflexivity. Qed.

Example C171_example : good false (CField (FStr 12 [104; 105]) (COpt false (FInt 2 3) (COpt true (FBool 1 true) (CSeq (CField (FInt 10 (-5)) (CExpl 3 128 (CField (FStr 4 []) CNil))))))) .
Proof. cbn. unfold int_tag, string_tag, fine_expl, is_byte. repeat split; try lia; try discriminate; repeat (constructor; try lia). Qed.

(** ** C172 *)
Definition C172_statement (sgn : bool) : Prop :=
  forall l, fold_right (fun x P => fine x /\ P) True l ->
  read sgn (List.concat (map rops l)) (List.concat (map der l)) = RDone (List.concat (map vals l)).

Section ItemInd.
Context (P : item -> Prop) (Hf : forall f, P (IField f)) (Hs : forall l, Forall P l -> P (ISeq l))
  (He : forall t c l, Forall P l -> P (IExpl t c l)) (Ho : forall p l, Forall P l -> P (IOpt p l)).
Fixpoint item_ind2 (i : item) : P i :=
  let all := fix all (l : list item) : Forall P l := match l with [] => Forall_nil P | x :: l' => Forall_cons x (item_ind2 x) (all l') end in
  match i with
  | IField f => Hf f
  | ISeq l => Hs l (all l)
  | IExpl t c l => He t c l (all l)
  | IOpt p l => Ho p l (all l)
  end.
End ItemInd.

Lemma fold_and : forall (Q : item -> Prop) l, fold_right (fun x P => Q x /\ P) True l <-> Forall Q l.
Proof. intros Q l. induction l as [|x l IH]; cbn; split; intros H; [constructor | exact Logic.I | constructor; tauto | inversion_clear H; tauto]. Qed.

(** In a sequence of known length [len], of which [k] bytes have been read. *)
Definition inside (len k : Z) (ls cs : list Z) (d : des) : Prop := d_lens d = len :: ls /\ d_cons d = k :: cs.
Definition reads (sgn : bool) (i : item) : Prop :=
  inner sgn i -> forall len k ls cs rest d, 0 < len -> plain d -> d_data d = der i ++ rest -> inside len k ls cs d -> k + blen (der i) <= len ->
  exists d', rsteps sgn d (rops i) = RDone (d', vals i) /\ plain d' /\ d_data d' = rest /\ inside len (k + blen (der i)) ls cs d'.

Lemma reads_list : forall sgn l, Forall (reads sgn) l -> Forall (inner sgn) l ->
  forall len k ls cs rest d, 0 < len -> plain d -> d_data d = List.concat (map der l) ++ rest -> inside len k ls cs d -> k + blen (List.concat (map der l)) <= len ->
  exists d', rsteps sgn d (List.concat (map rops l)) = RDone (d', List.concat (map vals l)) /\ plain d' /\ d_data d' = rest /\
    inside len (k + blen (List.concat (map der l))) ls cs d'.
Proof.
  intros sgn l. induction l as [|x l IH]; intros HF HI len k ls cs rest d Hlen Hp Hd Hin Hroom; cbn [map List.concat] in *.
  - exists d. split; [reflexivity|]. split; [exact Hp|]. split; [exact Hd|]. change (blen []) with 0. rewrite Z.add_0_r. exact Hin.
  - inversion_clear HF as [|? ? Hx HF']. inversion_clear HI as [|? ? Ix HI']. rewrite <- List.app_assoc in Hd. rewrite blen_app in *.
    pose proof (blen_nonneg (List.concat (map der l))).
    destruct (Hx Ix len k ls cs _ d Hlen Hp Hd Hin ltac:(lia)) as [d1 [S1 [P1 [D1 I1]]]].
    destruct (IH HF' HI' len _ ls cs rest d1 Hlen P1 D1 I1 ltac:(lia)) as [d2 [S2 [P2 [D2 I2]]]].
    exists d2. rewrite (rsteps_app sgn _ _ _ _ _ S1), S2. split; [reflexivity|]. split; [exact P2|]. split; [exact D2|].
    replace (k + (blen (der x) + blen (List.concat (map der l)))) with (k + blen (der x) + blen (List.concat (map der l))) by lia. exact I2.
Qed.

Lemma der_len : forall sgn i, inner sgn i -> 2 <= blen (der i).
Proof.
  intros sgn [f|l|t c l|p l] H; cbn [der inner] in *; [apply field_len | | |destruct H];
    unfold der_wrap; rewrite blen_cons, blen_app; pose proof (length_ge1 (blen (List.concat (map der l)))); pose proof (blen_nonneg (List.concat (map der l))); lia.
Qed.

(** A sequence or explicit tag: opened, its parts read, closed. *)
Lemma wrapped : forall sgn b full l rest d, open_byte b full -> Forall (reads sgn) l -> Forall (inner sgn) l ->
  blen (List.concat (map der l)) <= 65535 -> plain d -> d_data d = der_wrap b (List.concat (map der l)) ++ rest ->
  exists d1 d2, read_open sgn full d = RDone d1 /\ plain d1 /\
    rsteps sgn d1 (List.concat (map rops l)) = RDone (d2, List.concat (map vals l)) /\ plain d2 /\ d_data d2 = rest /\
    read_end sgn d2 = RDone (close (blen (List.concat (map der l))) (d_lens d) (d_cons d) d2).
Proof.
  intros sgn b full l rest d Hob HF HI Hlen Hp Hd. set (body := List.concat (map der l)) in *. pose proof (blen_nonneg body) as Hb0.
  assert (Hop : read_open sgn full d = RDone (opush (blen body) (set_data (body ++ rest) d))).
  { apply (open_steps sgn b full (blen body) (encode_length (blen body)) (body ++ rest)); try assumption.
    - rewrite Hd. unfold der_wrap. cbn [app]. rewrite <- List.app_assoc. reflexivity.
    - apply encode_length_dec. lia.
    - lia.
    - apply length_ge1. }
  set (d1 := opush (blen body) (set_data (body ++ rest) d)) in *. exists d1.
  assert (Hi : inside (blen body) 0 (d_lens d) (d_cons d) d1) by (split; reflexivity).
  assert (Hend : forall d2, inside (blen body) (blen body) (d_lens d) (d_cons d) d2 -> read_end sgn d2 = RDone (close (blen body) (d_lens d) (d_cons d) d2)).
  { intros d2 [A B]. unfold read_end. rewrite A, B, (proj2 (Z.leb_le 0 (blen body)) Hb0), Z.eqb_refl. reflexivity. }
  destruct (Z.eq_dec (blen body) 0) as [Hz|Hnz].
  - assert (l = []) as ->.
    { destruct l as [|x l]; [reflexivity|]. exfalso. inversion_clear HI as [|? ? Ix _]. pose proof (der_len sgn x Ix). unfold body in Hz. cbn [map List.concat] in Hz.
      rewrite blen_app in Hz. pose proof (blen_nonneg (List.concat (map der l))). lia. }
    exists d1. split; [exact Hop|]. split; [exact Hp|]. split; [reflexivity|]. split; [exact Hp|]. split; [reflexivity|]. apply Hend. rewrite Hz. rewrite Hz in Hi. exact Hi.
  - destruct (reads_list sgn l HF HI (blen body) 0 (d_lens d) (d_cons d) rest d1 ltac:(lia) Hp eq_refl Hi ltac:(fold body; lia)) as [d2 [S2 [P2 [D2 I2]]]].
    exists d2. split; [exact Hop|]. split; [exact Hp|]. split; [exact S2|]. split; [exact P2|]. split; [exact D2|]. apply Hend. exact I2.
Qed.

Lemma wrap_len : forall b body, blen body <= 127 -> blen (der_wrap b body) = blen body + 2.
Proof.
  intros b body H. unfold der_wrap. pose proof (blen_nonneg body). rewrite blen_cons, blen_app, encode_length_small by lia. change (blen [blen body]) with 1. lia.
Qed.
Lemma wrapped_reads : forall sgn b full l len k ls cs rest d ops, open_byte b full -> Forall (reads sgn) l -> Forall (inner sgn) l ->
  blen (List.concat (map der l)) <= 127 -> plain d -> d_data d = der_wrap b (List.concat (map der l)) ++ rest -> inside len k ls cs d ->
  (forall d', plain d' -> rstep sgn d' ops = match read_open sgn full d' with RDone x => RDone (x, []) | RErr => RErr | REsc => REsc | RLoop => RLoop end) ->
  exists d', rsteps sgn d (ops :: List.concat (map rops l) ++ [REnd]) = RDone (d', List.concat (map vals l)) /\ plain d' /\ d_data d' = rest /\
    inside len (k + blen (der_wrap b (List.concat (map der l)))) ls cs d'.
Proof.
  intros sgn b full l len k ls cs rest d ops Hob HF HI Hlen Hp Hd [I1 I2] Hops.
  destruct (wrapped sgn b full l rest d Hob HF HI ltac:(lia) Hp Hd) as [d1 [d2 [A [B [C [D [E F]]]]]]].
  exists (close (blen (List.concat (map der l))) (d_lens d) (d_cons d) d2).
  cbn [rsteps]. rewrite (Hops d Hp), A. rewrite (rsteps_app sgn _ _ _ _ _ C). cbn [rsteps rstep].
  destruct (plain_facts d2 D) as [-> _]. rewrite F. cbn [app]. rewrite List.app_nil_r. split; [reflexivity|].
  rewrite I1, I2. cbn [close]. split; [exact D|]. split; [exact E|]. rewrite wrap_len by exact Hlen. split; reflexivity.
Qed.
Lemma seq_ops : forall sgn d, plain d -> rstep sgn d RSeq = match read_open sgn 16 d with RDone x => RDone (x, []) | RErr => RErr | REsc => REsc | RLoop => RLoop end.
Proof. intros sgn d Hp. cbn [rstep]. destruct (plain_facts d Hp) as [-> _]. reflexivity. Qed.
Lemma expl_ops : forall sgn t c d, fine_expl t c -> plain d ->
  rstep sgn d (RExpl t c) = match read_open sgn (Z.lor t c) d with RDone x => RDone (x, []) | RErr => RErr | REsc => REsc | RLoop => RLoop end.
Proof.
  intros sgn t c d Hf Hp. cbn [rstep]. destruct (plain_facts d Hp) as [-> _]. destruct (expl_facts t c Hf) as [_ [_ [_ [_ [-> _]]]]]. reflexivity.
Qed.
Lemma seq_byte : open_byte 48 16. Proof. left. split; reflexivity. Qed.
Lemma expl_byte : forall t c, fine_expl t c -> open_byte (t + c + 32) (Z.lor t c).
Proof. intros t c H. right. exists t, c. split; [exact H|]. split; reflexivity. Qed.

Lemma all_read : forall sgn i, reads sgn i.
Proof.
  intros sgn i. induction i as [f|l IH|t c l IH|p l IH] using item_ind2; intros Hin len k ls cs rest d Hlen Hp Hd Hi Hroom; cbn [inner der rops vals] in *.
  - destruct Hi as [I1 I2]. destruct (field_steps sgn f rest d Hin Hp Hd) as [d' [A [B [C [D1 D2]]]]].
    + unfold room. rewrite I1, I2. intros _. exact Hroom.
    + exists d'. split; [exact A|]. split; [exact B|]. split; [exact C|]. rewrite I1, I2 in D2. rewrite (proj2 (Z.ltb_lt 0 len) Hlen) in D2.
      split; [rewrite D1; exact I1 | exact D2].
  - destruct Hin as [Hs Hin]. apply fold_and in Hin.
    exact (wrapped_reads sgn 48 16 l len k ls cs rest d RSeq seq_byte IH Hin Hs Hp Hd Hi (seq_ops sgn)).
  - destruct Hin as [Hf [Hs Hin]]. apply fold_and in Hin.
    exact (wrapped_reads sgn _ _ l len k ls cs rest d (RExpl t c) (expl_byte t c Hf) IH Hin Hs Hp Hd Hi (fun d' Hp' => expl_ops sgn t c d' Hf Hp')).
  - destruct Hin.
Qed.

(** Outside of every sequence. *)
Lemma outer_reads : forall sgn i rest d, outer sgn i -> plain d -> d_data d = der i ++ rest -> d_lens d = [] -> d_cons d = [] ->
  exists d', rsteps sgn d (rops i) = RDone (d', vals i) /\ plain d' /\ d_data d' = rest /\ d_lens d' = [] /\ d_cons d' = [].
Proof.
  intros sgn i rest d Ho Hp Hd L C. 
  assert (Hwrap : forall b full l op, open_byte b full -> Forall (inner sgn) l -> blen (List.concat (map der l)) <= 65535 ->
     d_data d = der_wrap b (List.concat (map der l)) ++ rest ->
     (forall d', plain d' -> rstep sgn d' op = match read_open sgn full d' with RDone x => RDone (x, []) | RErr => RErr | REsc => REsc | RLoop => RLoop end) ->
     exists d', rsteps sgn d (op :: List.concat (map rops l) ++ [REnd]) = RDone (d', List.concat (map vals l)) /\ plain d' /\ d_data d' = rest /\ d_lens d' = [] /\ d_cons d' = []).
  { intros b full l op Hob HI Hlen Hdd Hops.
    destruct (wrapped sgn b full l rest d Hob (proj2 (Forall_forall _ _) (fun x _ => all_read sgn x)) HI Hlen Hp Hdd) as [d1 [d2 [A [B [Cc [D [E F]]]]]]].
    exists (close (blen (List.concat (map der l))) (d_lens d) (d_cons d) d2).
    cbn [rsteps]. rewrite (Hops d Hp), A. rewrite (rsteps_app sgn _ _ _ _ _ Cc). cbn [rsteps rstep].
    destruct (plain_facts d2 D) as [-> _]. rewrite F. cbn [app]. rewrite List.app_nil_r. split; [reflexivity|].
    rewrite L, C. cbn [close]. split; [exact D|]. split; [exact E|]. split; reflexivity. }
  destruct i as [f|l|t c l|p l]; cbn [outer der rops vals] in *.
  - destruct (field_steps sgn f rest d Ho Hp Hd) as [d' [A [B [E [D1 D2]]]]].
    + unfold room. rewrite L. exact Logic.I.
    + exists d'. split; [exact A|]. split; [exact B|]. split; [exact E|]. rewrite L in D2. rewrite D1, D2, L, C. split; reflexivity.
  - destruct Ho as [Hs Hin]. apply fold_and in Hin. exact (Hwrap 48 16 l RSeq seq_byte Hin Hs Hd (seq_ops sgn)).
  - destruct Ho as [Hf [Hs Hin]]. apply fold_and in Hin.
    exact (Hwrap _ _ l (RExpl t c) (expl_byte t c Hf) Hin Hs Hd (fun d' Hp' => expl_ops sgn t c d' Hf Hp')).
  - destruct Ho.
Qed.

Theorem C172_partial : forall sgn l, Forall (outer sgn) l ->
  read sgn (List.concat (map rops l)) (List.concat (map der l)) = RDone (List.concat (map vals l)).
Proof.
  intros sgn l H. unfold read.
  assert (G : forall d rest, plain d -> d_data d = List.concat (map der l) ++ rest -> d_lens d = [] -> d_cons d = [] ->
    exists d', rsteps sgn d (List.concat (map rops l)) = RDone (d', List.concat (map vals l))).
  { induction H as [|x l Hx H IH]; intros d rest Hp Hd L C; cbn [map List.concat] in *.
    - exists d. reflexivity.
    - rewrite <- List.app_assoc in Hd. destruct (outer_reads sgn x _ d Hx Hp Hd L C) as [d1 [A [B [E [F G]]]]].
      destruct (IH d1 rest B E F G) as [d2 S2]. exists d2. rewrite (rsteps_app sgn _ _ _ _ _ A), S2. reflexivity. }
  destruct (G (des0 (List.concat (map der l))) [] eq_refl) as [d' ->]; [rewrite List.app_nil_r; reflexivity | reflexivity | reflexivity | reflexivity].
Qed.

(** The rest of a sequence can be skipped: what was read before and what comes after are not affected. *)
Definition skips (sgn : bool) (i : item) : Prop :=
  inner sgn i -> exists m, (m <= List.length (der i))%nat /\ forall fuel len k rest d, d_data d = der i ++ rest -> k + blen (der i) <= len ->
  rest_known sgn (m + fuel) len k d = rest_known sgn fuel len (k + blen (der i)) (set_data rest d).
Lemma set_data_twice : forall a b d, set_data a (set_data b d) = set_data a d.
Proof. reflexivity. Qed.
Lemma set_data_same : forall d, set_data (d_data d) d = d.
Proof. intros []. reflexivity. Qed.
Lemma skips_list : forall sgn l, Forall (skips sgn) l -> Forall (inner sgn) l -> exists m, (m <= List.length (List.concat (map der l)))%nat /\
  forall fuel len k rest d, d_data d = List.concat (map der l) ++ rest -> k + blen (List.concat (map der l)) <= len ->
  rest_known sgn (m + fuel) len k d = rest_known sgn fuel len (k + blen (List.concat (map der l))) (set_data rest d).
Proof.
  intros sgn l. induction l as [|x l IH]; intros HF HI.
  - exists 0%nat. split; [cbn; lia|]. intros fuel len k rest d Hd _. cbn [map List.concat app] in *. change (blen []) with 0. rewrite Z.add_0_r, <- Hd, set_data_same. reflexivity.
  - inversion_clear HF as [|? ? Hx HF']. inversion_clear HI as [|? ? Ix HI']. destruct (Hx Ix) as [m1 [L1 S1]]. destruct (IH HF' HI') as [m2 [L2 S2]].
    exists (m1 + m2)%nat. cbn [map List.concat]. split; [rewrite app_length; lia|].
    intros fuel len k rest d Hd Hk. rewrite <- List.app_assoc in Hd. rewrite blen_app in *. pose proof (blen_nonneg (List.concat (map der l))).
    rewrite <- Nat.add_assoc. rewrite (S1 (m2 + fuel)%nat len k _ d Hd) by lia. rewrite (S2 fuel len _ rest (set_data (List.concat (map der l) ++ rest) d) eq_refl) by lia.
    rewrite set_data_twice. f_equal. lia.
Qed.
Lemma skip_token : forall sgn fuel len k d tg e ip sp a b, d_data d = a ++ b -> token sgn (a ++ b) = DTok tg e ip sp -> e = blen a -> tg <> 255 -> k < len ->
  rest_known sgn (S fuel) len k d = rest_known sgn fuel len (k + e) (set_data b d).
Proof.
  intros sgn fuel len k d tg e ip sp a b Hd Ht -> Hne Hk. cbn [rest_known]. rewrite (proj2 (Z.leb_gt len k)) by lia. rewrite Hd, Ht.
  rewrite (proj2 (Z.eqb_neq tg kCerUnknown)) by exact Hne. rewrite (advance_app a b d Hd). reflexivity.
Qed.
Lemma skip_wrap : forall sgn b full l, open_byte b full -> Forall (skips sgn) l -> Forall (inner sgn) l -> blen (List.concat (map der l)) <= 65535 ->
  exists m, (m <= List.length (der_wrap b (List.concat (map der l))))%nat /\ forall fuel len k rest d,
  d_data d = der_wrap b (List.concat (map der l)) ++ rest -> k + blen (der_wrap b (List.concat (map der l))) <= len ->
  rest_known sgn (m + fuel) len k d = rest_known sgn fuel len (k + blen (der_wrap b (List.concat (map der l)))) (set_data rest d).
Proof.
  intros sgn b full l Hob HF HI Hlen. destruct (skips_list sgn l HF HI) as [m [L Sk]]. set (body := List.concat (map der l)) in *.
  pose proof (blen_nonneg body) as Hb0. destruct (open_facts b full Hob) as [N255 [_ [_ Ht]]]. pose proof (length_ge1 (blen body)) as Hl1.
  exists (S m). split; [unfold der_wrap; cbn [List.length]; rewrite app_length; lia|].
  intros fuel len k rest d Hd Hk. unfold der_wrap in *. rewrite blen_cons, blen_app in *. cbn [app] in Hd. rewrite <- List.app_assoc in Hd.
  cbn [Nat.add]. rewrite (skip_token sgn (m + fuel) len k d full (1 + blen (encode_length (blen body))) (Some (blen body)) None (b :: encode_length (blen body)) (body ++ rest)).
  - rewrite (Sk fuel len _ rest (set_data (body ++ rest) d) eq_refl) by lia. rewrite set_data_twice. f_equal. lia.
  - exact Hd.
  - rewrite token_S. cbn [app]. apply Ht; [apply encode_length_dec; lia | lia | exact Hl1].
  - rewrite blen_cons. reflexivity.
  - exact N255.
  - lia.
Qed.
Lemma all_skip : forall sgn i, skips sgn i.
Proof.
  intros sgn i. induction i as [f|l IH|t c l IH|p l IH] using item_ind2; intros Hin; cbn [inner der] in *.
  - exists 1%nat. pose proof (field_len f) as Hl. split; [unfold blen in Hl; lia|]. intros fuel len k rest d Hd Hk.
    destruct (field_token sgn f rest Hin) as [ip [sp [Ht _]]]. cbn [Nat.add].
    apply (skip_token sgn fuel len k d (ftag f) _ ip sp (der_field f) rest Hd Ht eq_refl); [pose proof (tag_ranges sgn f Hin); lia | lia].
  - destruct Hin as [Hs Hin]. apply fold_and in Hin. exact (skip_wrap sgn 48 16 l seq_byte IH Hin ltac:(lia)).
  - destruct Hin as [Hf [Hs Hin]]. apply fold_and in Hin. exact (skip_wrap sgn _ _ l (expl_byte t c Hf) IH Hin ltac:(lia)).
  - destruct Hin.
Qed.

Theorem C172_rest : forall sgn first others after_it, Forall (inner sgn) first -> Forall (inner sgn) others -> Forall (outer sgn) after_it ->
  blen (List.concat (map der (first ++ others))) <= 65535 ->
  read sgn (RSeq :: List.concat (map rops first) ++ RRest :: List.concat (map rops after_it)) (der (ISeq (first ++ others)) ++ List.concat (map der after_it)) =
  RDone (List.concat (map vals first) ++ List.concat (map vals after_it)).
Proof.
  intros sgn first others after_it HF HO HA Hlen. unfold read. cbn [der]. set (body := List.concat (map der (first ++ others))) in *. pose proof (blen_nonneg body) as Hb0.
  set (tail := List.concat (map der after_it)). set (d := des0 (der_wrap 48 body ++ tail)).
  assert (Hbody : body = List.concat (map der first) ++ List.concat (map der others)) by (unfold body; rewrite map_app, concat_app; reflexivity).
  assert (Hop : read_open sgn 16 d = RDone (opush (blen body) (set_data (body ++ tail) d))).
  { apply (open_steps sgn 48 16 (blen body) (encode_length (blen body)) (body ++ tail)); [exact seq_byte | reflexivity | | apply encode_length_dec; lia | lia | apply length_ge1].
    cbn. rewrite <- List.app_assoc. reflexivity. }
  set (d1 := opush (blen body) (set_data (body ++ tail) d)) in *.
  assert (Hfirst : exists d2, rsteps sgn d1 (List.concat (map rops first)) = RDone (d2, List.concat (map vals first)) /\ plain d2 /\
     d_data d2 = List.concat (map der others) ++ tail /\ inside (blen body) (blen (List.concat (map der first))) [] [] d2).
  { pose proof (blen_nonneg (List.concat (map der first))). pose proof (blen_nonneg (List.concat (map der others))).
    assert (Hsum : blen body = blen (List.concat (map der first)) + blen (List.concat (map der others))) by (rewrite Hbody, blen_app; reflexivity).
    destruct (Z.eq_dec (blen body) 0) as [Hz|Hnz].
    - assert (first = []) as ->.
      { destruct first as [|x l]; [reflexivity|]. exfalso. inversion_clear HF as [|? ? Ix _]. pose proof (der_len sgn x Ix). cbn [map List.concat] in *.
        rewrite blen_app in *. pose proof (blen_nonneg (List.concat (map der l))). lia. }
      exists d1. split; [reflexivity|]. split; [reflexivity|]. split; [change (body ++ tail = List.concat (map der others) ++ tail); rewrite Hbody; reflexivity|]. split; reflexivity.
    - destruct (reads_list sgn first (proj2 (Forall_forall _ _) (fun x _ => all_read sgn x)) HF (blen body) 0 [] [] (List.concat (map der others) ++ tail) d1) as [d2 [A [B [C D]]]].
      + lia.
      + reflexivity.
      + change (body ++ tail = List.concat (map der first) ++ List.concat (map der others) ++ tail). rewrite Hbody, <- List.app_assoc. reflexivity.
      + split; reflexivity.
      + lia.
      + exists d2. split; [exact A|]. split; [exact B|]. split; [exact C | exact D]. }
  destruct Hfirst as [d2 [A [B [C [D1 D2]]]]].
  cbn [rsteps]. rewrite (seq_ops sgn d eq_refl), Hop. rewrite (rsteps_app sgn _ _ _ _ _ A). cbn [rsteps rstep].
  destruct (plain_facts d2 B) as [-> _].
  assert (Hrest : read_rest sgn d2 = RDone (set_stacks [] [] (set_data tail d2))).
  { unfold read_rest. rewrite D1, D2. rewrite (proj2 (Z.leb_le 0 (blen body)) Hb0).
    destruct (skips_list sgn others (proj2 (Forall_forall _ _) (fun x _ => all_skip sgn x)) HO) as [m [Lm Sm]].
    assert (Hfuel : exists fuel, (2 * List.length (d_data d2) + 2 = m + fuel)%nat).
    { exists (2 * List.length (d_data d2) + 2 - m)%nat. rewrite C, app_length. lia. }
    destruct Hfuel as [fuel ->]. rewrite (Sm fuel (blen body) _ tail d2 C) by (rewrite Hbody, blen_app; lia).
    replace (blen (List.concat (map der first)) + blen (List.concat (map der others))) with (blen body) by (rewrite Hbody, blen_app; reflexivity).
    destruct fuel; cbn [rest_known]; rewrite Z.leb_refl, Z.eqb_refl; reflexivity. }
  rewrite Hrest. cbn [app].
  assert (G : forall l d' r, Forall (outer sgn) l -> plain d' -> d_data d' = List.concat (map der l) ++ r -> d_lens d' = [] -> d_cons d' = [] ->
    exists d'', rsteps sgn d' (List.concat (map rops l)) = RDone (d'', List.concat (map vals l))).
  { induction l as [|x l IH]; intros d' r H Hp Hd L K; cbn [map List.concat] in *.
    - exists d'. reflexivity.
    - inversion_clear H as [|? ? Hx Hl]. rewrite <- List.app_assoc in Hd. destruct (outer_reads sgn x _ d' Hx Hp Hd L K) as [e1 [E1 [E2 [E3 [E4 E5]]]]].
      destruct (IH e1 r Hl E2 E3 E4 E5) as [e2 S2]. exists e2. rewrite (rsteps_app sgn _ _ _ _ _ E1), S2. reflexivity. }
  destruct (G after_it (set_stacks [] [] (set_data tail d2)) [] HA B) as [d3 ->]; [cbn; rewrite List.app_nil_r; reflexivity | reflexivity | reflexivity | reflexivity].
Qed.

(** A sequence of 128 bytes within another is refused: its header is taken to have two bytes. *)
Definition bytes128 : bytes := repeat 65 126.
Theorem C172_refuted : forall sgn, ~ C172_statement sgn.
Proof.
  intros sgn H. pose (l := [ISeq [ISeq [IField (FStr 4 bytes128)]]]). specialize (H l).
  assert (E : read sgn (List.concat (map rops l)) (List.concat (map der l)) = RErr) by (destruct sgn; vm_compute; reflexivity).
  rewrite E in H. discriminate H. cbn [l fold_right fine fine_field]. repeat split; [left; reflexivity|].
  apply Forall_forall. intros x Hx. apply repeat_spec in Hx. subst x. unfold is_byte. lia.
Qed.
(** An absent OPTIONAL at the end of a sequence takes the value that follows the sequence. *)
Theorem C172_optional_refuted : forall sgn,
  let l := [ISeq [IOpt false [IField (FInt 2 0)]]; IField (FInt 2 9)] in
  List.concat (map der l) = [48; 0; 2; 1; 9] /\ read sgn (List.concat (map rops l)) (List.concat (map der l)) = RErr /\
  read sgn (rops (ISeq [IOpt false [IField (FInt 2 0)]])) (List.concat (map der l)) = RDone [VInt 9; VPresent true].
Proof. intros sgn l. split; [reflexivity|]. split; destruct sgn; vm_compute; reflexivity. Qed.

(** A declared length beyond the data is not reported as an error of the stream: another exception leaves it. *)
Theorem C172_short_refuted : forall sgn, read sgn [RTag 4; RStr] [4; 5; 65] = REsc.
Proof. intros []; vm_compute; reflexivity. Qed.

Example C172_example : Forall (outer false) [ISeq [ISeq [IField (FInt 2 1); ISeq []]; IExpl 1 128 [IField (FStr 12 [104; 105])]]; IField (FBool 1 true)].
Proof.
  apply Forall_cons; [|apply Forall_cons; [|apply Forall_nil]].
  - cbn [outer inner good_field fold_right]. unfold int_tag, string_tag, fine_expl.
    repeat split; try lia; try (vm_compute; discriminate). repeat (constructor; [unfold is_byte; lia|]). constructor.
  - cbn. unfold int_tag. lia.
Qed.

Print Assumptions C171_partial.
Print Assumptions C171_refuted.
Print Assumptions C171_optional_refuted.
Print Assumptions C171_rest_refuted.
Example C172_rest_example : read false [RSeq; RTag 2; RInt; RRest; RTag 12; RStr] (der (ISeq [IField (FInt 2 7); ISeq [IField (FBool 1 true)]; IField (FStr 12 [104])]) ++ der (IField (FStr 12 [105]))) = RDone [VInt 7; VStr [105]].
Proof. vm_compute. reflexivity. Qed.

Print Assumptions C172_partial.
Print Assumptions C172_rest.
Print Assumptions C172_refuted.
Print Assumptions C172_optional_refuted.
Print Assumptions C172_short_refuted.
