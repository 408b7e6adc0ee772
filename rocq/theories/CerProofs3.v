(** CER decoding: fuel, non-termination, bounds. *)
From Verif Require Import Base CerModel CerProofs.

Lemma fuel_mono sgn : forall f,
  (forall ber, decode_token sgn f ber <> DFuel -> decode_token sgn (S f) ber = decode_token sgn f ber) /\
  (forall ber tag pos acc, string_loop sgn f ber tag pos acc <> DFuel -> string_loop sgn (S f) ber tag pos acc = string_loop sgn f ber tag pos acc).
Proof.
  induction f as [|f (IH1 & IH2)]; [split; intros; exfalso; apply H; reflexivity|]. split.
  - intros ber. rewrite (decode_token_S sgn (S f)), (decode_token_S sgn f). cbv zeta.
    destruct (blen ber <? 2); auto. destruct (decode_length (drop 1 ber)) as [len lend|]; auto.
    destruct (len <? -1); auto. destruct (negb (len =? -1) && (blen ber <? 1 + lend)); auto.
    destruct (Z.land (byte_at ber 0) 192 =? 0); auto. destruct (Z.land (byte_at ber 0) 31 =? kCerSequence); auto.
    destruct (Z.land (byte_at ber 0) 31 =? kCerEnd); auto. destruct (is_int_tag (Z.land (byte_at ber 0) 31)); auto.
    destruct (is_string_tag (Z.land (byte_at ber 0) 31)); auto. destruct (0 <=? len); auto.
  - intros ber tag pos acc. rewrite (string_loop_S sgn (S f)), (string_loop_S sgn f).
    destruct (blen ber <? pos); auto. intros H.
    destruct (decode_token sgn f (drop pos ber)) as [t e ip sp| | |] eqn:E; [|rewrite IH1 by congruence; now rewrite E| rewrite IH1 by congruence; now rewrite E|congruence].
    rewrite IH1 by congruence. rewrite E. destruct (t =? kCerEnd); auto. destruct (negb (t =? tag)); auto.
Qed.
(** More fuel never changes an outcome. *)
Lemma fuel_irrelevant sgn f g ber : (f <= g)%nat -> decode_token sgn f ber <> DFuel -> decode_token sgn g ber = decode_token sgn f ber.
Proof.
  intros Hg H. induction Hg as [|g Hg IH]; auto. rewrite <- IH. apply (proj1 (fuel_mono sgn g)). rewrite IH. exact H.
Qed.

(** The nested indefinite string: the inner string reports that it consumed nothing. *)
Definition loop_input : bytes := [4; 128; 4; 128; 0; 0].
Lemma inner_outcome sgn f : decode_token sgn f [4; 128; 0; 0] = DFuel \/ decode_token sgn f [4; 128; 0; 0] = DTok 4 0 None (Some []).
Proof. destruct f as [|[|[|f]]]; [left|left|left|right]; reflexivity. Qed.
Lemma loop_forever sgn : forall f acc, string_loop sgn f loop_input 4 2 acc = DFuel.
Proof.
  induction f as [|f IH]; intros acc; [reflexivity|]. rewrite string_loop_S.
  change (blen loop_input <? 2) with false. cbv iota. change (drop 2 loop_input) with [4; 128; 0; 0].
  destruct (inner_outcome sgn f) as [E | E]; rewrite E; auto.
  change (4 =? kCerEnd) with false. change (negb (4 =? 4)) with false. cbv iota. change (2 + 0) with 2. apply IH.
Qed.
Lemma never_terminates sgn : forall f, decode_token sgn f loop_input = DFuel.
Proof. destruct f as [|f]; [reflexivity|]. apply (loop_forever sgn f []). Qed.

(** With a one-byte length prefix decoding ends normally, and in bounds if the announced content is there. *)
Lemma definite_ok sgn f b0 b1 rest : 0 <= b1 < 128 ->
  exists t e ip sp, decode_token sgn (S f) (b0 :: b1 :: rest) = DTok t e ip sp /\
    (b1 <= blen rest -> t = kCerUnknown \/ e <= blen (b0 :: b1 :: rest)).
Proof.
  intros H. rewrite decode_token_S. cbv zeta. rewrite !blen_cons. pose proof (blen_nonneg rest).
  rewrite (proj2 (Z.ltb_ge _ 2)) by lia. change (drop 1 (b0 :: b1 :: rest)) with (b1 :: rest).
  assert (Hl : decode_length (b1 :: rest) = LenOk b1 1).
  { unfold decode_length. change (byte_at (b1 :: rest) 0) with b1. rewrite (proj2 (Z.eqb_neq b1 128)) by lia. rewrite land128_low by lia. reflexivity. }
  rewrite Hl. rewrite (proj2 (Z.ltb_ge b1 (-1))) by lia. rewrite (proj2 (Z.eqb_neq b1 (-1))) by lia.
  rewrite (proj2 (Z.ltb_ge _ (1 + 1))) by lia. cbn [negb andb].
  rewrite (proj2 (Z.leb_le 0 b1)) by lia. unfold d_unknown.
  repeat match goal with |- context [if ?c then _ else _] => destruct c end; do 4 eexists; (split; [reflexivity|]); intros; try (left; reflexivity); right; lia.
Qed.

(** ** Tokens with a one-byte length prefix *)
Lemma head_fields cls (constructed : bool) tag : In cls [0; 64; 128; 192] -> 0 <= tag < 32 ->
  let b := cls + (if constructed then 32 else 0) + tag in
  Z.land b 192 = cls /\ Z.land b 31 = tag /\ negb (Z.land b 32 =? 0) = constructed.
Proof.
  intros Hc Ht b. unfold b.
  pose (P := fun cls constructed t => (Z.land (cls + (if constructed : bool then 32 else 0) + t) 192 =? cls) &&
    (Z.land (cls + (if constructed then 32 else 0) + t) 31 =? t) &&
    Bool.eqb (negb (Z.land (cls + (if constructed then 32 else 0) + t) 32 =? 0)) constructed).
  assert (H : P cls constructed tag = true).
  { assert (Hall : forallb (fun n => P cls constructed (Z.of_nat n)) (seq 0 32) = true).
    { simpl in Hc. destruct Hc as [<-|[<-|[<-|[<-|[]]]]]; destruct constructed; vm_compute; reflexivity. }
    rewrite forallb_forall in Hall. specialize (Hall (Z.to_nat tag)). rewrite Z2Nat.id in Hall by lia. apply Hall, in_seq. lia. }
  unfold P in H. apply andb_true_iff in H. destruct H as (H & H3). apply andb_true_iff in H. destruct H as (H1 & H2).
  apply Z.eqb_eq in H1, H2. apply Bool.eqb_prop in H3. auto.
Qed.
Lemma blen_take n (l : bytes) : 0 <= n -> blen (take n l) = Z.min n (blen l).
Proof. intros H. unfold blen, take. rewrite firstn_length. lia. Qed.
Lemma decode_definite sgn f b0 len rest : 0 <= len < 128 ->
  decode_token sgn (S f) (b0 :: len :: rest) =
    (if Z.land b0 192 =? 0 then
       if Z.land b0 31 =? kCerSequence then
         if negb (Z.land b0 32 =? 0) then DTok kCerSequence 2 (Some len) None else d_unknown
       else if Z.land b0 31 =? kCerEnd then
         if len =? 0 then DTok kCerEnd 0 None None else d_unknown
       else if is_int_tag (Z.land b0 31) then
         if negb (Z.land b0 32 =? 0) then d_unknown
         else if (4 <? Z.min len (blen rest)) || (Z.min len (blen rest) <? 1) then d_unknown
         else DTok (Z.land b0 31) (2 + len) (Some (decode_int sgn (take len rest) len)) None
       else if is_string_tag (Z.land b0 31) then DTok (Z.land b0 31) (2 + len) None (Some (take len rest))
       else d_unknown
     else if negb (Z.land b0 32 =? 0) then DTok (Z.lor (Z.land b0 31) (Z.land b0 192)) 2 (Some len) None else d_unknown).
Proof.
  intros H. rewrite decode_token_S. cbv zeta. rewrite !blen_cons. pose proof (blen_nonneg rest).
  rewrite (proj2 (Z.ltb_ge _ 2)) by lia. change (drop 1 (b0 :: len :: rest)) with (len :: rest).
  assert (Hl : decode_length (len :: rest) = LenOk len 1).
  { unfold decode_length. change (byte_at (len :: rest) 0) with len. rewrite (proj2 (Z.eqb_neq len 128)) by lia. rewrite land128_low by lia. reflexivity. }
  rewrite Hl. rewrite (proj2 (Z.ltb_ge len (-1))) by lia. rewrite (proj2 (Z.eqb_neq len (-1))) by lia.
  rewrite (proj2 (Z.ltb_ge _ (1 + 1))) by lia. cbn [negb andb].
  change (drop (1 + 1) (b0 :: len :: rest)) with rest. change (byte_at (b0 :: len :: rest) 0) with b0.
  rewrite blen_take by lia. rewrite (proj2 (Z.leb_le 0 len)) by lia. rewrite orb_false_r.
  change (1 + 1) with 2. reflexivity.
Qed.
Lemma malformed_unknown sgn f cls (constructed : bool) tag len rest :
  In cls [0; 64; 128; 192] -> 0 <= tag < 32 -> 0 <= len < 128 ->
  (cls = 0 /\ int_tag tag /\ (constructed = true \/ Z.min len (blen rest) < 1 \/ 4 < Z.min len (blen rest))) \/
  (cls = 0 /\ tag = 16 /\ constructed = false) \/
  (cls = 0 /\ tag = 0 /\ len <> 0) \/
  (cls = 0 /\ ~ int_tag tag /\ tag <> 16 /\ tag <> 0 /\ tag <> 4 /\ tag <> 12 /\ ~ 18 <= tag <= 29) \/
  (cls <> 0 /\ constructed = false) ->
  decode_token sgn (S f) (cls + (if constructed then 32 else 0) + tag :: len :: rest) = d_unknown.
Proof.
  intros Hc Ht Hl H. rewrite decode_definite by auto. destruct (head_fields cls constructed tag Hc Ht) as (H1 & H2 & H3).
  cbv zeta in H1, H2, H3. rewrite H1, H2, H3. clear H1 H2 H3. unfold int_tag in H. unfold kCerSequence, kCerEnd, is_int_tag, is_string_tag.
  assert (Hb : forall x y, (x =? y) = true \/ (x =? y) = false) by (intros; destruct (x =? y); auto).
  destruct H as [(-> & Hi & H)|[(-> & -> & ->)|[(-> & -> & H)|[(-> & Hi & N1 & N2 & N3 & N4 & N5)|(Hn & ->)]]]].
  - destruct H as [->|H].
    + destruct Hi as [->|[->| ->]]; reflexivity.
    + destruct constructed; [destruct Hi as [->|[->| ->]]; reflexivity|].
      assert (E : (4 <? Z.min len (blen rest)) || (Z.min len (blen rest) <? 1) = true) by (apply orb_true_iff; rewrite !Z.ltb_lt; lia).
      rewrite E. destruct Hi as [->|[->| ->]]; reflexivity.
  - reflexivity.
  - simpl. rewrite (proj2 (Z.eqb_neq len 0)) by auto. reflexivity.
  - rewrite (proj2 (Z.eqb_neq tag 16)), (proj2 (Z.eqb_neq tag 0)), (proj2 (Z.eqb_neq tag 2)), (proj2 (Z.eqb_neq tag 1)), (proj2 (Z.eqb_neq tag 10)),
      (proj2 (Z.eqb_neq tag 4)), (proj2 (Z.eqb_neq tag 12)) by lia. simpl.
    destruct (Z.leb_spec 18 tag); destruct (Z.leb_spec tag 29); simpl; try reflexivity. lia.
  - rewrite (proj2 (Z.eqb_neq cls 0)) by auto. reflexivity.
Qed.
Lemma wellformed_string sgn f tag len rest : string_tag tag -> 0 <= len < 128 -> len <= blen rest ->
  decode_token sgn (S f) (tag :: len :: rest) = DTok tag (2 + len) None (Some (firstn (Z.to_nat len) rest)).
Proof.
  intros Ht Hl _. rewrite decode_definite by auto. destruct (string_tag_facts tag Ht) as (A & B & C & D & F & G).
  rewrite A, B, C, D, F, G. reflexivity.
Qed.
Lemma decode_indefinite sgn f tag rest : 0 <= tag < 32 -> tag <> 16 ->
  decode_token sgn (S f) (tag :: 128 :: rest) =
    (if (tag =? kCerEnd) || is_int_tag tag then d_unknown
     else if is_string_tag tag then string_loop sgn f (tag :: 128 :: rest) tag 2 [] else d_unknown).
Proof.
  intros H Hn. rewrite decode_token_S. cbv zeta. rewrite !blen_cons. pose proof (blen_nonneg rest).
  rewrite (proj2 (Z.ltb_ge _ 2)) by lia. change (drop 1 (tag :: 128 :: rest)) with (128 :: rest).
  change (decode_length (128 :: rest)) with (LenOk (-1) 1). cbv iota. change (-1 <? -1) with false. change (-1 =? -1) with true. cbn [negb andb].
  change (byte_at (tag :: 128 :: rest) 0) with tag.
  destruct (head_fields 0 false tag (or_introl eq_refl) H) as (H1 & H2 & H3). cbv zeta in H1, H2, H3. rewrite !Z.add_0_l in H1, H2, H3.
  rewrite H1, H2. rewrite (proj2 (Z.eqb_neq tag kCerSequence)) by exact Hn. rewrite orb_true_r. change (0 <=? -1) with false. change (-1 =? 0) with false.
  change (0 =? 0) with true. cbv iota. change (1 + 1) with 2.
  destruct (tag =? kCerEnd); [reflexivity|]. destruct (is_int_tag tag); reflexivity.
Qed.
Lemma indefinite_int_unknown sgn f tag rest : int_tag tag -> decode_token sgn (S f) (tag :: 128 :: rest) = d_unknown.
Proof.
  intros Ht. rewrite decode_indefinite; [|destruct Ht as [->|[->| ->]]; lia..]. destruct Ht as [->|[->| ->]]; reflexivity.
Qed.
Lemma mixed_chunks_unknown sgn f tag tag' len rest : string_tag tag -> string_tag tag' -> tag <> tag' -> 0 <= len < 128 -> len <= blen rest ->
  decode_token sgn (S (S (S f))) (tag :: 128 :: tag' :: len :: rest) = d_unknown.
Proof.
  intros Ht Ht' Hne Hl Hr. rewrite decode_indefinite; [|destruct Ht as [->|[->|?]]; lia..].
  destruct (string_tag_facts tag Ht) as (A & B & C & D & F & G). rewrite D, F, G. cbn [orb]. rewrite string_loop_S.
  rewrite !blen_cons. pose proof (blen_nonneg rest). rewrite (proj2 (Z.ltb_ge _ 2)) by lia.
  change (drop 2 (tag :: 128 :: tag' :: len :: rest)) with (tag' :: len :: rest). rewrite wellformed_string by auto.
  destruct (string_tag_facts tag' Ht') as (A' & B' & C' & D' & F' & G'). rewrite D'. rewrite (proj2 (Z.eqb_neq tag' tag)) by auto. reflexivity.
Qed.
