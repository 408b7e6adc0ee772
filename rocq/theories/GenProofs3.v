(** The targets that the generator writes, as the client reads them. *)
From Verif Require Import Base Json TufModel TufSpec TufProofs MetaStore RepoModel RepoSpec RepoProofs RepoProofs4 GenModel GenSpec GenProofs GenProofs2.

Definition get (k : string) (l : list (string * json)) : json := match aget k l with Some v => v | None => JNull end.
Lemma get_oput k v l : get k (oput k v l) = v. Proof. unfold get. now rewrite aget_oput. Qed.
Lemma get_oput_other k k' v l : k' <> k -> get k' (oput k v l) = get k' l. Proof. intros. unfold get. now rewrite aget_oput_other. Qed.

(** ** Reading *)
Definition short (v : json) : Prop := exists s, jas_string v = Ok s /\ (String.length s <= 200)%nat.
Definition text_value (v : json) : Prop := exists s, jas_string v = Ok s.
Definition good_ecu (k : string) (v : json) : Prop := (1 <= String.length k <= 64)%nat /\ exists hj, jget "hardwareId" v = Ok hj /\ short hj.
Definition good_custom (c : json) : Prop :=
  match c with
  | JNull => True
  | JObj l => (forall k v, In (k, v) (jiter (get "hardwareIds" l)) -> short v) /\
              (forall k v, In (k, v) (jiter (get "ecuIdentifiers" l)) -> good_ecu k v) /\
              text_value (get "targetFormat" l) /\ text_value (get "uri" l)
  | _ => False
  end.
Definition good_target (c : json) : Prop :=
  match c with
  | JNull => True
  | JObj l => good_custom (get "custom" l) /\ (exists n, jas_uint64 (get "length" l) = Ok n) /\
              (forall k v, In (k, v) (jiter (get "hashes" l)) -> text_value v)
  | _ => False
  end.

Lemma hwid_short s : (String.length s <= 200)%nat <-> hw_id s = Ok s.
Proof. unfold hw_id. destruct (Nat.ltb_spec 200 (String.length s)); split; intros; try lia; try discriminate; auto. Qed.
Lemma serial_short s : (1 <= String.length s <= 64)%nat <-> ecu_serial s = Ok s.
Proof. unfold ecu_serial. destruct (Nat.ltb_spec (String.length s) 1); [split; intros; [lia|discriminate]|]. destruct (Nat.ltb_spec 64 (String.length s)); split; intros; try lia; try discriminate; auto. Qed.
Lemma parse_hwids_iff : forall l acc, (exists r, parse_hwids l acc = Ok r) <-> forall k v, In (k, v) l -> short v.
Proof.
  induction l as [|(k, v) l IH]; intros acc; cbn [parse_hwids]; [split; [intros _ ? ? []|eauto]|]. split.
  - intros (r & H). apply bind_ok in H as (s & H1 & H). apply bind_ok in H as (h & H2 & H). intros k' v' [e|i].
    + injection e as <- <-. exists s. split; [exact H1|]. unfold hw_id in H2. destruct (Nat.ltb_spec 200 (String.length s)); [discriminate|lia].
    + eapply (proj1 (IH _)); eauto.
  - intros H. destruct (H k v (or_introl eq_refl)) as (s & H1 & H2). rewrite H1. cbn [bind]. apply hwid_short in H2. rewrite H2. cbn [bind].
    apply IH. intros k' v' i. apply (H k' v'). now right.
Qed.
Lemma parse_ecus_iff : forall l acc, (exists r, parse_ecus l acc = Ok r) <-> forall k v, In (k, v) l -> good_ecu k v.
Proof.
  induction l as [|(k, v) l IH]; intros acc; cbn [parse_ecus]; [split; [intros _ ? ? []|eauto]|]. split.
  - intros (r & H). apply bind_ok in H as (e0 & H0 & H). apply bind_ok in H as (hj & H1 & H). apply bind_ok in H as (s & H2 & H). apply bind_ok in H as (h & H3 & H).
    intros k' v' [e|i].
    + injection e as <- <-. split.
      * apply serial_short. unfold ecu_serial in *. destruct (Nat.ltb _ 1); [discriminate|]. destruct (Nat.ltb 64 _); [discriminate|reflexivity].
      * exists hj. split; [exact H1|]. exists s. split; [exact H2|]. unfold hw_id in H3. destruct (Nat.ltb_spec 200 (String.length s)); [discriminate|lia].
    + eapply (proj1 (IH _)); eauto.
  - intros H. destruct (H k v (or_introl eq_refl)) as (H0 & hj & H1 & s & H2 & H3). apply serial_short in H0. rewrite H0. cbn [bind]. rewrite H1. cbn [bind]. rewrite H2. cbn [bind].
    apply hwid_short in H3. rewrite H3. cbn [bind]. apply IH. intros k' v' i. apply (H k' v'). now right.
Qed.
Lemma parse_hashes_iff : forall l acc, (exists r, parse_hashes l acc = Ok r) <-> forall k v, In (k, v) l -> text_value v.
Proof.
  induction l as [|(k, v) l IH]; intros acc; cbn [parse_hashes]; [split; [intros _ ? ? []|eauto]|]. split.
  - intros (r & H). apply bind_ok in H as (s & H1 & H). intros k' v' [e|i].
    + injection e as <- <-. now exists s.
    + eapply (proj1 (IH _)); eauto.
  - intros H. destruct (H k v (or_introl eq_refl)) as (s & H1). rewrite H1. cbn [bind]. apply IH. intros k' v' i. apply (H k' v'). now right.
Qed.
Lemma jget_obj k l : jget k (JObj l) = Ok (get k l). Proof. reflexivity. Qed.
Lemma jmember_get k l : jmember k (JObj l) = Ok (match aget k l with Some _ => true | None => false end). Proof. reflexivity. Qed.
Lemma text_null : text_value JNull. Proof. now exists "". Qed.

Lemma custom_iff fn c : (exists t, update_custom (target_blank fn) c = Ok t) <-> good_custom c.
Proof.
  destruct c as [|b|z|n dd tx|s|l|l]; try (split; [intros (t & H); discriminate H|intros []]).
  - split; [constructor|]. intros _. eexists. reflexivity.
  - unfold update_custom, good_custom. rewrite !jmember_get, !jget_obj. cbn [bind target_blank t_hwids t_ecus t_type t_uri].
    split.
    + intros (t & H). apply bind_ok in H as (hw & H1 & H). apply bind_ok in H as (ec & H2 & H). apply bind_ok in H as (ty & H3 & H). apply bind_ok in H as (u & H4 & _).
      split; [|split; [|split]].
      * unfold get. destruct (aget "hardwareIds" l) eqn:G; [|intros ? ? []]. cbn [bind] in H1. unfold get in H1. rewrite G in H1. apply (parse_hwids_iff _ []). eauto.
      * apply (parse_ecus_iff _ []). eauto.
      * unfold get in *. destruct (aget "targetFormat" l); [eexists; exact H3|apply text_null].
      * unfold get in *. destruct (aget "uri" l); [|apply text_null]. apply bind_ok in H4 as (u1 & H4 & _). eexists; exact H4.
    + intros (A & B & (x & C) & (y & D)).
      assert (exists r, (if match aget "hardwareIds" l with Some _ => true | None => false end then parse_hwids (jiter (get "hardwareIds" l)) [] else Ok []) = Ok r) as (hw & ->).
      { unfold get in A. destruct (aget "hardwareIds" l) eqn:G; [|eauto]. cbn [bind]. unfold get. rewrite G. now apply parse_hwids_iff. }
      cbn [bind]. destruct (proj2 (parse_ecus_iff (jiter (get "ecuIdentifiers" l)) []) B) as (ec & ->). cbn [bind].
      assert (exists r, (if match aget "targetFormat" l with Some _ => true | None => false end then jas_string (get "targetFormat" l) else Ok "") = Ok r) as (ty & ->).
      { unfold get in *. destruct (aget "targetFormat" l); cbn [bind]; [exists x; exact C|eauto]. }
      cbn [bind]. unfold get in *. destruct (aget "uri" l); cbn [bind]; [rewrite D; cbn [bind]; destruct (String.eqb y "https://example.com/"); eauto|eauto].
Qed.
Lemma target_iff fn c : (exists t, target_of_json fn c = Ok t) <-> good_target c.
Proof.
  destruct c as [|b|z|n dd tx|s|l|l]; try (split; [intros (t & H); discriminate H|intros []]).
  - split; [constructor|]. intros _. eexists. reflexivity.
  - unfold target_of_json, good_target. rewrite !jmember_get, !jget_obj. cbn [bind]. split.
    + intros (t & H). apply bind_ok in H as (t1 & H1 & H). apply bind_ok in H as (n & H2 & H). apply bind_ok in H as (hs & H3 & _). split; [|split].
      * unfold get in *. destruct (aget "custom" l); [|exact Logic.I]. cbn [bind] in H1. apply (custom_iff fn). eauto.
      * eauto.
      * apply (parse_hashes_iff _ []). eauto.
    + intros (A & (n & B) & C).
      assert (exists r, (if match aget "custom" l with Some _ => true | None => false end then update_custom (target_blank fn) (get "custom" l) else Ok (target_blank fn)) = Ok r) as (t1 & ->).
      { unfold get in *. destruct (aget "custom" l); cbn [bind]; [now apply custom_iff|eauto]. }
      cbn [bind]. rewrite B. cbn [bind]. apply (parse_hashes_iff _ []) in C as (hs & ->). cbn [bind]. eauto.
Qed.
Lemma readable_good c : readable c <-> good_target c. Proof. apply target_iff. Qed.

(** ** Changing *)
Lemma jset_obj k v j j' : jset k v j = Ok j' -> exists l, j' = JObj (oput k v l) /\ (j = JObj l \/ (j = JNull /\ l = [])).
Proof. destruct j; cbn; try discriminate; intros H; injection H as <-; [exists []; auto|eauto]. Qed.
Lemma jmod_obj k f j j' : jmod k f j = Ok j' -> exists l v, j' = JObj (oput k v l) /\ f (get k l) = Ok v /\ (j = JObj l \/ (j = JNull /\ l = [])).
Proof.
  intros H. apply bind_ok in H as (old & H1 & H). apply bind_ok in H as (v & H2 & H). apply jset_obj in H as (l & -> & H).
  exists l, v. destruct H as [->|(-> & ->)]; cbn in H1; injection H1 as <-; auto.
Qed.
Lemma good_target_nil : good_target (JObj []). Proof. split; [exact Logic.I|]. split; [now exists 0|intros ? ? []]. Qed.
Lemma good_custom_nil : good_custom (JObj []). Proof. split; [intros ? ? []|]. split; [intros ? ? []|]. split; apply text_null. Qed.
Lemma good_target_mod f c c' : good_target c -> (forall x y, good_custom x -> f x = Ok y -> good_custom y) -> jmod "custom" f c = Ok c' -> good_target c'.
Proof.
  intros G F H. apply jmod_obj in H as (l & v & -> & H1 & H2).
  assert (good_target (JObj l)) as (A & B & C) by (destruct H2 as [->|(-> & ->)]; [exact G|exact good_target_nil]).
  split; [rewrite get_oput; eauto|]. rewrite !get_oput_other by discriminate. auto.
Qed.
Lemma good_custom_other k v c c' : (k <> "hardwareIds" /\ k <> "ecuIdentifiers" /\ k <> "targetFormat") -> text_value v -> good_custom c -> jset k v c = Ok c' -> good_custom c'.
Proof.
  intros (N1 & N2 & N3) T G H. apply jset_obj in H as (l & -> & H).
  assert (good_custom (JObj l)) as (A & B & C & D) by (destruct H as [->|(-> & ->)]; [exact G|exact good_custom_nil]).
  cbn [good_custom]. rewrite (get_oput_other k "hardwareIds"), (get_oput_other k "ecuIdentifiers"), (get_oput_other k "targetFormat") by auto. split; [exact A|]. split; [exact B|]. split; [exact C|].
  destruct (String.eqb_spec k "uri") as [->|N]; [now rewrite get_oput|rewrite get_oput_other by auto; auto].
Qed.
Lemma get_odel k k' l : get k' (odel k l) = if String.eqb k' k then JNull else get k' l.
Proof. unfold get. rewrite aget_odel. now destruct (String.eqb k' k). Qed.
Lemma good_custom_remove k c c' : good_custom c -> jremove k c = Ok c' -> good_custom c'.
Proof.
  destruct c as [|b|z|n dd tx|s|l|l]; try discriminate; intros G H; injection H as <-; [exact Logic.I|].
  destruct G as (A & B & C & D). cbn [good_custom]. rewrite !get_odel.
  split; [destruct (String.eqb _ k); [intros ? ? []|exact A]|]. split; [destruct (String.eqb _ k); [intros ? ? []|exact B]|].
  split; destruct (String.eqb _ k); try apply text_null; assumption.
Qed.
Lemma good_custom_ecu serial hw c c' : (1 <= String.length serial <= 64)%nat -> (String.length hw <= 200)%nat -> good_custom c ->
  jmod "ecuIdentifiers" (jmod serial (jset "hardwareId" (JStr hw))) c = Ok c' -> good_custom c'.
Proof.
  intros S1 S2 G H. apply jmod_obj in H as (l & v & -> & H1 & H).
  assert (good_custom (JObj l)) as (A & B & C & D) by (destruct H as [->|(-> & ->)]; [exact G|exact good_custom_nil]).
  cbn [good_custom]. rewrite get_oput, !get_oput_other by discriminate. split; [exact A|]. split; [|split; assumption]. intros k x H0.
  - apply jmod_obj in H1 as (l1 & v1 & -> & H2 & H3). cbn [jiter] in H0. apply in_oput in H0 as [e|i].
    + injection e as -> ->. split; [lia|]. apply jset_obj in H2 as (l2 & -> & _). rewrite jget_obj, get_oput. eexists. split; [reflexivity|]. now exists hw.
    + destruct H3 as [e|(e & ->)]; [|destruct i]. rewrite e in B. apply (B _ _ i).
Qed.
Lemma in_index l : forall i k v, In (k, v) (index_from i l) -> In v l.
Proof. induction l as [|x l IH]; intros i k v H; [exact H|]. cbn [index_from] in H. destruct H as [e|H]; [injection e as <- <-; now left|right; eauto]. Qed.
Lemma in_index_ex l : forall i v, In v l -> exists k, In (k, v) (index_from i l).
Proof. induction l as [|x l IH]; intros i v H; [destruct H|]. cbn [index_from]. destruct H as [->|H]; [eexists; now left|]. destruct (IH (i + 1) v H) as (k & h). exists k. now right. Qed.
Lemma good_custom_hw hw c c' : (String.length hw <= 200)%nat -> good_custom c -> jmod "hardwareIds" (jset0 (JStr hw)) c = Ok c' -> good_custom c'.
Proof.
  intros S G H. apply jmod_obj in H as (l & v & -> & H1 & H).
  assert (good_custom (JObj l)) as (A & B & C & D) by (destruct H as [->|(-> & ->)]; [exact G|exact good_custom_nil]).
  cbn [good_custom]. rewrite get_oput, !get_oput_other by discriminate. split; [|split; [|split]; assumption]. intros k x i.
  assert (S' : short (JStr hw)) by (now exists hw).
  destruct (get "hardwareIds" l) as [|b|z|n dd tx|s|l1|l1] eqn:e; try discriminate.
  - injection H1 as <-. destruct i as [i|[]]. now injection i as _ <-.
  - destruct l1 as [|y l1]; injection H1 as <-.
    + destruct i as [i|[]]. now injection i as _ <-.
    + cbn [jiter] in i. apply in_index in i. destruct i as [<-|i]; [exact S'|]. destruct (in_index_ex (y :: l1) 0 x (or_intror i)) as (k' & i'). apply (A k' x i').
Qed.

Lemma good_director c hw serial url c' : good_target c -> (1 <= String.length serial <= 64)%nat -> (String.length hw <= 200)%nat -> director_target c hw serial url = Ok c' -> good_target c'.
Proof.
  intros G S1 S2 H. apply bind_ok in H as (a & H1 & H). apply bind_ok in H as (b & H2 & H).
  assert (G1 : good_target a) by (eapply good_target_mod; [exact G| |exact H1]; intros; eapply good_custom_remove; eauto).
  assert (G2 : good_target b) by (eapply good_target_mod; [exact G1| |exact H2]; intros; eapply good_custom_ecu; eauto).
  destruct (String.eqb url ""); (eapply good_target_mod; [exact G2| |exact H]); intros.
  - eapply good_custom_remove; eauto.
  - eapply good_custom_other; [| |eassumption|eassumption]; [repeat split; discriminate|now exists url].
Qed.
Lemma plain_director c hw serial url c' : plain c = true -> ascii_text hw = true -> ascii_text serial = true -> ascii_text url = true -> director_target c hw serial url = Ok c' -> plain c' = true.
Proof.
  intros P A B C H. apply bind_ok in H as (a & H1 & H). apply bind_ok in H as (b & H2 & H).
  assert (P1 : plain a = true) by (refine (plain_jmod "custom" _ _ _ eq_refl P _ H1); intros x y; apply plain_jremove).
  assert (P2 : plain b = true).
  { refine (plain_jmod "custom" _ _ _ eq_refl P1 _ H2). intros x y Hx Hy. refine (plain_jmod "ecuIdentifiers" _ _ _ eq_refl Hx _ Hy). intros x1 y1 Hx1 Hy1. refine (plain_jmod _ _ _ _ B Hx1 _ Hy1).
    intros x2 y2 Hx2 Hy2. refine (plain_jset "hardwareId" _ _ _ eq_refl _ Hx2 Hy2). exact A. }
  destruct (String.eqb url ""); refine (plain_jmod "custom" _ _ _ eq_refl P2 _ H); intros x y Hx Hy.
  - now apply plain_jremove in Hy.
  - refine (plain_jset "uri" _ _ _ eq_refl _ Hx Hy). exact C.
Qed.
Lemma good_add_hw c hw c' : good_target c -> (String.length hw <= 200)%nat -> jmod "custom" (jmod "hardwareIds" (jset0 (JStr hw))) c = Ok c' -> good_target c'.
Proof. intros G S H. eapply good_target_mod; [exact G| |exact H]. intros. eapply good_custom_hw; eauto. Qed.
Lemma plain_add_hw c hw c' : plain c = true -> ascii_text hw = true -> jmod "custom" (jmod "hardwareIds" (jset0 (JStr hw))) c = Ok c' -> plain c' = true.
Proof.
  intros P A H. refine (plain_jmod "custom" _ _ _ eq_refl P _ H). intros x y Hx Hy. refine (plain_jmod "hardwareIds" _ _ _ eq_refl Hx _ Hy). intros x1 y1 Hx1 Hy1. refine (plain_jset0 _ _ _ _ Hx1 Hy1). exact A.
Qed.

Section Images.
Context (E : Env) (HE : env_ok E).
Lemma good_binary content url : Z.of_nat (String.length content) <= max_uint64 -> good_target (binary_target E content url).
Proof.
  intros L. unfold binary_target. split; [|split].
  - cbn [get aget String.eqb Ascii.eqb Bool.eqb]. destruct (String.eqb url ""); (split; [intros ? ? []|split; [intros ? ? []|split; eexists; reflexivity]]).
  - exists (Z.of_nat (String.length content)). change (get "length" _) with (JInt (Z.of_nat (String.length content))). unfold jas_uint64, jas_range, in_range.
    rewrite (proj2 (Z.leb_le 0 _)), (proj2 (Z.leb_le _ _) L) by lia. reflexivity.
  - intros k v [e|[e|[]]]; injection e as <- <-; eexists; reflexivity.
Qed.
Lemma plain_binary content url : ascii_text url = true -> Z.of_nat (String.length content) <= max_uint64 -> plain (binary_target E content url) = true.
Proof.
  intros A L. apply plain_obj. split; [reflexivity|]. intros k v [e|[e|[e|[]]]]; injection e as <- <-; (split; [reflexivity|]).
  - destruct (String.eqb url ""); [reflexivity|]. cbn. now rewrite A.
  - cbn. unfold lower_hex. rewrite !ascii_lower by (apply (eo_sha256 E HE) || apply (eo_sha512 E HE)). reflexivity.
  - apply plain_int. lia.
Qed.
End Images.
Lemma uint_small z : 0 <= z mod uint_mod <= max_uint64 /\ 0 <= z mod uint_mod < uint_mod.
Proof. pose proof (Z.mod_pos_bound z uint_mod ltac:(reflexivity)). unfold uint_mod, max_uint64 in *. lia. Qed.
Lemma uri_custom url custom c : good_custom custom -> (if String.eqb url "" then Ok custom else jset "uri" (JStr url) custom) = Ok c -> good_custom c.
Proof.
  intros G H. destruct (String.eqb url ""); [now injection H as <-|]. eapply good_custom_other; [| |exact G|exact H]; [repeat split; discriminate|now exists url].
Qed.
Lemma good_custom_target h len url custom t : good_custom custom -> custom_target h len url custom = Ok t -> good_target t.
Proof.
  intros G H. apply bind_ok in H as (c & H1 & H). apply uri_custom in H1; [|exact G]. injection H as <-.
  assert (L : exists n, jas_uint64 (JInt (len mod uint_mod)) = Ok n).
  { destruct (uint_small len) as ((A & B) & _). eexists. unfold jas_uint64, jas_range, in_range. rewrite (proj2 (Z.leb_le _ _) A), (proj2 (Z.leb_le _ _) B). reflexivity. }
  destruct (h_type h); (split; [exact H1|]); (split; [exact L|]); intros k v i; cbn in i; try (destruct i as [e|[]]; injection e as <- <-; eexists; reflexivity); destruct i.
Qed.
Lemma plain_custom_target h len url custom t : ascii_text (h_val h) = true -> ascii_text url = true -> plain custom = true -> custom_target h len url custom = Ok t -> plain t = true.
Proof.
  intros A B P H. apply bind_ok in H as (c & H1 & H). injection H as <-.
  assert (P1 : plain c = true) by (destruct (String.eqb url ""); [now injection H1 as <-|refine (plain_jset "uri" _ _ _ eq_refl _ P H1); exact B]).
  destruct (uint_small len) as (L & _). apply plain_int in L.
  apply plain_obj. split; [destruct (h_type h); reflexivity|]. intros k v i.
  destruct (h_type h); cbn in i; repeat (destruct i as [e|i]; [injection e as <- <-; split; [reflexivity|]; try assumption; cbn; now rewrite A|]); destruct i.
Qed.
