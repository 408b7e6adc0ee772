(** What the commands of the generator keep: definitions, and the update of Snapshot and Timestamp. *)
From Verif Require Import Base Json TufModel TufSpec TufProofs MetaStore RepoModel RepoSpec RepoProofs RepoProofs4 CodecModel CodecSpec CodecProofs GenModel GenSpec GenProofs GenProofs2 GenProofs3 GenProofs4.

(** ** Paths *)
Definition numeric (c : ascii) : bool := (Nat.leb 48 (nat_of_ascii c) && Nat.leb (nat_of_ascii c) 57) || Ascii.eqb c "-".
Lemma root_file_head v : exists c s, root_file v = String c s /\ numeric c = true.
Proof.
  unfold root_file, to_dec. destruct (v <? 0) eqn:H; [exists "-"%char; eexists; split; reflexivity|]. apply Z.ltb_ge in H.
  destruct (dec_nonneg_head v H) as (d & s & Hd & ->). eexists. eexists. split; [reflexivity|].
  assert (d = 0 \/ d = 1 \/ d = 2 \/ d = 3 \/ d = 4 \/ d = 5 \/ d = 6 \/ d = 7 \/ d = 8 \/ d = 9) as X by lia. repeat (destruct X as [-> | X]; [reflexivity|]). now subst.
Qed.
Lemma root_file_neq v c s : numeric c = false -> root_file v <> String c s.
Proof. intros N H. destruct (root_file_head v) as (c' & s' & e & X). rewrite e in H. injection H as -> _. congruence. Qed.
Lemma append_inj_r a b c : append a c = append b c -> a = b.
Proof.
  assert (L : forall x y, String.length (append x y) = (String.length x + String.length y)%nat) by (induction x; intros; cbn; auto).
  revert b. induction a as [|x a IH]; intros [|y b] H; try reflexivity.
  - apply (f_equal String.length) in H. change (append "" c) with c in H. rewrite L in H. cbn in H. lia.
  - apply (f_equal String.length) in H. change (append "" c) with c in H. rewrite L in H. cbn in H. lia.
  - cbn in H. injection H as -> H. f_equal. now apply IH.
Qed.
Lemma root_file_inj v w : 0 <= v -> 0 <= w -> root_file v = root_file w -> v = w.
Proof.
  intros V W H. apply append_inj_r in H. unfold to_dec in H. rewrite (proj2 (Z.ltb_ge v 0) V), (proj2 (Z.ltb_ge w 0) W) in H.
  rewrite <- (dec_nonneg_scan v V), <- (dec_nonneg_scan w W). now rewrite H.
Qed.
Ltac neq := match goal with
  | |- ?a <> ?b => first [discriminate | (apply root_file_neq; reflexivity) | (let H := fresh in intro H; symmetry in H; revert H; apply root_file_neq; reflexivity)]
  end.

Lemma aget_put p q c d : aget q (f_files (put_file p c d)) = if String.eqb q p then Some c else aget q (f_files d).
Proof. reflexivity. Qed.
Lemma aget_put_same p c d : aget p (f_files (put_file p c d)) = Some c.
Proof. rewrite aget_put. now rewrite String.eqb_refl. Qed.
Lemma aget_put_other p q c d : q <> p -> aget q (f_files (put_file p c d)) = aget q (f_files d).
Proof. intros H. rewrite aget_put. destruct (String.eqb_spec q p); congruence. Qed.
Lemma aget_filter_files p q (l : list (string * string)) : aget q (filter (fun x => negb (String.eqb (fst x) p)) l) = if String.eqb q p then None else aget q l.
Proof.
  induction l as [|(k, v) l IH]; cbn [filter aget fst]; [now destruct (String.eqb q p)|].
  destruct (String.eqb_spec k p) as [->|N]; cbn [negb].
  - rewrite IH. destruct (String.eqb_spec q p) as [->|]; reflexivity.
  - cbn [aget]. rewrite IH. destruct (String.eqb_spec q k) as [->|]; [|reflexivity]. destruct (String.eqb_spec k p); congruence.
Qed.
Lemma aget_del_file p q d : aget q (f_files (del_file p d)) = if String.eqb q p then None else aget q (f_files d).
Proof. apply aget_filter_files. Qed.
Lemma aget_del_other p q d : q <> p -> aget q (f_files (del_file p d)) = aget q (f_files d).
Proof. intros H. rewrite aget_del_file. destruct (String.eqb_spec q p); congruence. Qed.

Section Keep.
Context (E : Env) (keyid : pubkey -> string) (depth : nat) (HE : env_ok E).
Context (rp : repo) (K : repo_keys) (HK : keys_ok E keyid K).
Let KS := root_keyset E keyid K.

(** ** What holds of a repository *)
Definition text_ok (r : role) (text : string) (j : json) : Prop :=
  exists kid m sg, text = canon E (signed_doc kid m sg j) /\ plain (signed_doc kid m sg j) = true /\ acceptable E KS r (signed_doc kid m sg j).
Definition doc_at (d : side) (p : string) (r : role) (j : json) : Prop := exists text, aget p (f_files d) = Some text /\ text_ok r text j.
Definition good_tgt (cu de : option json) (e : string) (ts : json) (v : Z) : Prop :=
  custom_ok cu /\ deleg_ok de /\ tlist_ok ts /\ time_ok e /\ 0 <= v <= max_int /\ (rp = Director -> de = None).
Definition root_ok (d : side) : Prop := exists V N e, 1 <= N <= V /\ V <= max_int /\ time_ok e /\ doc_at d "root.json" role_root (root_doc_json keyid K e V) /\
  (forall v, 1 <= v <= N -> exists e, time_ok e /\ doc_at d (root_file v) role_root (root_doc_json keyid K e v)) /\
  aget (root_file (N + 1)) (f_files d) = None /\ (forall v, 0 <= v -> aget (root_file v) (f_files d) <> None -> v <= V).
Definition targets_ok (d : side) : Prop := exists cu de e ts v, good_tgt cu de e ts v /\ doc_at d "targets.json" role_targets (tgt_shape cu de e ts v).
Definition snap_ok (d : side) : Prop := exists e ml v, time_ok e /\ 0 <= v <= max_int /\ doc_at d "snapshot.json" role_snapshot (snap_shape e ml v).
Definition ts_ok (d : side) : Prop := exists e a b len sv v, time_ok e /\ 0 <= v <= max_int /\ doc_at d "timestamp.json" role_timestamp (ts_shape e a b len sv v).
Definition keys_there (f : list (string * keypair)) : Prop := forall rn, In rn ["root"; "snapshot"; "targets"; "timestamp"] -> aget rn f = repo_key K rn.
(** delegations of the Image repository, what is staged for the Director *)
Definition file_ok (j : json) : Prop := plain j = true /\ forall s t, jget "signed" j = Ok s -> jget "targets" s = Ok t -> tlist_ok t.
Definition ver (p : string) (d : side) : Z := match declared_version E p d with Ok v => v | Throw _ => 0 end.
Definition staged_ok (d : side) : Prop :=
  match aget staging (f_files d) with
  | None => True
  | Some text => exists cu e ts v, text = canon E (tgt_shape cu None e ts v) /\ plain (tgt_shape cu None e ts v) = true /\ good_tgt cu None e ts 0 /\ ver "targets.json" d <= v < uint_mod
  end.
Definition extra_ok (d : side) : Prop := (forall n, file_ok (file_json E (delegation_file n) d)) /\ (rp = Director -> staged_ok d).
Definition core (d : side) : Prop := keys_there (f_keys d) /\ root_ok d /\ targets_ok d /\ snap_ok d /\ ts_ok d /\ extra_ok d /\ bounded E d.

(** What a device can rely on when [d0] becomes [d]. *)
Definition later (d0 d : side) : Prop :=
  (forall v x, 0 <= v -> aget (root_file v) (f_files d0) = Some x -> aget (root_file v) (f_files d) = Some x) /\
  ver "timestamp.json" d0 <= ver "timestamp.json" d /\
  match rp with
  | Image => aget "targets.json" (f_files d) = aget "targets.json" (f_files d0) \/ ver "targets.json" d0 < ver "targets.json" d
  | Director => ver "targets.json" d0 <= ver "targets.json" d
  end.
Lemma later_refl d : later d d. Proof. split; [auto|]. split; [lia|]. destruct rp; [lia|now left]. Qed.

(** Snapshot and Timestamp describe what is there. *)
Definition consistent (d : side) : Prop :=
  exists text e ml v e' v', aget "snapshot.json" (f_files d) = Some text /\ time_ok e /\ 0 <= v <= max_int /\ text_ok role_snapshot text (snap_shape e ml v) /\
    meta_ok ml /\ aget "targets.json" ml = Some (JObj [("version", JInt (ver "targets.json" d))]) /\
    time_ok e' /\ 0 <= v' <= max_int /\
    doc_at d "timestamp.json" role_timestamp (ts_shape e' (lower_hex (sha256hex E text)) (lower_hex (sha512hex E text)) (Z.of_nat (String.length text) mod uint_mod) v v').

(** ** Documents in files *)
Lemma parse_text r text j : text_ok r text j -> exists kid m sg, parse E text = signed_doc kid m sg j /\ plain j = true /\ acceptable E KS r (parse E text) /\ canon E (parse E text) = text.
Proof.
  intros (kid & m & sg & -> & P & A). exists kid, m, sg. rewrite (eo_round E HE _ P). split; [reflexivity|]. split; [|auto].
  unfold signed_doc in P. apply plain_obj in P as (_ & P). apply (P "signed" j). right. now left.
Qed.
Lemma file_doc d p r j : doc_at d p r j -> exists kid m sg, file_json E p d = signed_doc kid m sg j /\ plain j = true.
Proof. intros (text & A & T). apply parse_text in T as (kid & m & sg & P & Q & _). exists kid, m, sg. unfold file_json. rewrite A. auto. Qed.
Lemma signed_file d p r j : doc_at d p r j -> jget "signed" (file_json E p d) = Ok j.
Proof. intros H. apply file_doc in H as (kid & m & sg & -> & _). reflexivity. Qed.
Lemma jas_uint_wide v : 0 <= v < uint_mod -> jas_uint (JInt v) = Ok v.
Proof. intros H. change (jas_uint (JInt v)) with (if (0 <=? v) && (v <=? uint_mod - 1) then Ok v else @Throw Z EStd). rewrite (proj2 (Z.leb_le 0 v)), (proj2 (Z.leb_le v _)) by lia. reflexivity. Qed.
Lemma jas_uint_nonneg vj w : jas_uint vj = Ok w -> 0 <= w.
Proof.
  assert (R : forall q, (if Json.in_range 0 (uint_mod - 1) q then Ok q else Throw EStd) = Ok w -> 0 <= w).
  { intros q H. destruct (Json.in_range 0 (uint_mod - 1) q) eqn:X; [|discriminate H]. injection H as <-. unfold Json.in_range in X. lia. }
  unfold jas_uint. destruct vj as [|b|z|n dd tx|s|l|l]; intros H; try discriminate H.
  - injection H as <-. lia.
  - injection H as <-. destruct b; lia.
  - exact (R z H).
  - exact (R _ H).
Qed.
Lemma jas_uint_ok v : 0 <= v <= max_int -> jas_uint (JInt v) = Ok v.
Proof. intros H. apply jas_uint_wide. unfold uint_mod, max_int in *. lia. Qed.
Lemma declared_doc d p r j v : doc_at d p r j -> jget "version" j = Ok (JInt v) -> 0 <= v < uint_mod -> declared_version E p d = Ok v.
Proof. intros A B C. unfold declared_version. rewrite (signed_file _ _ _ _ A). cbn [bind]. rewrite B. cbn [bind]. now apply jas_uint_wide. Qed.
Lemma ver_doc d p r j v : doc_at d p r j -> jget "version" j = Ok (JInt v) -> 0 <= v < uint_mod -> ver p d = v.
Proof. intros A B C. unfold ver. now rewrite (declared_doc _ _ _ _ _ A B C). Qed.
Lemma ver_frame p d d' : aget p (f_files d') = aget p (f_files d) -> ver p d' = ver p d.
Proof. intros H. unfold ver, declared_version, file_json. now rewrite H. Qed.
Lemma next_small v : 0 <= v <= max_int -> next_uint v = v + 1 /\ 0 <= v + 1 < uint_mod.
Proof. intros H. unfold next_uint, uint_mod, max_int in *. rewrite Z.mod_small by lia. lia. Qed.
Lemma bounded_doc d p r j v : bounded E d -> doc_at d p r j -> jget "version" j = Ok (JInt v) -> 0 <= v < uint_mod -> 0 <= v <= max_int.
Proof. intros B A C D. pose proof (B p v (declared_doc _ _ _ _ _ A C D)). lia. Qed.

(** ** Frames *)
Lemma doc_frame d d' p r j : aget p (f_files d') = aget p (f_files d) -> doc_at d p r j -> doc_at d' p r j.
Proof. intros H (t & A & B). exists t. now rewrite H. Qed.
Lemma root_frame d d' : aget "root.json" (f_files d') = aget "root.json" (f_files d) -> (forall v, aget (root_file v) (f_files d') = aget (root_file v) (f_files d)) -> root_ok d -> root_ok d'.
Proof.
  intros H1 H2 (V & N & e & A & B & C & D & F & G & H). exists V, N, e. split; [exact A|]. split; [exact B|]. split; [exact C|]. split; [eapply doc_frame; eauto|].
  split; [intros v Hv; destruct (F v Hv) as (e' & F1 & F2); exists e'; split; [exact F1|eapply doc_frame; eauto]|]. split; [now rewrite H2|]. intros v. rewrite H2. apply H.
Qed.
Lemma targets_frame d d' : aget "targets.json" (f_files d') = aget "targets.json" (f_files d) -> targets_ok d -> targets_ok d'.
Proof. intros H (cu & de & e & ts & v & A & B). exists cu, de, e, ts, v. split; [exact A|eapply doc_frame; eauto]. Qed.
Lemma snap_frame d d' : aget "snapshot.json" (f_files d') = aget "snapshot.json" (f_files d) -> snap_ok d -> snap_ok d'.
Proof. intros H (e & ml & v & A & B & C). exists e, ml, v. split; [exact A|]. split; [exact B|eapply doc_frame; eauto]. Qed.
Lemma ts_frame d d' : aget "timestamp.json" (f_files d') = aget "timestamp.json" (f_files d) -> ts_ok d -> ts_ok d'.
Proof. intros H (e & a & b & len & sv & v & A & B & C). exists e, a, b, len, sv, v. split; [exact A|]. split; [exact B|eapply doc_frame; eauto]. Qed.
Lemma extra_frame d d' : (forall n, aget (delegation_file n) (f_files d') = aget (delegation_file n) (f_files d)) ->
  aget staging (f_files d') = aget staging (f_files d) -> aget "targets.json" (f_files d') = aget "targets.json" (f_files d) -> extra_ok d -> extra_ok d'.
Proof.
  intros H1 H2 H3 (A & B). split.
  - intros n. unfold file_json. rewrite H1. apply A.
  - intros R. specialize (B R). unfold staged_ok in *. rewrite H2. now rewrite (ver_frame _ _ _ H3).
Qed.
Lemma later_frame d0 d d' : (forall v, aget (root_file v) (f_files d') = aget (root_file v) (f_files d)) -> aget "timestamp.json" (f_files d') = aget "timestamp.json" (f_files d) ->
  aget "targets.json" (f_files d') = aget "targets.json" (f_files d) -> later d0 d -> later d0 d'.
Proof.
  intros H1 H2 H3 (A & B & C). split; [intros v x; rewrite H1; apply A|]. rewrite (ver_frame _ _ _ H2), (ver_frame _ _ _ H3), H3. auto.
Qed.

(** ** Reasoning about commands *)
Context (I : invocation) (d0 : side).
Definition mem_ok (mem : list (string * keypair)) : Prop := keys_there mem /\ forall rn kp, aget rn mem = Some kp -> key_ok E keyid kp /\ signs E I kp.
Definition keep (d : side) : Prop := core d /\ later d0 d.
Definition inv (s : gst) : Prop := keep (g_side s) /\ mem_ok (g_mem s) /\ Forall keep (g_log s).
Definition grows {A} (m : G A) : Prop := forall s s' r, m s = (s', r) -> exists l, g_log s' = l ++ g_log s.
Definition tri {A} (s : gst) (m : G A) (Q : A -> gst -> Prop) : Prop :=
  forall s' r, inv s -> m s = (s', r) -> Forall (bounded E) (g_log s') -> inv s' /\ forall a, r = Ok a -> Q a s'.

Lemma grows_bind {A B} (m : G A) (k : A -> G B) : grows m -> (forall a, grows (k a)) -> grows (gbind m k).
Proof.
  intros M N s s' r H. unfold gbind in H. destruct (m s) as (s1, [a|e]) eqn:H1.
  - destruct (M _ _ _ H1) as (l1 & L1). destruct (N _ _ _ _ H) as (l2 & L2). exists (l2 ++ l1). now rewrite L2, L1, app_assoc.
  - injection H as <- <-. eauto.
Qed.
Lemma grows_pure {A} (f : gst -> res A) : grows (fun s => (s, f s)). Proof. intros s s' r H. injection H as <- <-. now exists []. Qed.
Lemma grows_lift {A} (x : res A) : grows (glift x). Proof. apply (grows_pure (fun _ => x)). Qed.
Lemma grows_ret {A} (x : A) : grows (gret x). Proof. apply (grows_pure (fun _ => Ok x)). Qed.
Lemma grows_throw {A} e : grows (@gthrow A e). Proof. apply (grows_pure (fun _ => Throw e)). Qed.
Lemma grows_change f : grows (change f). Proof. intros s s' r H. injection H as <- <-. now exists [f (g_side s)]. Qed.
Lemma grows_key rn kp : grows (generate_key rn kp). Proof. intros s s' r H. injection H as <- <-. eexists [_]. reflexivity. Qed.
Lemma grows_read p : grows (read_signed E p).
Proof. apply grows_bind; [apply grows_pure|intros; apply grows_lift]. Qed.
Lemma grows_wsigned rn p j : grows (write_signed E keyid I rn p j).
Proof. apply grows_bind; [apply grows_pure|intros]. apply grows_bind; [apply grows_change|intros; apply grows_ret]. Qed.
Ltac gr := repeat first [apply grows_bind | apply grows_lift | apply grows_ret | apply grows_throw | apply grows_change | apply grows_key | apply grows_read | apply grows_wsigned | apply grows_pure | intro].
Lemma grows_update : grows (update_repo E keyid depth I). Proof. unfold update_repo. gr. Qed.

Lemma tri_bind {A B} s (m : G A) (k : A -> G B) Q R : tri s m Q -> (forall a, grows (k a)) -> (forall a s1, inv s1 -> Q a s1 -> tri s1 (k a) R) -> tri s (gbind m k) R.
Proof.
  intros M N H s' r V X L. unfold gbind in X. destruct (m s) as (s1, [a|e]) eqn:H1.
  - destruct (N _ _ _ _ X) as (l & HL). assert (L1 : Forall (bounded E) (g_log s1)) by (rewrite HL in L; now apply Forall_app in L).
    destruct (M _ _ V H1 L1) as (V1 & Q1). apply (H a s1 V1 (Q1 a eq_refl) _ _ V1 X L).
  - injection X as <- <-. destruct (M _ _ V H1 L) as (V1 & _). split; [exact V1|discriminate].
Qed.
Lemma tri_pure {A} s (f : gst -> res A) : tri s (fun s => (s, f s)) (fun a s' => s' = s /\ f s = Ok a).
Proof. intros s' r V H L. injection H as <- <-. split; [exact V|]. auto. Qed.
Lemma tri_lift {A} s (x : res A) : tri s (glift x) (fun a s' => s' = s /\ x = Ok a). Proof. apply (tri_pure s (fun _ => x)). Qed.
Lemma tri_ret {A} s (x : A) (Q : A -> gst -> Prop) : Q x s -> tri s (gret x) Q.
Proof. intros H s' r V X L. injection X as <- <-. split; [exact V|]. intros a e. now injection e as <-. Qed.
Lemma tri_throw {A} s e (Q : A -> gst -> Prop) : tri s (gthrow e) Q.
Proof. intros s' r V X L. injection X as <- <-. split; [exact V|discriminate]. Qed.
Lemma tri_weaken {A} s (m : G A) (Q R : A -> gst -> Prop) : tri s m Q -> (forall a s', inv s' -> Q a s' -> R a s') -> tri s m R.
Proof. intros M H s' r V X L. destruct (M _ _ V X L) as (V1 & Q1). split; [exact V1|]. intros a e. apply H; [exact V1|]. now apply Q1. Qed.
Definition with_side (d : side) (s : gst) : gst := {| g_side := d; g_mem := g_mem s; g_log := d :: g_log s |}.
Lemma tri_change s f : (bounded E (f (g_side s)) -> keep (f (g_side s))) -> tri s (change f) (fun _ s' => s' = with_side (f (g_side s)) s).
Proof.
  intros H s' r (V1 & V2 & V3) X L. injection X as <- <-. inversion L as [|? ? L1 L2]; subst. split; [|auto].
  specialize (H L1). split; [exact H|]. split; [exact V2|]. now constructor.
Qed.
Lemma tri_read s p r j : doc_at (g_side s) p r j -> tri s (read_signed E p) (fun a s' => s' = s /\ a = j).
Proof.
  intros D s' x V H L. unfold read_signed, gbind, read_json, glift in H. rewrite (signed_file _ _ _ _ D) in H. injection H as <- <-. split; [exact V|]. intros a e. now injection e as <-.
Qed.
Lemma tri_read_any s p : tri s (read_signed E p) (fun a s' => s' = s /\ jget "signed" (file_json E p (g_side s)) = Ok a).
Proof.
  intros s' x V H L. unfold read_signed, gbind, read_json, glift in H. destruct (jget "signed" (file_json E p (g_side s))) as [a|e] eqn:J; injection H as <- <-; (split; [exact V|]).
  - intros a' e. injection e as <-. auto.
  - discriminate.
Qed.
Lemma tri_write s r p j ty : In r [role_root; role_snapshot; role_targets; role_timestamp] -> jget "_type" j = Ok (JStr ty) -> role_of_string ty = r -> plain j = true ->
  (forall text, text_ok r text j -> bounded E (put_file p text (g_side s)) -> keep (put_file p text (g_side s))) ->
  tri s (write_signed E keyid I (r_name r) p j) (fun text s' => text_ok r text j /\ s' = with_side (put_file p text (g_side s)) s).
Proof.
  intros R T Y P C s' x V H L. unfold write_signed, gbind, sign in H.
  destruct (sign_tuf E keyid I (g_mem s) (r_name r) j) as [doc|e] eqn:G; cbn [bind] in H; [|injection H as <- <-; split; [exact V|discriminate]].
  pose proof V as ((Vc & _) & (Vm1 & Vm2) & _).
  assert (Hd : exists kid m sg, doc = signed_doc kid m sg j /\ plain doc = true /\ acceptable E KS r doc).
  { refine (sign_accepted E keyid I K (g_mem s) (r_name r) r j ty doc HK _ _ R eq_refl T Y P G).
    - intros kp i. cbn [keys_of In] in i. destruct i as [<-|[<-|[<-|[<-|[]]]]];
        [destruct (Vm2 "root" (rk_root K)) as (_ & S)|destruct (Vm2 "snapshot" (rk_snapshot K)) as (_ & S)|destruct (Vm2 "targets" (rk_targets K)) as (_ & S)|destruct (Vm2 "timestamp" (rk_timestamp K)) as (_ & S)];
        try exact S; rewrite Vm1; [reflexivity|cbn; tauto|reflexivity|cbn; tauto|reflexivity|cbn; tauto|reflexivity|cbn; tauto].
    - symmetry. apply Vm1. destruct R as [<-|[<-|[<-|[<-|[]]]]]; cbn; tauto. }
  destruct Hd as (kid & m & sg & -> & Pd & Ad). assert (TX : text_ok r (canon E (signed_doc kid m sg j)) j) by (exists kid, m, sg; auto).
  destruct (tri_change s (put_file p (canon E (signed_doc kid m sg j)))) with (s' := with_side (put_file p (canon E (signed_doc kid m sg j)) (g_side s)) s) (r := @Ok unit tt) as (V1 & _);
    [apply C; exact TX|exact V|reflexivity|injection H as <- _; exact L|].
  injection H as <- <-. split; [exact V1|]. intros a e. injection e as <-. auto.
Qed.
(** any role, in particular a delegation *)
Lemma tri_write_any s rn p j : plain j = true ->
  (forall kid m sg, plain (signed_doc kid m sg j) = true -> bounded E (put_file p (canon E (signed_doc kid m sg j)) (g_side s)) -> keep (put_file p (canon E (signed_doc kid m sg j)) (g_side s))) ->
  tri s (write_signed E keyid I rn p j) (fun text s' => exists kid m sg, text = canon E (signed_doc kid m sg j) /\ plain (signed_doc kid m sg j) = true /\ s' = with_side (put_file p text (g_side s)) s).
Proof.
  intros P C s' x V H L. unfold write_signed, gbind, sign in H.
  destruct (sign_tuf E keyid I (g_mem s) rn j) as [doc|e] eqn:G; cbn [bind] in H; [|injection H as <- <-; split; [exact V|discriminate]].
  pose proof V as ((Vc & _) & (Vm1 & Vm2) & _).
  assert (exists kid m sg, doc = signed_doc kid m sg j /\ plain doc = true) as (kid & m & sg & -> & Pd).
  { unfold sign_tuf in G. destruct (aget rn (g_mem s)) as [kp|] eqn:Gk; [|discriminate]. destruct (Vm2 rn kp Gk) as ((_ & _ & _ & A) & S). destruct (S (canon E j)) as (S1 & _).
    destruct (pk_type (kp_pub kp)); try discriminate; injection G as <-; do 3 eexists; (split; [reflexivity|]); apply plain_signed; auto. }
  destruct (tri_change s (put_file p (canon E (signed_doc kid m sg j)))) with (s' := with_side (put_file p (canon E (signed_doc kid m sg j)) (g_side s)) s) (r := @Ok unit tt) as (V1 & _);
    [apply C; exact Pd|exact V|reflexivity|injection H as <- _; exact L|].
  injection H as <- <-. split; [exact V1|]. intros a e. injection e as <-. eauto 6.
Qed.

(** ** The Snapshot *)
Definition simple_meta (ml : list (string * json)) : Prop :=
  increasing ml = true /\ forall k j, In (k, j) ml -> exists n v, k = append n ".json" /\ meta_name n /\ ascii_text n = true /\ 0 <= v <= max_int /\ j = JObj [("version", JInt v)].
Lemma simple_meta_ok ml : simple_meta ml -> meta_ok ml.
Proof. intros (A & B). split; [exact A|]. intros k j i. destruct (B k j i) as (n & v & -> & C & _ & D & ->). exists n. split; [reflexivity|]. split; [exact C|]. exists v. auto. Qed.
Lemma simple_meta_plain e ml v : simple_meta ml -> ascii_text e = true -> 0 <= v <= max_uint64 -> plain (snap_shape e ml v) = true.
Proof.
  intros (A & B) H V. apply plain_obj. split; [reflexivity|]. intros k x [h|[h|[h|[h|[]]]]]; injection h as <- <-; (split; [reflexivity|]).
  - reflexivity.
  - exact H.
  - apply plain_obj. split; [exact A|]. intros k j i. destruct (B k j i) as (n & w & -> & _ & C & D & ->). split; [now rewrite ascii_append, C|].
    cbn. unfold max_int, min_int64, max_uint64 in *. rewrite (proj2 (Z.leb_le _ w)), (proj2 (Z.leb_le w _)) by lia. reflexivity.
  - now apply plain_int.
Qed.
Lemma snap_entry e ml v n w snap : simple_meta ml -> jmod "meta" (jmod (append n ".json") (jset "version" (JInt w))) (snap_shape e ml v) = Ok snap ->
  snap = snap_shape e (oput (append n ".json") (JObj [("version", JInt w)]) ml) v.
Proof.
  intros (_ & B) H. unfold jmod at 1 in H. change (jget "meta" (snap_shape e ml v)) with (@Ok json (JObj ml)) in H. cbn [bind] in H.
  apply bind_ok in H as (x & H1 & H). apply jmod_obj in H1 as (l & y & -> & H1 & [h|(h & _)]); [injection h as <-|discriminate].
  assert (y = JObj [("version", JInt w)]) as ->.
  { unfold get in H1. destruct (aget (append n ".json") ml) as [j|] eqn:G; [|injection H1 as <-; reflexivity].
    apply aget_in in G. destruct (B _ _ G) as (n' & w' & _ & _ & _ & _ & ->). injection H1 as <-. reflexivity. }
  injection H as <-. reflexivity.
Qed.
Lemma simple_meta_put ml n w : simple_meta ml -> meta_name n -> ascii_text n = true -> 0 <= w <= max_int -> simple_meta (oput (append n ".json") (JObj [("version", JInt w)]) ml).
Proof.
  intros (A & B) N C D. split; [now apply oput_increasing|]. intros k j i. apply in_oput in i as [h|i]; [injection h as -> ->; eauto 10|]. now apply B.
Qed.
Lemma add_ok d : bounded E d -> (forall n, plain (file_json E (role_file n) d) = true) -> forall fuel rn e ml v snap,
  simple_meta ml -> meta_name rn -> ascii_text rn = true -> add_to_snapshot E fuel d rn (snap_shape e ml v) = Ok snap ->
  exists ml', snap = snap_shape e ml' v /\ simple_meta ml' /\
    aget "targets.json" ml' = (if String.eqb rn "targets" then Some (JObj [("version", JInt (ver "targets.json" d))]) else aget "targets.json" ml).
Proof.
  intros Bd Pd. induction fuel as [|f IH]; intros rn e ml v snap M N A H; [discriminate|]. cbn [add_to_snapshot] in H.
  apply bind_ok in H as (rj & H1 & H). apply bind_ok in H as (vj & H2 & H). apply bind_ok in H as (w & H3 & H). apply bind_ok in H as (snap1 & H4 & H). apply bind_ok in H as (dj & H5 & H).
  assert (W : 0 <= w <= max_int).
  { split.
    - now apply jas_uint_nonneg in H3.
    - apply (Bd (role_file rn)). unfold declared_version. rewrite H1. cbn [bind]. rewrite H2. exact H3. }
  apply (snap_entry _ _ _ _ _ _ M) in H4. subst snap1.
  assert (M1 : simple_meta (oput (append rn ".json") (JObj [("version", JInt w)]) ml)) by (apply simple_meta_put; auto).
  assert (T1 : aget "targets.json" (oput (append rn ".json") (JObj [("version", JInt w)]) ml) = (if String.eqb rn "targets" then Some (JObj [("version", JInt (ver "targets.json" d))]) else aget "targets.json" ml)).
  { destruct (String.eqb_spec rn "targets") as [->|Nt].
    - change (append "targets" ".json") with "targets.json". rewrite aget_oput. repeat f_equal. unfold ver, declared_version. change "targets.json" with (role_file "targets"). rewrite H1. cbn [bind]. rewrite H2. cbn [bind]. now rewrite H3.
    - apply aget_oput_other. intros X. apply Nt. symmetry. apply (json_inj "targets" rn X). }
  destruct (jis_object dj) eqn:Hdj; [|injection H as <-; eauto].
  apply bind_ok in H as (rolesj & H6 & H). rewrite <- T1. clear T1.
  assert (Pr : forall k r, In (k, r) (jiter rolesj) -> plain r = true).
  { intros k r i. refine (plain_iter rolesj k r _ i). refine (plain_jget "roles" dj rolesj _ H6). refine (plain_jget "delegations" rj dj _ H5). refine (plain_jget "signed" _ rj (Pd rn) H1). }
  revert H M1 Pr. generalize (oput (append rn ".json") (JObj [("version", JInt w)]) ml). generalize (jiter rolesj). clear M H1 H2 H3 H5 H6 W.
  induction l as [|(k, r) l IHl]; intros ml1 H M1 Pr.
  - injection H as <-. eauto.
  - apply bind_ok in H as (nj & G1 & H). apply bind_ok in H as (n & G2 & H). apply bind_ok in H as (dr & G3 & H). apply bind_ok in H as (snap' & G4 & H).
    destruct (deleg_not_reserved _ _ G3) as (Nr & ->). cbn [r_name] in G4.
    assert (An : ascii_text n = true) by (refine (plain_string nj n _ G2); refine (plain_jget "name" r nj _ G1); apply (Pr k r); now left).
    destruct (IH n e ml1 v snap' M1 (or_intror (or_intror (ex_intro _ _ G3))) An G4) as (ml2 & -> & M2 & T2).
    destruct (IHl ml2 H M2 (fun k r i => Pr k r (or_intror i))) as (ml3 & -> & M3 & T3). exists ml3. split; [reflexivity|]. split; [exact M3|]. rewrite T3, T2.
    destruct (String.eqb_spec n "targets") as [->|]; [discriminate|reflexivity].
Qed.

Lemma core_plain_files d : core d -> forall n, plain (file_json E (role_file n) d) = true.
Proof.
  intros (_ & _ & (cu & de & e & ts & v & _ & T) & _ & _ & (X & _) & _) n. unfold role_file. destruct (String.eqb n "targets"); [|apply X].
  destruct T as (text & A & kid & m & sg & -> & P & _). unfold file_json. rewrite A. now rewrite (eo_round E HE _ P).
Qed.
End Keep.
