(** Checks by computation for examples of the generator. *)
From Verif Require Import Base Json TufModel TufSpec MetaStore RepoModel RepoSpec RepoProofs4 GenModel GenSpec GenToy.

Lemma aget_In {A} k (l : list (string * A)) v : aget k l = Some v -> In (k, v) l.
Proof. induction l as [|(k', x) l IH]; cbn [aget]; [discriminate|]. destruct (String.eqb_spec k k') as [->|]; [intros H; injection H as ->; now left|right; auto]. Qed.

(** ** Bounds *)
Definition version_of_text (text : string) : res Z := do s <- jget "signed" (toy_parse text); do vj <- jget "version" s; jas_uint vj.
Definition bounded_b (d : side) : bool := forallb (fun p => match version_of_text (snd p) with Ok v => v <=? max_int | Throw _ => true end) (f_files d).
Lemma bounded_check d : bounded_b d = true -> bounded gen_env d.
Proof.
  intros H p v. unfold declared_version, file_json. destruct (aget p (f_files d)) as [text|] eqn:G.
  - apply aget_In in G. unfold bounded_b in H. rewrite forallb_forall in H. specialize (H _ G). cbn [snd] in H. change (parse gen_env text) with (toy_parse text).
    intros X. unfold version_of_text in H. rewrite X in H. now apply Z.leb_le.
  - intros X. cbn in X. injection X as <-. unfold max_int. lia.
Qed.
Definition bounded_disk_b (k : disk) : bool := bounded_b (k_dir k) && bounded_b (k_img k).
Lemma bounded_disks l : forallb bounded_disk_b l = true -> Forall (bounded_disk gen_env) l.
Proof.
  intros H. apply Forall_forall. intros k i. rewrite forallb_forall in H. specialize (H k i). apply andb_true_iff in H as (A & B). split; now apply bounded_check.
Qed.

(** ** Keys *)
Definition key_b (kp : keypair) : bool :=
  match pk_type (kp_pub kp) with KEd25519 => String.eqb (kp_priv kp) (pk_value (kp_pub kp)) && ascii_text (pk_value (kp_pub kp)) | _ => false end.
Lemma key_check kp : key_b kp = true -> kp = gkey (pk_value (kp_pub kp)) /\ ascii_text (pk_value (kp_pub kp)) = true.
Proof.
  destruct kp as [[ty v] pr]. unfold key_b. cbn [kp_pub kp_priv pk_type pk_value]. destruct ty; try discriminate. intros H. apply andb_true_iff in H as (A & B). apply String.eqb_eq in A as ->. auto.
Qed.
Definition keys_b (k : disk) : bool := forallb (fun p => key_b (snd p)) (f_keys (k_dir k)) && forallb (fun p => key_b (snd p)) (f_keys (k_img k)).
Lemma keys_check e r c k : time_ok e -> time_ok r -> ascii_text c = true -> keys_b k = true -> invocation_ok gen_env gen_keyid (inv_toy e r c) k.
Proof.
  intros Te Tr Tc H. split; [exact Te|]. split; [exact Tr|]. split; [exact Tc|]. apply andb_true_iff in H as (A & B). intros rp rn kp G. apply aget_In in G.
  assert (key_b kp = true) as X by (destruct rp; [rewrite forallb_forall in A; now apply (A (rn, kp))|rewrite forallb_forall in B; now apply (B (rn, kp))]).
  apply key_check in X as (-> & X). split; [now apply gkey_ok|apply gkey_signs].
Qed.

(** ** What is published *)
Definition fresh_b (now : string) (d : side) : bool :=
  forallb (fun p => match base_init (toy_parse (snd p)) with Ok b => negb (is_expired b now) | Throw _ => true end && (Z.of_nat (String.length (snd p)) <=? 65536)) (f_files d).
Lemma servable_check k rp now : fresh_b now (side_of rp k) = true -> publish k rp "root" 1000 = Throw UFetchFailure -> servable gen_env k rp (fun _ => now).
Proof.
  intros H F. assert (X : forall p text, aget p (f_files (side_of rp k)) = Some text -> unexpired gen_env text now /\ Z.of_nat (String.length text) <= 65536).
  { intros p text G. apply aget_In in G. unfold fresh_b in H. rewrite forallb_forall in H. specialize (H _ G). cbn [snd] in H. apply andb_true_iff in H as (A & B). apply Z.leb_le in B. split; [|exact B].
    intros b Hb. change (parse gen_env text) with (toy_parse text) in Hb. rewrite Hb in A. now apply negb_true_iff. }
  assert (Y : forall rn v raw, publish k rp rn v = Ok raw -> unexpired gen_env raw now).
  { intros rn v raw P. unfold publish in P. destruct (aget (document_path rn v) (f_files (side_of rp k))) as [t|] eqn:G; [|discriminate]. apply X in G as (G & _). destruct (_ <? _); [discriminate|]. now injection P as <-. }
  split; [|eauto| |exact F].
  - intros v raw (P & _). eapply Y; eauto.
  - intros rn v raw G. unfold publish. rewrite G. apply X in G as (_ & G).
    assert (65536 <= size_limit rp rn) by (unfold size_limit; destruct (_ || _); [lia|destruct rp; lia]).
    destruct (Z.ltb_spec (size_limit rp rn) (Z.of_nat (String.length raw))); [lia|reflexivity].
Qed.
Fixpoint nodup_b (l : list string) : bool := match l with [] => true | x :: l => negb (existsb (String.eqb x) l) && nodup_b l end.
Lemma nodup_check l : nodup_b l = true -> NoDup l.
Proof.
  induction l as [|x l IH]; [constructor|]. cbn [nodup_b]. intros H. apply andb_true_iff in H as (A & B). constructor; [|auto]. intros i. apply negb_true_iff in A.
  assert (existsb (String.eqb x) l = true); [|congruence]. apply existsb_exists. exists x. split; [exact i|apply String.eqb_refl].
Qed.
Definition per_ecu_b (k : disk) : bool :=
  match publish k Director "targets" (-1) with
  | Ok raw => match base_init (toy_parse raw) with
              | Ok b => match targets_init gen_env b "targets" (toy_parse raw) with Ok t => nodup_b (flat_map (fun x => map fst (t_ecus x)) (tg_targets t)) | Throw _ => true end
              | Throw _ => true
              end
  | Throw _ => true
  end.
Lemma per_ecu_check k : per_ecu_b k = true -> one_per_ecu gen_env k.
Proof.
  intros H raw t P (T1 & T2). unfold per_ecu_b in H. rewrite P in H. change (parse gen_env raw) with (toy_parse raw) in *. rewrite T1, T2 in H. now apply nodup_check.
Qed.
Lemma nodup_b_complete l : NoDup l -> nodup_b l = true.
Proof.
  induction 1 as [|x l N _ IH]; [reflexivity|]. cbn [nodup_b]. rewrite IH, andb_true_r. apply negb_true_iff. destruct (existsb (String.eqb x) l) eqn:X; [|reflexivity].
  exfalso. apply existsb_exists in X as (y & i & e). apply String.eqb_eq in e as <-. now apply N.
Qed.
Lemma per_ecu_refuted k : per_ecu_b k = false -> ~ one_per_ecu gen_env k.
Proof.
  unfold per_ecu_b. intros H O. destruct (publish k Director "targets" (-1)) as [raw|] eqn:P; [|discriminate H].
  destruct (base_init (toy_parse raw)) as [b|] eqn:B; [|discriminate H]. destruct (targets_init gen_env b "targets" (toy_parse raw)) as [t|] eqn:T; [|discriminate H].
  pose proof (targets_init_base _ _ _ _ _ T) as TB. subst b. rewrite (nodup_b_complete _ (O raw t P (conj B T))) in H. discriminate H.
Qed.
