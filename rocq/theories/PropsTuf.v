(** Properties of signature checking, expiry and target matching (C01, C02, C07, C15). *)
From Verif Require Import Base Json TufModel TufSpec TufProofs TufProofs2 TimeSpec TimeProofs MetaStore RepoModel RepoSpec Toy.

(** C01: verification succeeds exactly when the document is acceptable (declared type, processable signatures, threshold
    of distinct authorised key ids with valid signatures); otherwise it throws. *)
Theorem C01_accepts_iff E ks r j : verifiable_role r ->
  unpack_signed E ks r j = Ok tt <-> acceptable E ks r j.
Proof. exact (unpack_signed_iff E ks r j). Qed.
Print Assumptions C01_accepts_iff.

Theorem C01_otherwise_throws E ks r j : verifiable_role r -> ~ acceptable E ks r j -> exists e, unpack_signed E ks r j = Throw e.
Proof.
  exact (fun Hv Hn => match unpack_signed E ks r j as x return unpack_signed E ks r j = x -> exists e, x = Throw e with
    | Ok tt => fun H => False_ind _ (Hn (proj1 (unpack_signed_iff E ks r j Hv) H))
    | Throw e => fun _ => ex_intro _ e eq_refl end eq_refl).
Qed.
Print Assumptions C01_otherwise_throws.

(** Two of three keys signed; one signature is wrong and one key id is unknown to the root. *)
Definition ks3 : keyset :=
  {| ks_keys := [("a", {| pk_type := KEd25519; pk_value := "A" |}); ("b", {| pk_type := KEd25519; pk_value := "B" |});
                 ("c", {| pk_type := KEd25519; pk_value := "C" |})];
     ks_role_keys := [("targets", "a"); ("targets", "b"); ("targets", "c")];
     ks_thr := [("targets", 2)] |}.
Example C01_accepted : acceptable W ks3 role_targets (targets_j "t" 1 far [] [("a", "A"); ("x", "X"); ("b", "bad"); ("c", "C")]).
Proof. apply C01_accepts_iff; [left; right; right; left; reflexivity|vm_compute; reflexivity]. Qed.
Example C01_rejected : ~ acceptable W ks3 role_targets (targets_j "t" 1 far [] [("a", "A"); ("x", "X"); ("b", "bad")]).
Proof. intros H. apply C01_accepts_iff in H; [vm_compute in H; discriminate|left; right; right; left; reflexivity]. Qed.

(** C02 in full: the threshold counts public keys.  It is false: it counts key ids. *)
Definition C02_statement : Prop := forall E ks r j, verifiable_role r -> unpack_signed E ks r j = Ok tt ->
  exists t, aget (r_name r) (ks_thr ks) = Some t /\ signed_by_at_least_keys E ks (r_name r) j t.
Definition ks_alias : keyset :=
  {| ks_keys := [("a", {| pk_type := KEd25519; pk_value := "A" |}); ("b", {| pk_type := KEd25519; pk_value := "A" |})];
     ks_role_keys := [("targets", "a"); ("targets", "b")];
     ks_thr := [("targets", 2)] |}.
Theorem C02_refuted : ~ C02_statement.
Proof.
  intros H. specialize (H W ks_alias role_targets (targets_j "t" 1 far [] [("a", "A"); ("b", "A")])).
  destruct H as (t & Ht & sp & good & _ & HN & Hlen & Hg); [left; right; right; left; reflexivity|vm_compute; reflexivity|].
  injection Ht as <-.
  assert (Hk : forall key, In key good -> key = {| pk_type := KEd25519; pk_value := "A" |}).
  { intros key Hin. destruct (Hg key Hin) as (e & kid & _ & _ & (Ha & _) & _). simpl in Ha.
    destruct (String.eqb kid "a"); [congruence|]. destruct (String.eqb kid "b"); congruence. }
  destruct good as [|x [|y good]]; simpl in Hlen; try lia.
  inversion HN as [|? ? Hnin _]; subst. apply Hnin. left.
  rewrite (Hk x), (Hk y); simpl; auto.
Qed.
Print Assumptions C02_refuted.

(** What does hold: if the signer registers no key under two ids for the role, the threshold counts keys. *)
Theorem C02_partial E ks r j : verifiable_role r -> key_ids_injective ks (r_name r) ->
  unpack_signed E ks r j = Ok tt ->
  exists t, aget (r_name r) (ks_thr ks) = Some t /\ 1 <= t /\ signed_by_at_least_keys E ks (r_name r) j t.
Proof. exact (unpack_signed_keys E ks r j). Qed.
Print Assumptions C02_partial.
Example C02_injective : key_ids_injective ks3 "targets".
Proof.
  intros x y key (Hx & _) (Hy & _). simpl in Hx, Hy.
  repeat match goal with H : context [String.eqb ?v ?s] |- _ => destruct (String.eqb_spec v s); subst end; congruence.
Qed.

(** C07: the expiry check compares calendar time. *)
Theorem C07_expiry_chronological a b : civil_valid a -> civil_valid b ->
  ts_expired_at (rfc3339 a) (rfc3339 b) = true <-> seconds a < seconds b.
Proof. exact (expiry_chronological a b). Qed.
Print Assumptions C07_expiry_chronological.
Theorem C07_construction_iff s t :
  timestamp_of_string s = Ok t <-> (t = s /\ String.length s = 20%nat /\ String.get 19 s = Some "Z"%char).
Proof. exact (timestamp_accepts_iff s t). Qed.
Print Assumptions C07_construction_iff.
Theorem C07_wellformed_accepted c : timestamp_of_string (rfc3339 c) = Ok (rfc3339 c).
Proof. exact (timestamp_accepts_wellformed c). Qed.
Print Assumptions C07_wellformed_accepted.
(** Without an expiry date, or without a readable clock, metadata counts as expired. *)
Theorem C07_missing_time_expired t now : t = "" \/ now = "" -> ts_expired_at t now = true.
Proof. intros [->| ->]; [reflexivity|]. unfold ts_expired_at, ts_valid. destruct (String.eqb t ""); reflexivity. Qed.
Print Assumptions C07_missing_time_expired.

Example C07_leap_day : let a := {| cy := 2024; cmo := 2; cd := 29; ch := 23; cmi := 59; cs := 59 |} in
  let b := {| cy := 2024; cmo := 3; cd := 1; ch := 0; cmi := 0; cs := 0 |} in
  civil_valid a /\ civil_valid b /\ ts_expired_at (rfc3339 a) (rfc3339 b) = true /\ ts_expired_at (rfc3339 b) (rfc3339 a) = false.
Proof. vm_compute. intuition congruence. Qed.

(** C15: MatchTarget decides [same_target]. *)
Theorem C15_match_target_iff a b : match_target a b = true <-> same_target a b.
Proof. exact (match_target_iff a b). Qed.
Print Assumptions C15_match_target_iff.
Theorem C15_symmetric a b : match_target a b = match_target b a.
Proof. exact (match_target_sym a b). Qed.
Print Assumptions C15_symmetric.
Definition tgt_dir : target := {| t_valid := true; t_filename := "app"; t_type := ""; t_ecus := [("e1", "hwA"); ("e2", "hwB")];
  t_hashes := [{| h_type := Sha256; h_val := "AA" |}; {| h_type := Sha512; h_val := "BB" |}]; t_hwids := []; t_custom := JNull;
  t_length := 7; t_corr := ""; t_uri := "" |}.
Definition tgt_img (hs : list hash) (hw : list string) : target := {| t_valid := true; t_filename := "app"; t_type := ""; t_ecus := [];
  t_hashes := hs; t_hwids := hw; t_custom := JNull; t_length := 7; t_corr := ""; t_uri := "" |}.
Example C15_match : same_target tgt_dir (tgt_img [{| h_type := Sha256; h_val := "AA" |}] ["hwB"; "hwA"]).
Proof. apply C15_match_target_iff. reflexivity. Qed.
Example C15_no_match_hash : ~ same_target tgt_dir (tgt_img [{| h_type := Sha256; h_val := "AA" |}; {| h_type := Sha512; h_val := "CC" |}] ["hwB"; "hwA"]).
Proof. rewrite <- C15_match_target_iff. discriminate. Qed.
Example C15_no_match_hw : ~ same_target tgt_dir (tgt_img [{| h_type := Sha256; h_val := "AA" |}] ["hwB"]).
Proof. rewrite <- C15_match_target_iff. discriminate. Qed.
