(** Proofs about updates of a Secondary over the network: what success of the Primary's calls means. *)
From Verif Require Import Base Json TufModel TufSpec MetaStore RepoModel RepoSpec RepoProofs4 CodecModel DlModel DlSpec InstModel InstSpec InstProofs PropsInst DevModel LiveSpec SndModel SndSpec SndProofs SecFileModel SecFileSpec SecFileProofs IpModel IpSpec IpProofs.

Lemma targets_doc_fun E n j t t' : targets_doc E n j t -> targets_doc E n j t' -> t = t'.
Proof. intros (B & T) (B' & T'). rewrite B in B'. injection B' as Eb. rewrite <- Eb, T in T'. now injection T'. Qed.
Lemma sole_target_fun dt e h t t' : sole_target dt e h t -> sole_target dt e h t' -> t = t'.
Proof.
  intros (I1 & l1 & l2 & L & O) (I2 & m1 & m2 & M & _). assert (X : In t' (l1 ++ t :: l2)) by (rewrite <- L, M; apply in_elt).
  apply in_app_or in X. destruct X as [X | [X | X]]; [|exact X|]; exfalso; apply (O t'); auto; apply in_or_app; auto.
Qed.
Lemma result_ok c : ir_success (result c) = true -> c = kOk \/ c = kAlreadyProcessed.
Proof. unfold result. cbn. intros H. apply orb_true_iff in H. rewrite !Z.eqb_eq in H. exact H. Qed.

Section P.
Context (savec : json -> string) (loadc : string -> option json).
Context (E : Env) (stale : htype -> string -> hash) (ecu hw : string) (sigs : json -> json).
Local Notation handle := (handle savec E stale ecu hw sigs).
Local Notation rpc := (rpc savec loadc E stale ecu hw sigs).
Local Notation sec_run := (sec_run savec loadc E stale ecu hw sigs).
Local Notation get_version := (get_version savec loadc E stale ecu hw sigs).
Local Notation sound_version := (sound_version savec loadc E stale).

(** An answer other than silence comes from a handler. *)
Lemma rpc_answer W q s s' r : rpc W q s = (s', r) -> r <> PNothing ->
  exists sec, sec = start_all loadc E ecu hw (w_starts W (ip_n s)) (ip_sec s) /\ handle (w_env W (ip_n s)) q sec = (ip_sec s', Some r) /\ ip_ver s' = ip_ver s /\ ip_n s' = S (ip_n s).
Proof.
  unfold IpModel.rpc. intros H N. eexists. split; [reflexivity|]. destruct (w_link W (ip_n s)); try (injection H as <- <-; contradiction).
  destruct (handle _ q _) as (sec', a). injection H as <- <-. destruct a; [auto|contradiction].
Qed.
Lemma rpc_n W q s : ip_n (fst (rpc W q s)) = S (ip_n s) /\ ip_ver (fst (rpc W q s)) = ip_ver s.
Proof. unfold IpModel.rpc. destruct (w_link W (ip_n s)); auto. destruct (handle _ q _); auto. Qed.

Lemma handle_put_inv h q s s' r : handle h (QPutMeta2 q) s = (s', Some (PPutMeta2 r)) -> r = kOk \/ r = kAlreadyProcessed ->
  exists t, alive s' = true /\ sn_pending (fs_snd s') = Some t /\ fully_verified E AgFile ecu hw (u_db (sn_ust (fs_snd s))) q (h_ckd h) (h_cki h) t.
Proof.
  unfold IpModel.handle. destruct (negb (alive (settle s))); [discriminate|]. unfold handle_put, do_put.
  destruct (metadata_ctor E (put_bundle q)) as [vs|e]; [|discriminate].
  destruct (full_verification E AgFile ecu hw _ (h_ckd h) (h_cki h) _) as (m, o) eqn:F. destruct o as [[t|]|e]; [| |discriminate]; intros H.
  - injection H as <- <-. intros _. exists t. split; [reflexivity|]. split; [reflexivity|]. apply full_verification_ok in F. exact F.
  - injection H as <- <-. intros [X|X]; discriminate X.
Qed.
Theorem put_accepted W d s s' r : put_metadata savec loadc E stale ecu hw sigs W d s = (s', Ok r) -> ir_success r = true ->
  exists m t d' ckd cki, get_metadata d = Ok (Some m) /\ ip_ver s' = 2 /\ alive (ip_sec s') = true /\ sn_pending (fs_snd (ip_sec s')) = Some t /\
    fully_verified E AgFile ecu hw d' (put_of m) ckd cki t.
Proof.
  unfold put_metadata. destruct (get_metadata d) as [[m|]|e]; [| |discriminate].
  2:{ intros H S. injection H as <- <-. apply result_ok in S. destruct S; discriminate. }
  set (s1 := get_version W s). destruct (Z.eqb_spec (ip_ver s1) 2) as [V|V].
  - unfold put_v2. destruct (rpc W (QPutMeta2 (put_of m)) s1) as (s2, a) eqn:R. intros H S. injection H as <- <-.
    destruct a as [| | | | |c| | | | |]; try (apply result_ok in S; destruct S; discriminate). apply result_ok in S.
    apply rpc_answer in R; [|discriminate]. destruct R as (sec & _ & R & V2 & _). apply handle_put_inv in R; [|exact S]. destruct R as (t & A & P & F).
    exists m, t, (u_db (sn_ust (fs_snd sec))), (h_ckd (w_env W (ip_n s1))), (h_cki (w_env W (ip_n s1))). split; [reflexivity|]. split; [congruence|]. auto.
  - destruct (ip_ver s1 =? 1).
    + unfold put_v1. destruct (rpc W (QPutMeta _ _ _ _ _ _) s1) as (s2, a) eqn:R. intros H S. injection H as <- <-.
      destruct a as [| | | |b| | | | | |]; try (apply result_ok in S; destruct S; discriminate).
      apply rpc_answer in R; [|discriminate]. destruct R as (sec & _ & R & _). unfold IpModel.handle in R. destruct (negb _); discriminate.
    + intros H S. injection H as <- <-. apply result_ok in S. destruct S; discriminate.
Qed.
(** The target it then waits for is the one that the Primary's metadata assign to it. *)
Lemma fully_verified_assigned d m d' ckd cki t t' : get_metadata d = Ok (Some m) -> fully_verified E AgFile ecu hw d' (put_of m) ckd cki t' -> assigned E ecu hw d t -> t' = t.
Proof.
  intros G [(DR & raw & lt & dt & _ & _ & Hs & (_ & Hd) & _ & _ & Hc & _ & Hg) _ _] (raw' & dt' & L & D & Sl).
  assert (Q : raw' = raw).
  { unfold get_metadata in G. destruct (load_latest_root Director d) as [[dr|]|]; try discriminate. cbn [bind] in G. rewrite L in G. cbn [bind] in G.
    destruct (load_latest_root Image d) as [[ir|]|]; try discriminate. cbn [bind] in G. destruct (load_nonroot Image RTimestamp d) as [[it|]|]; try discriminate. cbn [bind] in G.
    destruct (load_nonroot Image RSnapshot d) as [[isn|]|]; try discriminate. cbn [bind] in G. destruct (load_nonroot Image RTargets d) as [[itg|]|]; try discriminate. cbn [bind] in G.
    injection G as <-. cbn in Hs. congruence. }
  rewrite Q in D. pose proof (targets_doc_fun _ _ _ _ _ D Hd) as ->. destruct Hc as [-> | (He & _)].
  - exact (sole_target_fun lt ecu hw t' t Hg Sl).
  - destruct Sl as (_ & l1 & l2 & Ll & _). rewrite He in Ll. now destruct l1.
Qed.

(** ** Until the image is installed *)
Definition awaits (t : target) (s : fsec) : Prop := alive s = true -> sn_pending (fs_snd s) = Some t.
Definition transfer (q : req) : Prop := match q with QUpload _ | QOstree _ | QSendFirmware _ => True | _ => False end.
Lemma awaits_handle t h q s : transfer q -> awaits t s -> awaits t (fst (handle h q s)).
Proof.
  intros Hq K. unfold IpModel.handle. change (alive (settle s)) with (alive s). destruct (alive s) eqn:A; cbn [negb]; [|intros X; exfalso; change (alive s = true) in X; congruence].
  destruct q as [|v| |dr dt ir it isn itg|q|d|d|c|n]; try contradiction; try (intros _; exact (K A)).
  unfold handle_upload. cbn [settle fs_snd sn_pending]. specialize (K A). rewrite K.
  destruct (receive _ _ _ _ _) as (a, r). destruct r; cbn; intros X; auto; discriminate.
Qed.
Lemma awaits_rpc t W q s : w_starts W (ip_n s) = [] -> transfer q -> awaits t (ip_sec s) -> awaits t (ip_sec (fst (rpc W q s))).
Proof.
  intros Hw Hq K. unfold IpModel.rpc. rewrite Hw. cbn [start_all fold_left]. pose proof (awaits_handle t (w_env W (ip_n s)) q (ip_sec s) Hq K) as K'.
  destruct (w_link W (ip_n s)) as [| | |k undo]; [exact K|exact K'| |].
  - destruct (handle _ q _) as (sec, a). exact K'.
  - cbn. intros X. discriminate.
Qed.
Lemma transfer_harmless q : transfer q -> harmless q. Proof. destruct q; cbn; auto. Qed.

Definition between (t : target) (u : bool) (l : list target) (s s' : ipst) : Prop :=
  (ip_n s <= ip_n s')%nat /\ ip_ver s' = ip_ver s /\ (sec_run u l (ip_sec s) -> sec_run u l (ip_sec s')) /\ (awaits t (ip_sec s) -> awaits t (ip_sec s')).
Lemma between_rpc t u l W q s : (forall n, (ip_n s <= n)%nat -> w_starts W n = []) -> all_noticed W -> (u = false -> no_undo W) -> transfer q -> between t u l s (fst (rpc W q s)).
Proof.
  intros Hw Hn Hu Hq. destruct (rpc_n W q s) as (N & V). split; [lia|]. split; [exact V|]. split.
  - intros K. apply rpc_run; auto. now apply transfer_harmless.
  - intros K. apply awaits_rpc; auto.
Qed.
Lemma between_upload t u l W : all_noticed W -> (u = false -> no_undo W) -> forall fuel len image total s, (forall n, (ip_n s <= n)%nat -> w_starts W n = []) ->
  between t u l s (fst (upload_image savec loadc E stale ecu hw sigs W fuel len image total s)).
Proof.
  intros Hn Hu. assert (Refl : forall s, between t u l s s) by (intros s; split; auto).
  induction fuel as [|fuel IH]; intros len image total s Hw; cbn [upload_image]; destruct (total <? len); auto.
  unfold upload_data. pose proof (between_rpc t u l W (QUpload (stake chunk image)) s Hw Hn Hu I) as B1. destruct (rpc W (QUpload (stake chunk image)) s) as (s1, r). cbn [fst] in B1.
  set (rr := match r with PNothing => _ | _ => _ end). destruct (ir_success rr); [|exact B1]. destruct B1 as (A1 & A2 & A3 & A4).
  destruct (IH len (sskip chunk image) (total + Z.of_nat (String.length (stake chunk image))) s1) as (C1 & C2 & C3 & C4); [intros n L; apply Hw; lia|].
  split; [lia|]. split; [congruence|]. auto.
Qed.
Lemma between_send t t' u l W fuel creds image s : all_noticed W -> (u = false -> no_undo W) -> (forall n, (ip_n s <= n)%nat -> w_starts W n = []) ->
  between t u l s (fst (send_firmware savec loadc E stale ecu hw sigs W fuel t' creds image s)).
Proof.
  intros Hn Hu Hw. unfold send_firmware. assert (Refl : between t u l s s) by (split; auto). destruct (ip_ver s =? 2).
  - destruct (is_ostree t'); [|now apply between_upload]. unfold download_ostree. pose proof (between_rpc t u l W (QOstree creds) s Hw Hn Hu I) as B.
    destruct (rpc W (QOstree creds) s) as (s1, r). exact B.
  - destruct (ip_ver s =? 1); [|exact Refl]. unfold send_v1. set (x := if is_ostree t' then creds else image). pose proof (between_rpc t u l W (QSendFirmware x) s Hw Hn Hu I) as B.
    destruct (rpc W (QSendFirmware x) s) as (s1, r). exact B.
Qed.

(** ** The installation *)
(** Whatever was sent before: success means that a target was awaited and that its image is installed. *)
Lemma install_any W name s s' c u l : let sec := start_all loadc E ecu hw (w_starts W (ip_n s)) (ip_sec s) in
  sec_run u l (ip_sec s) -> all_noticed W -> (forall t, sn_pending (fs_snd sec) = Some t -> sound_version t) ->
  rpc W (QInstall name) s = (s', PInstall2 c) -> c = kOk \/ c = kAlreadyProcessed ->
  exists t, sn_pending (fs_snd sec) = Some t /\ sec_run u (t :: l) (ip_sec s') /\ exists im, has_image E (ip_sec s') t im /\ keeps loadc ecu hw t im (ip_sec s').
Proof.
  intros sec Hr0 Hn Hs R Hc. apply rpc_answer in R; [|discriminate]. destruct R as (sec' & X & R & _). fold sec in X. subst sec'.
  assert (Hr : sec_run u l sec) by (apply run_starts; exact Hr0). clearbody sec.
  set (h := w_env W (ip_n s)) in *.
  destruct (handle_cases savec E stale ecu hw sigs h (QInstall name) sec) as [(B & _) | (n & t' & a' & _ & P & A & B & _ & In & X1 & X2 & X3)].
  - exfalso. unfold installed_by in B. rewrite R in B. cbn [snd] in B. unfold IpModel.handle in R. change (alive (settle sec)) with (alive sec) in R.
    destruct (alive sec) eqn:A; [|discriminate]. unfold handle_install in R. cbn [negb settle fs_snd sn_pending] in R.
    destruct (sn_pending (fs_snd sec)) as [t|]; [|injection R as _ <-; destruct Hc; discriminate]. destruct Hc as [-> | ->]; [discriminate|].
    destruct (install _ _ _ _ _) as (a, x). destruct x; discriminate R.
  - exists t'. split; [exact P|]. specialize (Hs t' P). pose proof (sr_req savec loadc E stale ecu hw sigs u l sec h (QInstall name) Hr (Hn _)) as K. rewrite B in K. specialize (K ltac:(constructor; [exact Hs|constructor])).
    pose proof (run_inv _ _ _ _ _ _ _ _ _ _ Hr) as [Ne _ Ti _ _]. rewrite R in *. cbn [fst] in *. split; [exact K|].
    destruct (ri_image _ _ _ _ _ _ _ _ (run_inv _ _ _ _ _ _ _ _ _ _ K) t' l eq_refl) as ((im & C1 & C2) & _). exists im. split; [split; assumption|]. split; [exact Ne|]. rewrite X2.
    destruct (table_save savec loadc ecu hw (fs_idb sec) t' Ti (proj1 Hs)) as (_ & Te). split; [exact Te|]. split; [exact C1|]. split; [|apply table_runs with (hw := hw); [exact Ti|exact (proj1 Hs)]].
    apply install_checked in In. destruct In as (c' & hh & _ & _ & _ & _ & _ & _ & Nm). congruence.
Qed.
Lemma install_answered W t name s s' c u l : sec_run u l (ip_sec s) -> awaits t (ip_sec s) -> sound_version t -> all_noticed W -> w_starts W (ip_n s) = [] ->
  rpc W (QInstall name) s = (s', PInstall2 c) -> c = kOk \/ c = kAlreadyProcessed ->
  sec_run u (t :: l) (ip_sec s') /\ exists im, has_image E (ip_sec s') t im /\ keeps loadc ecu hw t im (ip_sec s').
Proof.
  intros Hr Ha Hs Hn Hw R Hc. pose proof (install_any W name s s' c u l Hr Hn) as K. rewrite Hw in K. cbn [start_all fold_left] in K.
  assert (Al : alive (ip_sec s) = true).
  { pose proof R as R'. apply rpc_answer in R'; [|discriminate]. destruct R' as (sec & X & R' & _). rewrite Hw in X. cbn [start_all fold_left] in X. subst sec.
    unfold IpModel.handle in R'. change (alive (settle (ip_sec s))) with (alive (ip_sec s)) in R'. destruct (alive (ip_sec s)); [reflexivity|discriminate]. }
  rewrite (Ha Al) in K. destruct (K ltac:(intros x X; injection X as <-; exact Hs) R Hc) as (t' & X & K'). injection X as <-. exact K'.
Qed.
Theorem update_reported W d t fuel creds image s0 s1 s2 s3 r1 o r3 u l :
  sec_run u l (ip_sec s0) -> all_noticed W -> (u = false -> no_undo W) -> sound_version t -> assigned E ecu hw d t ->
  put_metadata savec loadc E stale ecu hw sigs W d s0 = (s1, Ok r1) -> ir_success r1 = true ->
  (forall n, (ip_n s1 <= n)%nat -> w_starts W n = []) ->
  send_firmware savec loadc E stale ecu hw sigs W fuel t creds image s1 = (s2, o) ->
  ip_install savec loadc E stale ecu hw sigs W t s2 = (s3, r3) -> ir_success r3 = true ->
  sec_run u (t :: l) (ip_sec s3) /\ exists c, has_image E (ip_sec s3) t c /\ keeps loadc ecu hw t c (ip_sec s3).
Proof.
  intros Hr Hn Hu Hs Has Hp S1 Hw Hf Hi S3. destruct (put_accepted W d s0 s1 r1 Hp S1) as (m & t' & d' & ckd & cki & G & V & A & P & F).
  pose proof (fully_verified_assigned d m d' ckd cki t t' G F Has) as ->.
  assert (Hr1 : sec_run u l (ip_sec s1)).
  { unfold put_metadata in Hp. rewrite G in Hp. assert (Kv : sec_run u l (ip_sec (get_version W s0))).
    { unfold IpModel.get_version. pose proof (rpc_run savec loadc E stale ecu hw sigs u l W (QVersion 2) s0 Hr Hn Hu I) as K1. destruct (rpc W (QVersion 2) s0) as (x1, a1). cbn [fst] in K1.
      assert (K2 : sec_run u l (ip_sec (let (x2, p) := ping savec loadc E stale ecu hw sigs W x1 in if p : bool then set_ver 1 x2 else x2))).
      { unfold ping. pose proof (rpc_run savec loadc E stale ecu hw sigs u l W QInfo x1 K1 Hn Hu I) as K2. destruct (rpc W QInfo x1) as (x2, a2). cbn [fst] in K2. destruct a2; exact K2. }
      destruct a1; auto. }
    set (sv := get_version W s0) in *. destruct (ip_ver sv =? 2).
    - unfold put_v2 in Hp. pose proof (rpc_run savec loadc E stale ecu hw sigs u l W (QPutMeta2 (put_of m)) sv Kv Hn Hu I) as K. destruct (rpc W (QPutMeta2 (put_of m)) sv) as (x, a). injection Hp as <- _. exact K.
    - destruct (ip_ver sv =? 1).
      + unfold put_v1 in Hp. set (q := QPutMeta _ _ _ _ _ _) in *. pose proof (rpc_run savec loadc E stale ecu hw sigs u l W q sv Kv Hn Hu I) as K. destruct (rpc W q sv) as (x, a). injection Hp as <- _. exact K.
      + injection Hp as <- _. exact Kv. }
  destruct (between_send t t u l W fuel creds image s1 Hn Hu Hw) as (N2 & V2 & R2 & A2). rewrite Hf in *. cbn [fst] in *.
  specialize (R2 Hr1). specialize (A2 (fun _ => P)).
  unfold ip_install in Hi. rewrite V2, V in Hi. change (2 =? 2) with true in Hi. cbv iota in Hi. unfold install_v2 in Hi. destruct (rpc W (QInstall (t_filename t)) s2) as (s3', a) eqn:R. injection Hi as -> <-.
  destruct a as [| | | | | | | | | |c]; try (apply result_ok in S3; destruct S3; discriminate). apply result_ok in S3.
  exact (install_answered W t _ s2 s3 c u l R2 A2 Hs Hn (Hw _ N2) R S3).
Qed.
End P.
