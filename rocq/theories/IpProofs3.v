(** Proofs about updates of a Secondary over the network: when they succeed, and when they never do. *)
From Verif Require Import Base Json TufModel TufSpec TufProofs TufProofs2 MetaStore RepoModel RepoSpec RepoProofs RepoProofs6 RepoProofs4 RepoProofs7 CodecModel DlModel DlSpec DlProofs InstModel InstSpec InstProofs PropsInst DevModel LiveSpec OrdSpec OrdProofs OrdProofs2 ChkSpec SndModel SndSpec SndProofs PropsSnd SecFileModel SecFileSpec SecFileProofs ClientProofs ClientProofs2 IpModel IpSpec IpProofs IpProofs2.

(** ** The documents sent are those offered *)
Lemma roots_ext E srv srv' clk rp d l R : (forall rp rn v, srv rp rn v = srv' rp rn v) -> roots_in_order E srv clk rp d l R -> roots_in_order E srv' clk rp d l R.
Proof.
  intros X (raw0 & R0 & A & B & C & D & F & G). exists raw0, R0. rewrite <- !X. split; [exact A|]. split; [exact B|]. split; [exact C|]. split; [|split; assumption].
  intros v raw H. rewrite <- X. now apply D.
Qed.
Lemma director_ext E srv srv' clk d l R t : (forall rp rn v, srv rp rn v = srv' rp rn v) -> director_in_order E srv clk d l R t -> director_in_order E srv' clk d l R t.
Proof. intros X H. unfold director_in_order in *. rewrite <- X. exact H. Qed.
Lemma image_ext E srv srv' clk d l R tm sn t : (forall rp rn v, srv rp rn v = srv' rp rn v) -> image_in_order E srv clk d l R tm sn t -> image_in_order E srv' clk d l R tm sn t.
Proof. intros X H. unfold image_in_order, timestamp_in_order, snapshot_in_order, targets_in_order in *. rewrite <- !X. exact H. Qed.
Lemma put_of_get m rp rn : bget (put_bundle (put_of m)) rp rn = doc_of m rp rn.
Proof.
  rewrite put_bundle_get. unfold known_role, sent, doc_of, put_of. destruct rp; cbn [pq_director pq_image aget].
  - unfold director_role. destruct (String.eqb_spec rn "root") as [->|N1]; [reflexivity|]. destruct (String.eqb_spec rn "targets") as [->|N2]; [reflexivity|reflexivity].
  - unfold image_role. destruct (String.eqb_spec rn "root") as [->|N1]; [reflexivity|]. destruct (String.eqb_spec rn "timestamp") as [->|N2]; [reflexivity|].
    destruct (String.eqb_spec rn "snapshot") as [->|N3]; [reflexivity|]. destruct (String.eqb_spec rn "targets") as [->|N4]; reflexivity.
Qed.
Lemma offered_sent E m wd wi : extract_version_untrusted E (m_droot m) = Ok wd -> extract_version_untrusted E (m_iroot m) = Ok wi ->
  metadata_ctor E (put_bundle (put_of m)) = Ok (wd, wi) /\ forall rp rn v, offered E m rp rn v = bundle_server (put_bundle (put_of m)) (wd, wi) rp rn v.
Proof.
  intros Hd Hi. split.
  - unfold metadata_ctor, bundle_meta. rewrite !put_of_get. cbn [doc_of String.eqb Ascii.eqb Bool.eqb]. cbn. rewrite Hd. cbn. rewrite Hi. reflexivity.
  - intros rp rn v. unfold offered, bundle_server, bundle_meta. rewrite put_of_get. destruct (String.eqb_spec rn "root") as [->|N].
    + destruct rp; cbn [doc_of]; change (String.eqb "root" "root") with true; cbv iota; [rewrite Hd|rewrite Hi]; cbn [fst snd andb]; destruct (negb (v =? -1)); cbn [andb]; try reflexivity; rewrite Z.leb_antisym; [now destruct (wd <? v)|now destruct (wi <? v)].
    + cbn [andb]. now destruct (doc_of m rp rn).
Qed.
Lemma sole_get dt e h t : sole_target dt e h t -> get_targets dt e h = [t].
Proof.
  assert (Hm : forall x, existsb (fun p => String.eqb e (fst p) && String.eqb h (snd p)) (t_ecus x) = true <-> In (e, h) (t_ecus x)).
  { intros x. rewrite existsb_exists. split.
    - intros ((a, b) & Hin & Hp). simpl in Hp. apply andb_true_iff in Hp. rewrite !String.eqb_eq in Hp. destruct Hp as (-> & ->). exact Hin.
    - intros Hin. exists (e, h). split; auto. simpl. now rewrite !String.eqb_refl. }
  intros (Hin & l1 & l2 & L & O). unfold get_targets. rewrite L, filter_app. cbn [filter]. rewrite (proj2 (Hm t) Hin).
  assert (Z : forall l, (forall x, In x l -> ~ In (e, h) (t_ecus x)) -> filter (fun x => existsb (fun p => String.eqb e (fst p) && String.eqb h (snd p)) (t_ecus x)) l = []).
  { induction l as [|x l IH]; intros N; [reflexivity|]. cbn [filter]. destruct (existsb _ (t_ecus x)) eqn:K; [apply Hm in K; exfalso; apply (N x); [now left|exact K]|]. apply IH. intros y Hy. apply N. now right. }
  rewrite (Z l1), (Z l2); [reflexivity| |]; intros x Hx; apply O; apply in_or_app; auto.
Qed.

Section P.
Context (savec : json -> string) (loadc : string -> option json).
Context (E : Env) (stale : htype -> string -> hash) (ecu hw : string) (sigs : json -> json).
Local Notation handle := (handle savec E stale ecu hw sigs).
Local Notation rpc := (rpc savec loadc E stale ecu hw sigs).
Local Notation get_version := (get_version savec loadc E stale ecu hw sigs).

(** ** Metadata in order is accepted *)
Lemma put_in_order ckd cki m t x : sec_in_order E ecu hw ckd cki (u_db (sn_ust x)) m t ->
  exists u, do_put E AgFile ecu hw (put_of m) ckd cki x = ({| sn_ust := u; sn_prev := u_db (sn_ust x); sn_pending := Some t; sn_alive := true |}, EAccepted).
Proof.
  intros ((wd & Hd) & (wi & Hi) & ld & Rd & dt & li & Ri & tm & sn & it & A1 & A2 & B1 & B2 & L & S & K).
  destruct (offered_sent E m wd wi Hd Hi) as (C & X). unfold do_put. rewrite C. set (srv := bundle_server (put_bundle (put_of m)) (wd, wi)) in *.
  assert (Nt : tg_targets dt <> []). { destruct S as (_ & l1 & l2 & Ll & _). intros H0. rewrite H0 in Ll. now destruct l1. }
  set (s0 := clear_log (sn_ust x)). change (u_db (sn_ust x)) with (u_db s0) in A1, A2, B1, B2.
  destruct (director_update_complete E srv ckd s0 ld Rd dt) as (s1 & D & _ & _ & Dt & _); [eapply roots_ext; eauto|eapply director_ext; eauto|]. specialize (Dt Nt).
  destruct (in_order_after_director E srv cki srv ckd s0 s1 li Ri tm sn it D) as (C1 & C2); [eapply roots_ext; eauto|eapply image_ext; eauto|].
  destruct (image_update_complete E srv cki s1 li Ri tm sn it C1 C2) as (s2 & I2 & _ & _ & _ & It).
  assert (Q : u_dtargets s2 = dt). { apply image_update_director in I2. destruct I2 as (_ & I2 & _). congruence. }
  exists s2. unfold full_verification. rewrite D, I2, It, Q.
  assert (M : match_with_image_targets dt it = true).
  { unfold match_with_image_targets. rewrite forallb_forall. intros y Hy. rewrite existsb_exists. destruct (L y Hy) as (i & Hin & Hs). exists i. split; [exact Hin|]. apply match_target_iff. now apply same_target_sym. }
  rewrite M. unfold my_target. rewrite (sole_get dt ecu hw t S), K. reflexivity.
Qed.

(** ** Requests that are answered *)
Lemma rpc_works W q s : works W -> rpc W q s =
  ({| ip_ver := ip_ver s; ip_sec := fst (handle (w_env W (ip_n s)) q (ip_sec s)); ip_n := S (ip_n s) |},
   match snd (handle (w_env W (ip_n s)) q (ip_sec s)) with Some r => r | None => PNothing end).
Proof.
  intros Hw. unfold IpModel.rpc. destruct (Hw (ip_n s)) as (-> & -> & _). cbn [start_all fold_left]. destruct (handle _ q _); reflexivity.
Qed.
Lemma version_works W s : works W -> alive (ip_sec s) = true -> get_version W s = {| ip_ver := 2; ip_sec := settle (ip_sec s); ip_n := S (ip_n s) |}.
Proof.
  intros Hw A. unfold IpModel.get_version. rewrite rpc_works by exact Hw. unfold IpModel.handle. change (alive (settle (ip_sec s))) with (alive (ip_sec s)). rewrite A. reflexivity.
Qed.
Lemma put_works W d m t s : works W -> alive (ip_sec s) = true -> get_metadata d = Ok (Some m) ->
  (forall n, sec_in_order E ecu hw (h_ckd (w_env W n)) (h_cki (w_env W n)) (u_db (sn_ust (fs_snd (ip_sec s)))) m t) ->
  exists s', put_metadata savec loadc E stale ecu hw sigs W d s = (s', Ok (result kOk)) /\ ip_ver s' = 2 /\ alive (ip_sec s') = true /\
    sn_pending (fs_snd (ip_sec s')) = Some t /\ fs_ag (ip_sec s') = fs_ag (ip_sec s) /\ fs_idb (ip_sec s') = fs_idb (ip_sec s).
Proof.
  intros Hw A G O. unfold put_metadata. rewrite G, version_works by assumption. cbn [ip_ver]. change (2 =? 2) with true. cbv iota. unfold put_v2. rewrite rpc_works by exact Hw.
  cbn [ip_n ip_sec ip_ver]. unfold IpModel.handle. set (x := settle (ip_sec s)). change (alive (settle x)) with (alive (ip_sec s)). rewrite A. cbn [negb]. unfold handle_put.
  set (h := w_env W (S (ip_n s))). destruct (put_in_order (h_ckd h) (h_cki h) m t (fs_snd (settle x)) (O _)) as (u & P). rewrite P. cbn [fst snd].
  eexists. split; [reflexivity|]. cbn. auto 10.
Qed.
(** The part of the image that has arrived. *)
Definition arrived (t : target) (pre : string) (a : SecFileModel.agent) : Prop :=
  (pre = "" /\ a_size a = 0) \/ (a_new a = Some pre /\ a_hasher a = Some {| hs_type := file_type t; hs_data := pre; hs_final := false |}).
Lemma receive_arrived t pre d a : arrived t pre a -> file_type t <> HUnknown -> size pre < t_length t ->
  exists a', receive t d true WAll a = (a', AOk) /\ arrived t (append pre d) a' /\ a_target a' = a_target a.
Proof.
  intros Ha F L. assert (L0 : 0 < t_length t) by (unfold size in L; lia). destruct (Z.eq_dec (a_size a) 0) as [S0|S0].
  - assert (pre = "") as ->. { destruct Ha as [(P & _) | (N & _)]; [exact P|]. unfold a_size in S0. rewrite N in S0. apply slen_0. lia. }
    rewrite (receive_first t d a S0 L0 F). eexists. split; [reflexivity|]. split; [right; cbn; auto|reflexivity].
  - destruct Ha as [(_ & P) | (N & Hh)]; [contradiction|]. assert (Sz : a_size a = size pre) by (unfold a_size; now rewrite N).
    rewrite (receive_all t d a _ Hh) by (unfold size in *; lia). eexists. split; [reflexivity|]. split; [right; cbn; rewrite N; auto|reflexivity].
Qed.
Lemma upload_handle W d t s pre : works W -> alive (ip_sec s) = true -> sn_pending (fs_snd (ip_sec s)) = Some t -> arrived t pre (fs_ag (ip_sec s)) -> file_type t <> HUnknown -> size pre < t_length t ->
  exists s', rpc W (QUpload d) s = (s', PUpload kOk) /\ ip_ver s' = ip_ver s /\ alive (ip_sec s') = true /\ sn_pending (fs_snd (ip_sec s')) = Some t /\
    arrived t (append pre d) (fs_ag (ip_sec s')).
Proof.
  intros Hw A P Ha F L. rewrite rpc_works by exact Hw. unfold IpModel.handle. change (alive (settle (ip_sec s))) with (alive (ip_sec s)). rewrite A. cbn [negb].
  unfold handle_upload. cbn [settle fs_snd sn_pending fs_ag]. rewrite P. destruct (Hw (ip_n s)) as (_ & _ & -> & -> & _).
  destruct (receive_arrived t pre d (fs_ag (ip_sec s)) Ha F L) as (a' & R & Ha' & _). rewrite R. cbn [fst snd]. eexists. split; [reflexivity|]. cbn. auto.
Qed.
Lemma upload_works W t : works W -> file_type t <> HUnknown -> forall fuel image pre s,
  alive (ip_sec s) = true -> sn_pending (fs_snd (ip_sec s)) = Some t -> arrived t pre (fs_ag (ip_sec s)) -> size pre + size image = t_length t -> (String.length image < fuel)%nat ->
  exists s', upload_image savec loadc E stale ecu hw sigs W fuel (t_length t) image (size pre) s = (s', Some (result kOk)) /\ ip_ver s' = ip_ver s /\
    alive (ip_sec s') = true /\ sn_pending (fs_snd (ip_sec s')) = Some t /\ arrived t (append pre image) (fs_ag (ip_sec s')).
Proof.
  intros Hw F. induction fuel as [|fuel IH]; intros image pre s A P Ha L Hf; [lia|]. cbn [upload_image]. destruct (Z.ltb_spec (size pre) (t_length t)) as [X|X].
  - unfold upload_data. destruct (upload_handle W (stake chunk image) t s pre Hw A P Ha F X) as (s1 & R & V1 & A1 & P1 & Ha1). rewrite R.
    change (ir_success (result kOk)) with true. cbv iota. assert (Q : size pre + Z.of_nat (String.length (stake chunk image)) = size (append pre (stake chunk image))) by (unfold size; rewrite slen_app; lia).
    rewrite Q. unfold size in *. pose proof (slen_stake chunk image) as LT. pose proof (slen_sskip chunk image) as LS. assert (CK : (0 < chunk)%nat) by (unfold chunk; lia).
    destruct (IH (sskip chunk image) (append pre (stake chunk image)) s1 A1 P1 Ha1) as (s2 & U & V2 & A2 & P2 & Ha2); [rewrite <- Q; lia|lia|].
    exists s2. rewrite sapp_assoc, stake_sskip in Ha2. split; [exact U|]. split; [congruence|]. auto.
  - assert (image = "") as -> by (apply slen_0; unfold size in *; lia). assert (Q : (size pre =? t_length t) = true) by (apply Z.eqb_eq; unfold size in *; simpl in *; lia). rewrite Q.
    exists s. rewrite sapp_nil_r. auto.
Qed.
Lemma install_works W t image s : works W -> alive (ip_sec s) = true -> ip_ver s = 2 -> sn_pending (fs_snd (ip_sec s)) = Some t -> arrived t image (fs_ag (ip_sec s)) -> describes_image E t image ->
  exists s', ip_install savec loadc E stale ecu hw sigs W t s = (s', result kOk) /\ ip_ver s' = 2 /\ alive (ip_sec s') = true /\ a_target (fs_ag (ip_sec s')) = Some image /\ a_name (fs_ag (ip_sec s')) = t_filename t /\
    a_size (fs_ag (ip_sec s')) = 0.
Proof.
  intros Hw A V P Ha (D1 & D2 & D3 & D4). unfold ip_install. rewrite V. change (2 =? 2) with true. cbv iota. unfold install_v2. rewrite rpc_works by exact Hw.
  unfold IpModel.handle. change (alive (settle (ip_sec s))) with (alive (ip_sec s)). rewrite A. cbn [negb]. unfold handle_install. cbn [settle fs_snd sn_pending fs_ag]. rewrite P.
  destruct (Hw (ip_n s)) as (_ & _ & _ & _ & ->). destruct Ha as [(P0 & _) | (N & Hh)]; [subst; unfold size in D1; simpl in D1; lia|].
  assert (M : match_hash t (hasher_digest E stale {| hs_type := file_type t; hs_data := image; hs_final := false |}) = true).
  { destruct (match_digest E t image D3) as (h & Hd & Hm). unfold hasher_digest. cbn [hs_final hs_type hs_data]. now rewrite Hd. }
  unfold install. rewrite N, D1. unfold size. rewrite Z.eqb_refl. cbn [negb]. rewrite Hh, M. cbn [negb fst snd].
  unfold do_install. cbn [settle fs_snd sn_pending]. rewrite ?P. eexists. split; [reflexivity|]. cbn. auto 10.
Qed.
Theorem update_works W d m t fuel creds image s : works W -> alive (ip_sec s) = true -> get_metadata d = Ok (Some m) ->
  (forall n, sec_in_order E ecu hw (h_ckd (w_env W n)) (h_cki (w_env W n)) (u_db (sn_ust (fs_snd (ip_sec s)))) m t) ->
  a_size (fs_ag (ip_sec s)) = 0 -> is_ostree t = false -> describes_image E t image -> (String.length image < fuel)%nat ->
  exists s1 s2 s3, put_metadata savec loadc E stale ecu hw sigs W d s = (s1, Ok (result kOk)) /\
    send_firmware savec loadc E stale ecu hw sigs W fuel t creds image s1 = (s2, Some (result kOk)) /\
    ip_install savec loadc E stale ecu hw sigs W t s2 = (s3, result kOk) /\
    alive (ip_sec s3) = true /\ a_target (fs_ag (ip_sec s3)) = Some image /\ a_name (fs_ag (ip_sec s3)) = t_filename t /\ a_size (fs_ag (ip_sec s3)) = 0.
Proof.
  intros Hw A G O Sz Os D Hf. destruct (put_works W d m t s Hw A G O) as (s1 & H1 & V1 & A1 & P1 & Ag & _).
  assert (FT : file_type t <> HUnknown) by (destruct D as (_ & _ & [(-> & _)|(-> & _)] & _); discriminate).
  destruct (upload_works W t Hw FT fuel image "" s1 A1 P1) as (s2 & H2 & V2 & A2 & P2 & Ha); [left; split; [reflexivity|now rewrite Ag]|destruct D as (D1 & _); unfold size in *; simpl; lia|exact Hf|].
  destruct (install_works W t image s2 Hw A2 ltac:(congruence) P2 Ha D) as (s3 & H3 & _ & K). exists s1, s2, s3. split; [exact H1|]. split; [|split; [exact H3|exact K]].
  unfold send_firmware. rewrite V1. change (2 =? 2) with true. cbv iota. rewrite Os. exact H2.
Qed.

(** ** Never again: a leftover file *)
Lemma stuck_receive t d op w a c : a_new a = Some c -> t_length t <= size c -> receive t d op w a = (a, AFail).
Proof. intros N L. apply stuck_step; [unfold a_size; now rewrite N|congruence]. Qed.
Lemma blocked_handle t h q s : harmless q -> only t s -> blocked t s -> blocked t (fst (handle h q s)) /\ (forall d, q = QUpload d -> snd (handle h q s) <> Some (PUpload kOk)).
Proof.
  intros Hq Ho B. unfold IpModel.handle. change (alive (settle s)) with (alive s). destruct (negb (alive s)); [split; [exact B|discriminate]|].
  destruct q as [|v| |dr dt ir it isn itg|q|d|d|c|n]; try (split; [exact B|discriminate]).
  - unfold handle_put. destruct (do_put _ _ _ _ _ _ _ _) as (m, ev). split; [|discriminate]. destruct ev; exact B.
  - unfold handle_upload. cbn [settle fs_snd sn_pending fs_ag]. destruct (sn_pending (fs_snd s)) as [t'|] eqn:P; [|split; [exact B|intros _ _; discriminate]].
    rewrite (Ho t' P). destruct B as (c & N & L). rewrite (stuck_receive t d _ _ _ c N L). cbn. split; [exists c; auto|intros _ _; discriminate].
  - contradiction.
Qed.
Lemma blocked_start t clk s : blocked t s -> blocked t (start_sec loadc E ecu hw clk s).
Proof. intros B. unfold start_sec. destruct (load_installed loadc "" (fs_idb s)) as [(c, p)|e]; exact B. Qed.
Theorem blocked_forever t s s' : goes savec loadc E stale ecu hw sigs harmless (only t) s s' -> only t s -> blocked t s -> only t s' /\ blocked t s'.
Proof.
  induction 1 as [s|s s' clk P _ IH|s s' h q Hq P _ IH|s s' h q k undo Hq P _ IH]; intros O B; [auto| | |].
  - apply IH; [exact P|now apply blocked_start].
  - apply IH; [exact P|now apply blocked_handle].
  - apply IH; [intros t' K; discriminate K|]. destruct (blocked_handle t h q s Hq O B) as (B' & _). exact B'.
Qed.

(** ** Never again: two Roots behind *)
Lemma root_of_json_base j R : root_of_json E j = Ok R -> base_init j = Ok (rt_base R).
Proof.
  unfold root_of_json. intros H. apply bind_ok in H. destruct H as (b & Hb & H). rewrite Hb. repeat (apply bind_ok in H; destruct H as (? & ? & H); try (destruct (negb _) in H; [discriminate|])).
  injection H as <-. reflexivity.
Qed.
Lemma root_too_new srv clk rp s raw0 R0 raw w : load_latest_root rp (u_db s) = Ok (Some raw0) -> self_signed_root E raw0 R0 -> rt_version R0 < 999 ->
  srv rp "root" (rt_version R0 + 1) = Ok raw -> extract_version_untrusted E raw = Ok w -> w <> -1 -> w <> rt_version R0 + 1 ->
  exists s' e, update_root E srv clk rp s = (s', Throw e) /\ u_db s' = u_db s /\ u_log s' = u_log s.
Proof.
  intros L S0 V H X N1 N2. unfold update_root. destruct (init_root_complete E rp raw0 R0 s S0) as (s1 & H1 & G1 & D1 & Lg1).
  assert (L1 : load_or_fetch_root E srv rp s = (s1, Ok tt)).
  { unfold load_or_fetch_root. rewrite (mbind_ok _ _ s s (load_latest_root rp (u_db s))) by reflexivity. rewrite L. rewrite (mbind_ok _ _ s s (Some raw0)) by reflexivity. exact H1. }
  rewrite (mbind_ok _ _ _ _ _ L1). rewrite (mbind_ok _ _ s1 s1 (rt_version R0)) by (unfold gets; now rewrite G1).
  destruct (Z.to_nat (kMaxRotations - (rt_version R0 + 1))) as [|f] eqn:K; [unfold kMaxRotations in K; lia|].
  assert (Q : exists s2 e, verify_root E rp raw s1 = (s2, Throw e) /\ u_db s2 = u_db s1 /\ u_log s2 = u_log s1).
  { assert (P1 : rt_policy (get_root rp s1) = PCheck) by (rewrite G1; destruct S0 as (J & _); exact (root_of_json_check _ _ _ J)).
    destruct (verify_root E rp raw s1) as (s2, r) eqn:Vr. apply verify_root_spec in Vr; [|exact P1]. destruct Vr as (D2 & Lg2 & _ & Ok2). destruct r as [[]|e]; [|eauto].
    exfalso. specialize (Ok2 eq_refl). destruct Ok2 as (J & _ & _ & Vn). apply root_of_json_base in J. pose proof (extract_base' _ _ _ _ X J N1) as Q. rewrite G1 in Vn. unfold rt_version in *. congruence. }
  destruct Q as (s2 & e & Vr & D2 & Lg2). exists s2, e. split; [|split; congruence]. unfold mbind at 1. cbn [root_loop]. rewrite H. unfold mbind at 1. rewrite Vr. reflexivity.
Qed.
Lemma behind_rejected h m s raw0 R0 w wi : alive s = true -> trusts raw0 s -> self_signed_root E raw0 R0 ->
  extract_version_untrusted E (m_droot m) = Ok w -> extract_version_untrusted E (m_iroot m) = Ok wi -> 0 <= rt_version R0 -> rt_version R0 + 1 < w -> rt_version R0 < 999 ->
  snd (handle h (QPutMeta2 (put_of m)) s) = Some (PPutMeta2 kVerificationFailed) /\ alive (fst (handle h (QPutMeta2 (put_of m)) s)) = true /\
  trusts raw0 (fst (handle h (QPutMeta2 (put_of m)) s)).
Proof.
  intros A (L & _) S0 Hd Hi V0 V1 V2. unfold IpModel.handle. change (alive (settle s)) with (alive s). rewrite A. cbn [negb]. unfold handle_put, do_put.
  destruct (offered_sent E m w wi Hd Hi) as (C & X). rewrite C. set (srv := bundle_server _ _) in *. set (u := clear_log _).
  destruct (director_reset u) as (u0, x0) eqn:H0. apply director_reset_spec in H0 as K0. destruct K0 as (-> & D0 & G0 & _).
  assert (Srv : srv Director "root" (rt_version R0 + 1) = Ok (m_droot m)).
  { rewrite <- X. unfold offered. cbn [doc_of]. change (String.eqb "root" "root") with true. cbv iota. assert (Y : negb (rt_version R0 + 1 =? -1) = true) by (apply negb_true_iff, Z.eqb_neq; lia). rewrite Y. cbn [andb]. rewrite Hd.
    assert (Z1 : (rt_version R0 + 1 <=? w) = true) by (apply Z.leb_le; lia). now rewrite Z1. }
  destruct (root_too_new srv (h_ckd h) Director u0 raw0 R0 (m_droot m) w) as (u1 & e & U & D1 & G1); auto; [rewrite D0; exact L|lia|lia|].
  assert (Dr : director_update E srv (h_ckd h) u = (u1, Throw e)). { unfold director_update. rewrite (mbind_ok _ _ _ _ _ H0). unfold mbind at 1. rewrite U. reflexivity. }
  unfold full_verification. rewrite Dr. cbn. split; [reflexivity|]. split; [reflexivity|]. unfold trusts. cbn. rewrite D1, D0, G1, G0. auto.
Qed.
Lemma trusts_settle raw s : trusts raw s -> trusts raw (settle s).
Proof. intros (L & _). unfold trusts, settle. cbn. auto. Qed.
Lemma trusts_handle raw0 R0 h q s : self_signed_root E raw0 R0 -> 0 <= rt_version R0 < 999 -> root_after E (rt_version R0 + 1) q -> trusts raw0 s ->
  trusts raw0 (fst (handle h q s)) /\ (forall p c, q = QPutMeta2 p -> snd (handle h q s) = Some (PPutMeta2 c) -> c = kVerificationFailed).
Proof.
  intros S0 V Hq T. pose proof (trusts_settle _ _ T) as T'. destruct (alive s) eqn:A.
  2:{ unfold IpModel.handle. change (alive (settle s)) with (alive s). rewrite A. cbn [negb]. split; [exact T'|intros p c _ H; discriminate H]. }
  assert (O : forall h q, (forall p, q <> QPutMeta2 p) -> trusts raw0 (fst (handle h q s))).
  { clear h q Hq. intros h q N. unfold IpModel.handle. change (alive (settle s)) with (alive s). rewrite A. cbn [negb].
    destruct q as [|v| |dr dt ir it isn itg|q|d|d|c|n]; try exact T'; [now destruct (N q)| |].
    - unfold handle_upload. destruct (sn_pending _) as [t|]; [|exact T']. destruct (receive _ _ _ _ _) as (a, r). destruct r; exact T'.
    - unfold handle_install. destruct (sn_pending (fs_snd (settle s))) as [t|] eqn:P; [|exact T']. destruct (install _ _ _ _ _) as (a, r).
      destruct r; try exact T'. unfold do_install. rewrite P. exact T'. }
  destruct q as [|v| |dr dt ir it isn itg|q|d|d|c|n]; try (split; [apply O; discriminate|discriminate]).
  destruct (Hq q eq_refl) as (m & w & wi & -> & Hd & Hi & L). destruct (behind_rejected h m s raw0 R0 w wi A T S0 Hd Hi) as (X & _ & Y); [lia|lia|lia|].
  split; [exact Y|]. intros p c _ H. rewrite X in H. injection H as <-. reflexivity.
Qed.
Lemma trusts_start raw0 clk s : trusts raw0 s -> trusts raw0 (start_sec loadc E ecu hw clk s).
Proof.
  intros T. assert (T2 := T). destruct T2 as (L & P & G). unfold start_sec. destruct (load_installed loadc "" (fs_idb s)) as [(c, p)|e]; [|exact T]. unfold trusts. cbn [fs_snd].
  unfold do_start. assert (D : start_db 0 (fs_snd s) = u_db (sn_ust (fs_snd s))) by (unfold start_db; rewrite G; exact P). rewrite D.
  destruct (director_offline E clk (boot (u_db (sn_ust (fs_snd s))))) as (u, r) eqn:O. apply nw_director_offline in O. destruct O as (O & _). cbn. rewrite O. cbn. auto.
Qed.
Lemma trusts_kill raw0 k undo s : trusts raw0 s -> trusts raw0 (kill_sec k undo s).
Proof.
  intros (L & P & G). unfold trusts, kill_sec. cbn. assert (D : start_db k (fs_snd s) = u_db (sn_ust (fs_snd s))) by (unfold start_db; rewrite G, P; destruct k as [|[|k]]; reflexivity).
  rewrite D. auto.
Qed.
Theorem behind_forever raw0 R0 s s' : self_signed_root E raw0 R0 -> 0 <= rt_version R0 < 999 -> trusts raw0 s ->
  goes savec loadc E stale ecu hw sigs (root_after E (rt_version R0 + 1)) (fun _ => True) s s' -> trusts raw0 s'.
Proof.
  intros S0 V T H. revert T. induction H as [s|s s' clk _ _ IH|s s' h q Hq _ _ IH|s s' h q k undo Hq _ _ IH]; intros T; [exact T| | |]; apply IH.
  - now apply trusts_start.
  - eapply trusts_handle; eauto.
  - apply trusts_kill. eapply trusts_handle; eauto.
Qed.

(** ** Manifests and versions *)
Lemma get_version_run u l W s : sec_run savec loadc E stale ecu hw sigs u l (ip_sec s) -> all_noticed W -> (u = false -> no_undo W) -> sec_run savec loadc E stale ecu hw sigs u l (ip_sec (get_version W s)).
Proof.
  intros R Hn Hu. unfold IpModel.get_version. pose proof (rpc_run savec loadc E stale ecu hw sigs u l W (QVersion 2) s R Hn Hu I) as K1. destruct (rpc W (QVersion 2) s) as (x1, a1). cbn [fst] in K1.
  assert (K2 : sec_run savec loadc E stale ecu hw sigs u l (ip_sec (let (x2, p) := ping savec loadc E stale ecu hw sigs W x1 in if p : bool then set_ver 1 x2 else x2))).
  { unfold ping. pose proof (rpc_run savec loadc E stale ecu hw sigs u l W QInfo x1 K1 Hn Hu I) as K2. destruct (rpc W QInfo x1) as (x2, a2). cbn [fst] in K2. destruct a2; exact K2. }
  destruct a1; auto.
Qed.
Lemma get_manifest_run u l W s : sec_run savec loadc E stale ecu hw sigs u l (ip_sec s) -> all_noticed W -> (u = false -> no_undo W) ->
  sec_run savec loadc E stale ecu hw sigs u l (ip_sec (fst (get_manifest savec loadc E stale ecu hw sigs W s))).
Proof.
  intros R Hn Hu. unfold get_manifest. pose proof (rpc_run savec loadc E stale ecu hw sigs u l W QManifest _ (get_version_run u l W s R Hn Hu) Hn Hu I) as K.
  destruct (rpc W QManifest _) as (s2, r). exact K.
Qed.
Lemma put_v1_fails W d s s' r : ip_ver (get_version W s) = 1 -> put_metadata savec loadc E stale ecu hw sigs W d s = (s', Ok r) -> ir_success r = true -> False.
Proof.
  intros V H S. unfold put_metadata in H. destruct (get_metadata d) as [[m|]|e]; [| |discriminate].
  2:{ injection H as <- <-. apply result_ok in S. destruct S; discriminate. }
  rewrite V in H. change (1 =? 2) with false in H. change (1 =? 1) with true in H. cbv iota in H. unfold put_v1 in H. destruct (rpc W (QPutMeta _ _ _ _ _ _) (get_version W s)) as (s2, a) eqn:R.
  injection H as <- <-. destruct a as [| | | |b| | | | | |]; try (apply result_ok in S; destruct S; discriminate).
  apply rpc_answer in R; [|discriminate]. destruct R as (sec & _ & R & _). unfold IpModel.handle in R. destruct (negb _); discriminate.
Qed.
Lemma start_alive clk s : table_ok savec loadc ecu hw (fs_idb s) -> alive (start_sec loadc E ecu hw clk s) = true.
Proof.
  intros (R & _). destruct (C19_load_total savec loadc (fs_idb s) "" R) as (c & p & L). unfold start_sec. rewrite L. unfold alive. cbn [fs_snd].
  unfold do_start. destruct (director_offline E clk _) as (u, r). reflexivity.
Qed.
Lemma starts_alive : forall l s, table_ok savec loadc ecu hw (fs_idb s) -> alive s = true \/ l <> [] -> alive (start_all loadc E ecu hw l s) = true.
Proof.
  induction l as [|c l IH]; intros s T H; [destruct H as [H|H]; [exact H|now destruct H]|]. cbn. apply IH; [|left; now apply start_alive].
  destruct (start_table loadc E ecu hw s c) as (X & _). now rewrite X.
Qed.
Lemma version_answered W s : w_link W (ip_n s) = LAnswered -> alive (ip_sec s) = true \/ w_starts W (ip_n s) <> [] -> table_ok savec loadc ecu hw (fs_idb (ip_sec s)) -> ip_ver (get_version W s) = 2.
Proof.
  intros L A T. unfold IpModel.get_version, IpModel.rpc. rewrite L. unfold IpModel.handle. set (sec := start_all _ _ _ _ _ _).
  assert (A' : alive (settle sec) = true) by (change (alive (settle sec)) with (alive sec); now apply starts_alive). rewrite A'. reflexivity.
Qed.
Lemma rpc_silent W q s : w_link W (ip_n s) <> LAnswered -> snd (rpc W q s) = PNothing.
Proof. intros N. unfold IpModel.rpc. destruct (w_link W (ip_n s)); auto. now destruct N. Qed.
Lemma version_kept W s : w_link W (ip_n s) <> LAnswered -> w_link W (S (ip_n s)) <> LAnswered -> ip_ver (get_version W s) = ip_ver s.
Proof.
  intros N1 N2. unfold IpModel.get_version. pose proof (rpc_silent W (QVersion 2) s N1) as X. destruct (rpc_n savec loadc E stale ecu hw sigs W (QVersion 2) s) as (M & V). destruct (rpc W (QVersion 2) s) as (s1, r). cbn [fst snd] in *. rewrite X.
  unfold ping. pose proof (rpc_silent W QInfo s1) as Y. rewrite M in Y. specialize (Y N2). destruct (rpc_n savec loadc E stale ecu hw sigs W QInfo s1) as (_ & V2). destruct (rpc W QInfo s1) as (s2, r2). cbn [fst snd] in *. rewrite Y. congruence.
Qed.
Lemma get_metadata_stored d m : stored_docs d m -> get_metadata d = Ok (Some m).
Proof. intros (A & B & C & D & F & G). unfold get_metadata. rewrite A. cbn [bind]. rewrite B. cbn [bind]. rewrite C. cbn [bind]. rewrite D. cbn [bind]. rewrite F. cbn [bind]. rewrite G. now destruct m. Qed.
End P.
