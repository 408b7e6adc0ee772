(** C91-C94: updates of a Secondary over the network. *)
From Verif Require Import Base Json TufModel TufSpec TufProofs TufProofs2 MetaStore RepoModel RepoSpec CodecModel CodecSpec DlModel DlSpec InstModel InstSpec PropsInst DevModel LiveSpec OrdSpec ChkSpec SndModel SndSpec SecFileModel SecFileSpec IpModel IpSpec IpProofs IpProofs2 IpProofs3 Toy PropsOrd RepoProofs.

(** ** A small world: Root 1, one image for the Secondary "ecu1" *)
Definition ip_docs : list (string * json) := [
  ("R1", root_j "r1" 1 far 1 k1 k1); ("R2", root_j "r2" 2 far 1 k2 both); ("R3", root_j "r3" 3 far 1 k2 k2);
  ("DI", targets_j "di" 5 far [("app", target_j 7 "image01" (ecu_custom "ecu1" "hw1"))] k1);
  ("TSI", timestamp_j "tsi" 5 far 5 "SNI" k1); ("SNI", snapshot_j "sni" 5 far 5 "TGI" k1);
  ("TGI", targets_j "tgi" 5 far [("app", target_j 7 "image01" (hw_custom "hw1"))] k1)].
Definition IE : Env := toy ip_docs.
Definition ip_db : db := store_nonroot "DI" Director RTargets (store_root "R1" Director 1 (store_nonroot "TGI" Image RTargets (store_nonroot "SNI" Image RSnapshot (store_nonroot "TSI" Image RTimestamp (store_root "R1" Image 1 db_empty))))).
Definition ip_m : docs := {| m_droot := "R1"; m_dtargets := "DI"; m_iroot := "R1"; m_itime := "TSI"; m_isnap := "SNI"; m_itargets := "TGI" |}.
Definition app_t : target := match tg_targets (tg_of IE "DI") with t :: _ => t | [] => target_blank "" end.
Definition no_stale (_ : htype) (_ : string) : hash := mk_hash_t HUnknown "stale".
Definition no_sigs (_ : json) : json := JNull.
Definition good_env : henv := {| h_ckd := now2020; h_cki := now2020; h_opened := true; h_wr := WAll; h_renamed := true |}.
Definition good_net : net := {| w_link := fun _ => LAnswered; w_env := fun _ => good_env; w_starts := fun _ => [] |}.
Definition idb1 : idb := istep sv idb_empty (OpStoreEcus [("ecu1", "hw1")]).
Definition sec0 (d0 : db) : fsec := {| fs_snd := snd_off d0; fs_ag := agent_init (Some "old") "unknown"; fs_idb := idb1; fs_before := idb1 |}.
Definition ip_handle := IpModel.handle sv IE no_stale "ecu1" "hw1" no_sigs.
Definition ip_start := start_sec ld IE "ecu1" "hw1" now2020.
Definition at_first (s : fsec) : ipst := {| ip_ver := 1; ip_sec := s; ip_n := 0 |}.

Lemma idb1_reach : ireach sv (good_target sv ld) idb1.
Proof. apply ireach_S; [apply ireach_0|]. split; [discriminate|]. left. intros r []. Qed.
Lemma sec0_run u d0 : sec_run sv ld IE no_stale "ecu1" "hw1" no_sigs u [] (sec0 d0).
Proof. apply sr_init; [discriminate|exact idb1_reach|reflexivity]. Qed.
Lemma good_noticed : noticed good_env. Proof. intros k. discriminate. Qed.
Lemma good_works : works good_net. Proof. intros n. cbn. auto 10. Qed.
Lemma good_all_noticed : all_noticed good_net. Proof. intros n. exact good_noticed. Qed.
Lemma app_sound : sound_version sv ld IE no_stale app_t.
Proof.
  split; [|split].
  - split; [|split; [reflexivity|split; [eexists; split; [left; reflexivity|reflexivity]|split; [vm_compute; split; [discriminate|reflexivity]|]]]].
    + constructor; [|constructor]. split; [vm_compute; discriminate|]. split; [vm_compute; discriminate|]. split; vm_compute; reflexivity.
    + intros c H. injection H as <-. eexists. reflexivity.
  - assert (Hh : t_hashes app_t = [{| h_type := Sha256; h_val := "IMAGE01" |}]) by (vm_compute; reflexivity).
    assert (L : forall s, String.length (to_upper s) = String.length s) by (induction s; simpl; auto).
    intros c [H|H]; rewrite Hh in H; destruct H as [H|[]]; [|discriminate]. injection H as H. change (sha256hex IE c) with c in H.
    unfold size. rewrite <- L, <- H. reflexivity.
  - intros ty d [H|[]]. discriminate.
Qed.
Lemma app_image : describes_image IE app_t "image01".
Proof. split; [reflexivity|]. split; [reflexivity|]. split; [left; split; [reflexivity|left; reflexivity]|discriminate]. Qed.
Lemma app_assigned : assigned IE "ecu1" "hw1" ip_db app_t.
Proof.
  exists "DI", (tg_of IE "DI"). split; [by_computation|]. split; [apply tg_of_doc; by_computation|]. split; [left; reflexivity|]. exists [], []. split; [reflexivity|intros x []].
Qed.
Lemma roots_same rp : roots_in_order IE (offered IE ip_m) now2020 rp ip_db [] (rt_of IE "R1").
Proof.
  exists "R1", (rt_of IE "R1"). split; [left; destruct rp; by_computation|]. split; [split; [apply rt_of_doc; by_computation|apply accept_root; by_computation]|].
  split; [constructor|]. split; [intros ? ? []|]. split; [destruct rp; eexists; by_computation|]. split; by_computation.
Qed.
Lemma in_order_same : sec_in_order IE "ecu1" "hw1" now2020 now2020 ip_db ip_m app_t.
Proof.
  split; [eexists; by_computation|]. split; [eexists; by_computation|].
  exists [], (rt_of IE "R1"), (tg_of IE "DI"), [], (rt_of IE "R1"), (tm_of IE "TSI"), (sn_of IE "SNI"), (tg_of IE "TGI"). split; [apply roots_same|]. split.
  { exists "DI", 5. split; [reflexivity|]. split; [by_computation|]. split; [lia|]. split; [apply accept_targets; by_computation|]. split; [apply tg_of_doc; by_computation|].
    split; [by_computation|]. split; [by_computation|]. split; [repeat constructor; cbn; intuition discriminate|]. right. split; [right; exists "DI", 5; split; [by_computation|split; [by_computation|lia]]|left; discriminate]. }
  split; [apply roots_same|]. split.
  { split; [|split].
    - exists "TSI", 5. split; [reflexivity|]. split; [by_computation|]. split; [lia|]. split; [split; [apply unpack_signed_iff; [apply standard_timestamp|by_computation]|split; by_computation]|].
      split; [by_computation|]. right. right. exists "TSI", 5. split; [by_computation|split; [by_computation|lia]].
    - exists "SNI", 5. split; [reflexivity|]. split; [by_computation|]. split; [lia|]. split.
      { split; [eexists; split; [left; reflexivity|discriminate]|]. split; [intros h [<-|[]]; by_computation|]. split; [split; [apply unpack_signed_iff; [apply standard_snapshot|by_computation]|split; by_computation]|by_computation]. }
      split; [by_computation|]. right. exists (Some "SNI"). split; [by_computation|]. intros sraw H _. injection H as <-. reflexivity.
    - exists "TGI", 5. split; [reflexivity|]. split; [by_computation|]. split; [lia|]. split.
      { split; [intros h [<-|[]]; by_computation|]. split; [apply accept_targets; by_computation|]. split; [apply tg_of_doc; by_computation|by_computation]. }
      split; [by_computation|]. right. exists (Some "TGI"). split; [by_computation|]. intros sraw st H _ _ (D1 & D2). injection H as <-.
      assert (st = tg_of IE "TGI") as -> by (unfold tg_of; rewrite D1, D2; reflexivity). split; [lia|reflexivity]. }
  split.
  { intros x [<-|[]]. assert (X : existsb (fun i => match_target i app_t) (tg_targets (tg_of IE "TGI")) = true) by by_computation. apply existsb_exists in X. destruct X as (i & I1 & I2). exists i. split; [exact I1|]. now apply match_target_iff. }
  split; [split; [left; reflexivity|exists [], []; split; [reflexivity|intros x []]]|reflexivity].
Qed.

(** ** C91: what the Primary is told *)
(** Whatever the Secondary has been through, and whatever the network does: if the Secondary accepts the Primary's metadata, which assign
    target [t] to it, and after the transfer of the image reports that it has installed it, without a restart in between, then
    its image has the length and a hash of [t], [t] is recorded as its version, and until the next installation every manifest it
    sends, also after restarts and kills, states the name of [t] and length and hash of that image. *)
Theorem C91_update savec loadc E stale ecu hw sigs W d t fuel creds image s0 s1 s2 s3 r1 o r3 u l :
  sec_run savec loadc E stale ecu hw sigs u l (ip_sec s0) -> all_noticed W -> (u = false -> no_undo W) -> sound_version savec loadc E stale t ->
  assigned E ecu hw d t ->
  put_metadata savec loadc E stale ecu hw sigs W d s0 = (s1, Ok r1) -> ir_success r1 = true ->
  (forall n, (ip_n s1 <= n)%nat -> w_starts W n = []) ->
  send_firmware savec loadc E stale ecu hw sigs W fuel t creds image s1 = (s2, o) ->
  ip_install savec loadc E stale ecu hw sigs W t s2 = (s3, r3) -> ir_success r3 = true ->
  runs loadc (fs_idb (ip_sec s3)) ecu t /\
  exists c, a_target (fs_ag (ip_sec s3)) = Some c /\ size c = t_length t /\ matches_target E t c /\
    forall s4 W' s5 m, quietly savec loadc E stale ecu hw sigs s3 s4 -> get_manifest savec loadc E stale ecu hw sigs W' s4 = (s5, m) -> m <> JNull ->
      says ecu m (t_filename t) (t_length t) (to_lower (sha256hex E c)).
Proof.
  intros Hr Hn Hu Hs Ha Hp S1 Hw Hf Hi S3. destruct (update_reported savec loadc E stale ecu hw sigs W d t fuel creds image s0 s1 s2 s3 r1 o r3 u l Hr Hn Hu Hs Ha Hp S1 Hw Hf Hi S3) as (_ & c & (C1 & C2 & C3) & K).
  split; [apply K|]. exists c. do 3 (split; [assumption|]). intros s4 W' s5 m Q G N. rewrite <- C2. eapply keeps_manifest; [|exact G|exact N]. eapply keeps_quietly; eauto.
Qed.
Print Assumptions C91_update.
(** Without any assumption on what was sent before and on restarts: if the Primary is told that the installation succeeded, then the
    Secondary was waiting for a target and now has an image of it, under its name, and records it as its version. *)
Theorem C91_install savec loadc E stale ecu hw sigs W t s s' r u l : let sec := start_all loadc E ecu hw (w_starts W (ip_n s)) (ip_sec s) in
  sec_run savec loadc E stale ecu hw sigs u l (ip_sec s) -> all_noticed W -> (forall t', sn_pending (fs_snd sec) = Some t' -> sound_version savec loadc E stale t') ->
  ip_ver s = 2 -> ip_install savec loadc E stale ecu hw sigs W t s = (s', r) -> ir_success r = true ->
  exists t' c, sn_pending (fs_snd sec) = Some t' /\ runs loadc (fs_idb (ip_sec s')) ecu t' /\
    a_target (fs_ag (ip_sec s')) = Some c /\ size c = t_length t' /\ matches_target E t' c /\ a_name (fs_ag (ip_sec s')) = t_filename t'.
Proof.
  intros sec Hr Hn Hs V Hi S. unfold ip_install in Hi. rewrite V in Hi. change (2 =? 2) with true in Hi. cbv iota in Hi. unfold install_v2 in Hi.
  destruct (IpModel.rpc savec loadc E stale ecu hw sigs W (QInstall (t_filename t)) s) as (x, a) eqn:R. injection Hi as -> <-.
  destruct a as [| | | | | | | | | |c]; try (apply result_ok in S; destruct S; discriminate). apply result_ok in S.
  destruct (install_any savec loadc E stale ecu hw sigs W _ s s' c u l Hr Hn Hs R S) as (t' & P & _ & im & (C1 & C2 & C3) & K).
  exists t', im. split; [exact P|]. split; [apply K|]. do 3 (split; [assumption|]). apply K.
Qed.
Print Assumptions C91_install.

Example C91_case : exists s1 s2 s3, let s0 := at_first (ip_start (sec0 ip_db)) in
  sec_run sv ld IE no_stale "ecu1" "hw1" no_sigs false [] (ip_sec s0) /\ all_noticed good_net /\ no_undo good_net /\ sound_version sv ld IE no_stale app_t /\
  assigned IE "ecu1" "hw1" ip_db app_t /\ (forall n, w_starts good_net n = []) /\
  put_metadata sv ld IE no_stale "ecu1" "hw1" no_sigs good_net ip_db s0 = (s1, Ok (result kOk)) /\
  send_firmware sv ld IE no_stale "ecu1" "hw1" no_sigs good_net 10 app_t "" "image01" s1 = (s2, Some (result kOk)) /\
  ip_install sv ld IE no_stale "ecu1" "hw1" no_sigs good_net app_t s2 = (s3, result kOk).
Proof.
  destruct (update_works sv ld IE no_stale "ecu1" "hw1" no_sigs good_net ip_db ip_m app_t 10 "" "image01" (at_first (ip_start (sec0 ip_db)))) as (s1 & s2 & s3 & X1 & X2 & X3 & _).
  - exact good_works.
  - vm_compute. reflexivity.
  - by_computation.
  - intros n. assert (D : u_db (sn_ust (fs_snd (ip_sec (at_first (ip_start (sec0 ip_db)))))) = ip_db) by (vm_compute; reflexivity). rewrite D. exact in_order_same.
  - vm_compute. reflexivity.
  - reflexivity.
  - exact app_image.
  - simpl. lia.
  - exists s1, s2, s3. cbv zeta. split; [apply sr_start, sec0_run|]. split; [exact good_all_noticed|]. split; [intros n k; discriminate|]. split; [exact app_sound|].
    split; [exact app_assigned|]. split; [reflexivity|]. auto.
Qed.

(** ** C92: can the Secondary be updated? *)
(** Metadata in order, the right image, a network and a disk that work: the update succeeds, whatever happened before. *)
Definition C92_statement : Prop :=
  forall savec loadc E stale ecu hw sigs l s W d m t fuel creds image,
    sec_run savec loadc E stale ecu hw sigs false l (ip_sec s) -> alive (ip_sec s) = true -> works W -> stored_docs d m ->
    (forall n, sec_in_order E ecu hw (h_ckd (w_env W n)) (h_cki (w_env W n)) (u_db (sn_ust (fs_snd (ip_sec s)))) m t) ->
    is_ostree t = false -> describes_image E t image -> (String.length image < fuel)%nat ->
    exists s1 s2, put_metadata savec loadc E stale ecu hw sigs W d s = (s1, Ok (result kOk)) /\
      send_firmware savec loadc E stale ecu hw sigs W fuel t creds image s1 = (s2, Some (result kOk)).
(** The answer to an upload was lost. The Primary starts again from the first byte, the Secondary has the file already. *)
Definition left_over : fsec := fst (ip_handle good_env (QUpload "image01") (ip_start (sec0 ip_db))).
Lemma left_over_run : sec_run sv ld IE no_stale "ecu1" "hw1" no_sigs false [] left_over.
Proof.
  assert (B : installed_by sv IE no_stale "ecu1" "hw1" no_sigs good_env (QUpload "image01") (ip_start (sec0 ip_db)) = []) by (vm_compute; reflexivity).
  pose proof (sr_req sv ld IE no_stale "ecu1" "hw1" no_sigs false [] (ip_start (sec0 ip_db)) good_env (QUpload "image01")) as H. rewrite B in H.
  apply H; [apply sr_start, sec0_run|exact good_noticed|constructor].
Qed.
Lemma refuse (p : ipst * res ires) (f : ipst -> ipst * option ires) :
  (match p with (s1, Ok _) => match f s1 with (_, Some r) => negb (ir_success r) | _ => true end | _ => true end) = true ->
  ~ exists s1 s2, p = (s1, Ok (result kOk)) /\ f s1 = (s2, Some (result kOk)).
Proof. intros H (s1 & s2 & -> & F). rewrite F in H. discriminate. Qed.
Theorem C92_refuted : ~ C92_statement.
Proof.
  intros H. specialize (H sv ld IE no_stale "ecu1" "hw1" no_sigs [] (at_first left_over) good_net ip_db ip_m app_t 10%nat "" "image01" left_over_run).
  revert H. cut (~ exists s1 s2, put_metadata sv ld IE no_stale "ecu1" "hw1" no_sigs good_net ip_db (at_first left_over) = (s1, Ok (result kOk)) /\
    send_firmware sv ld IE no_stale "ecu1" "hw1" no_sigs good_net 10 app_t "" "image01" s1 = (s2, Some (result kOk))).
  - intros N H. apply N, H.
    + vm_compute. reflexivity.
    + exact good_works.
    + repeat split; by_computation.
    + intros n. assert (D : u_db (sn_ust (fs_snd left_over)) = ip_db) by (vm_compute; reflexivity). cbn [ip_sec at_first]. rewrite D. exact in_order_same.
    + reflexivity.
    + exact app_image.
    + simpl. lia.
  - apply refuse. vm_compute. reflexivity.
Qed.
Print Assumptions C92_refuted.
(** It stays like that: as long as [t] is the target, whatever the Primary sends (it does not ask for the installation of an image that
    it could not transfer), however often the Secondary is restarted: no upload is accepted any more. *)
Theorem C92_leftover_partial savec loadc E stale ecu hw sigs t s s' h d :
  blocked t s -> only t s -> goes savec loadc E stale ecu hw sigs harmless (only t) s s' ->
  snd (IpModel.handle savec E stale ecu hw sigs h (QUpload d) s') <> Some (PUpload kOk).
Proof.
  intros B O G. destruct (blocked_forever savec loadc E stale ecu hw sigs t s s' G O B) as (O' & B').
  destruct (blocked_handle savec E stale ecu hw sigs t h (QUpload d) s' I O' B') as (_ & K). exact (K d eq_refl).
Qed.
Print Assumptions C92_leftover_partial.
Example C92_leftover_case : blocked app_t left_over /\ only app_t left_over /\ goes sv ld IE no_stale "ecu1" "hw1" no_sigs harmless (only app_t) left_over (fst (ip_handle good_env (QPutMeta2 (put_of ip_m)) left_over)).
Proof.
  assert (P : forall s, sn_pending (fs_snd s) = Some app_t -> only app_t s) by (intros s H t' K; congruence).
  split; [exists "image01"; split; [vm_compute; reflexivity|vm_compute; discriminate]|]. split; [apply P; vm_compute; reflexivity|].
  unfold ip_handle at 1. set (x := fst (IpModel.handle sv IE no_stale "ecu1" "hw1" no_sigs good_env (QPutMeta2 (put_of ip_m)) left_over)).
  assert (Px : only app_t x) by (apply P; vm_compute; reflexivity).
  exact (go_req sv ld IE no_stale "ecu1" "hw1" no_sigs harmless (only app_t) left_over x good_env (QPutMeta2 (put_of ip_m)) I Px (go_refl sv ld IE no_stale "ecu1" "hw1" no_sigs harmless (only app_t) x)).
Qed.
(** A Secondary that missed two Roots is lost as well: the Primary sends the newest Root only. The Secondary trusts version [v] of the
    Director's Root; every metadata message has a newer one than [v + 1]. Then all are refused and the Root stays the same. *)
Theorem C92_behind_partial savec loadc E stale ecu hw sigs raw0 R0 s s' h p c :
  self_signed_root E raw0 R0 -> 0 <= rt_version R0 < 999 -> trusts raw0 s ->
  goes savec loadc E stale ecu hw sigs (root_after E (rt_version R0 + 1)) (fun _ => True) s s' ->
  root_after E (rt_version R0 + 1) (QPutMeta2 p) -> snd (IpModel.handle savec E stale ecu hw sigs h (QPutMeta2 p) s') = Some (PPutMeta2 c) ->
  c = kVerificationFailed /\ trusts raw0 s'.
Proof.
  intros S0 V T G Q H. pose proof (behind_forever savec loadc E stale ecu hw sigs raw0 R0 s s' S0 V T G) as T'. split; [|exact T'].
  destruct (trusts_handle savec E stale ecu hw sigs raw0 R0 h (QPutMeta2 p) s' S0 V Q T') as (_ & K). exact (K p c eq_refl H).
Qed.
Print Assumptions C92_behind_partial.
Definition new_m : docs := {| m_droot := "R3"; m_dtargets := "DI"; m_iroot := "R1"; m_itime := "TSI"; m_isnap := "SNI"; m_itargets := "TGI" |}.
Example C92_behind_case : self_signed_root IE "R1" (rt_of IE "R1") /\ rt_version (rt_of IE "R1") = 1 /\ trusts "R1" (ip_start (sec0 ip_db)) /\
  root_after IE 2 (QPutMeta2 (put_of new_m)) /\ snd (ip_handle good_env (QPutMeta2 (put_of new_m)) (ip_start (sec0 ip_db))) = Some (PPutMeta2 kVerificationFailed).
Proof.
  split; [split; [apply rt_of_doc; by_computation|apply accept_root; by_computation]|]. split; [by_computation|]. split; [repeat split; vm_compute; reflexivity|]. split; [|vm_compute; reflexivity].
  intros p H. injection H as <-. exists new_m, 3, 1. split; [reflexivity|]. split; [by_computation|]. split; [by_computation|lia].
Qed.
(** Without a leftover file: the update succeeds, in particular the image is installed under the right name, and the Secondary is ready
    for the next one. [sec_in_order] asks that the Roots sent follow those stored. *)
Theorem C92_partial savec loadc E stale ecu hw sigs W d m t fuel creds image s :
  works W -> alive (ip_sec s) = true -> stored_docs d m ->
  (forall n, sec_in_order E ecu hw (h_ckd (w_env W n)) (h_cki (w_env W n)) (u_db (sn_ust (fs_snd (ip_sec s)))) m t) ->
  a_size (fs_ag (ip_sec s)) = 0 -> is_ostree t = false -> describes_image E t image -> (String.length image < fuel)%nat ->
  exists s1 s2 s3, put_metadata savec loadc E stale ecu hw sigs W d s = (s1, Ok (result kOk)) /\
    send_firmware savec loadc E stale ecu hw sigs W fuel t creds image s1 = (s2, Some (result kOk)) /\
    ip_install savec loadc E stale ecu hw sigs W t s2 = (s3, result kOk) /\
    alive (ip_sec s3) = true /\ a_target (fs_ag (ip_sec s3)) = Some image /\ a_name (fs_ag (ip_sec s3)) = t_filename t /\ a_size (fs_ag (ip_sec s3)) = 0.
Proof. intros H1 H2 H3. apply (update_works savec loadc E stale ecu hw sigs W d m t fuel creds image s H1 H2). now apply get_metadata_stored. Qed.
Print Assumptions C92_partial.
Example C92_case : let s := at_first (ip_start (sec0 ip_db)) in
  works good_net /\ alive (ip_sec s) = true /\ stored_docs ip_db ip_m /\
  (forall n, sec_in_order IE "ecu1" "hw1" (h_ckd (w_env good_net n)) (h_cki (w_env good_net n)) (u_db (sn_ust (fs_snd (ip_sec s)))) ip_m app_t) /\
  a_size (fs_ag (ip_sec s)) = 0 /\ is_ostree app_t = false /\ describes_image IE app_t "image01" /\ sound_version sv ld IE no_stale app_t /\ assigned IE "ecu1" "hw1" ip_db app_t /\
  sec_run sv ld IE no_stale "ecu1" "hw1" no_sigs false [] (ip_sec s).
Proof.
  cbv zeta. split; [exact good_works|]. split; [vm_compute; reflexivity|]. split; [repeat split; by_computation|]. split.
  { intros n. assert (D : u_db (sn_ust (fs_snd (ip_sec (at_first (ip_start (sec0 ip_db)))))) = ip_db) by (vm_compute; reflexivity). rewrite D. exact in_order_same. }
  split; [vm_compute; reflexivity|]. split; [reflexivity|]. split; [exact app_image|]. split; [exact app_sound|]. split; [exact app_assigned|]. apply sr_start, sec0_run.
Qed.

(** ** C93: the manifest is about the last installed target *)
Definition C93_statement : Prop :=
  forall savec loadc E stale ecu hw sigs t l s W s' m,
    sec_run savec loadc E stale ecu hw sigs true (t :: l) (ip_sec s) -> all_noticed W -> get_manifest savec loadc E stale ecu hw sigs W s = (s', m) -> m <> JNull ->
    exists c, matches_target E t c /\ says ecu m (t_filename t) (t_length t) (to_lower (sha256hex E c)).
(** The Secondary is killed after it has put the new image in place and before it has recorded that; started again, it reports the new
    image under the old name. *)
Definition torn : fsec := ip_start (kill_sec 0 true (fst (ip_handle good_env (QInstall "app") left_over))).
Lemma torn_run : sec_run sv ld IE no_stale "ecu1" "hw1" no_sigs true [app_t] torn.
Proof.
  assert (R : sec_run sv ld IE no_stale "ecu1" "hw1" no_sigs true [] left_over).
  { assert (B : installed_by sv IE no_stale "ecu1" "hw1" no_sigs good_env (QUpload "image01") (ip_start (sec0 ip_db)) = []) by (vm_compute; reflexivity).
    pose proof (sr_req sv ld IE no_stale "ecu1" "hw1" no_sigs true [] (ip_start (sec0 ip_db)) good_env (QUpload "image01")) as H. rewrite B in H.
    apply H; [apply sr_start, sec0_run|exact good_noticed|constructor]. }
  assert (B : installed_by sv IE no_stale "ecu1" "hw1" no_sigs good_env (QInstall "app") left_over = [app_t]) by (vm_compute; reflexivity).
  apply sr_start. pose proof (sr_kill sv ld IE no_stale "ecu1" "hw1" no_sigs true [] left_over good_env (QInstall "app") 0 true R good_noticed) as H. rewrite B in H.
  apply H; [constructor; [exact app_sound|constructor]|reflexivity].
Qed.
Lemma misnamed (p : ipst * json) : (match jpath ["signed"; "installed_image"; "filepath"] (snd p) with Ok (JStr n) => negb (String.eqb n "app") | _ => true end) = true ->
  forall s' m ecu' len sha, p = (s', m) -> ~ says ecu' m "app" len sha.
Proof. intros H s' m ecu' len sha -> (_ & X & _). cbn [snd] in H. rewrite X in H. discriminate. Qed.
Theorem C93_refuted : ~ C93_statement.
Proof.
  intros H. set (p := get_manifest sv ld IE no_stale "ecu1" "hw1" no_sigs good_net (at_first torn)). assert (Ep : p = (fst p, snd p)) by (destruct p; reflexivity).
  destruct (H sv ld IE no_stale "ecu1" "hw1" no_sigs app_t [] (at_first torn) good_net (fst p) (snd p)) as (c & _ & S).
  - exact torn_run.
  - exact good_all_noticed.
  - exact Ep.
  - vm_compute. discriminate.
  - revert S. change (t_filename app_t) with "app". apply (misnamed p) with (s' := fst p); [vm_compute; reflexivity|exact Ep].
Qed.
Print Assumptions C93_refuted.
(** In every history without such a kill the manifest is right. *)
Theorem C93_partial savec loadc E stale ecu hw sigs t l s W s' m :
  sec_run savec loadc E stale ecu hw sigs false (t :: l) (ip_sec s) -> get_manifest savec loadc E stale ecu hw sigs W s = (s', m) -> m <> JNull ->
  exists c, matches_target E t c /\ says ecu m (t_filename t) (t_length t) (to_lower (sha256hex E c)).
Proof.
  intros R G N. pose proof (run_inv _ _ _ _ _ _ _ _ _ _ R) as [Ne _ (_ & Te) _ Im]. destruct (Im t l eq_refl) as ((c & C1 & C2 & C3) & Nm). destruct (Nm eq_refl) as (N1 & N2).
  exists c. split; [exact C3|]. rewrite <- C2. eapply keeps_manifest; [|exact G|exact N]. repeat split; eauto.
Qed.
Print Assumptions C93_partial.
(** With such kills only the name may be wrong: length and hash are those of an image of the last installed target. *)
Theorem C93_image_partial savec loadc E stale ecu hw sigs t l s W s' m :
  sec_run savec loadc E stale ecu hw sigs true (t :: l) (ip_sec s) -> all_noticed W -> get_manifest savec loadc E stale ecu hw sigs W s = (s', m) -> m <> JNull ->
  exists c name, matches_target E t c /\ says ecu m name (t_length t) (to_lower (sha256hex E c)).
Proof.
  intros R Hn G N. pose proof (get_manifest_run savec loadc E stale ecu hw sigs true (t :: l) W s R Hn ltac:(discriminate)) as R'. rewrite G in R'. cbn [fst] in R'.
  apply get_manifest_answer in G; [|exact N]. apply manifest_answer in G. subst m.
  pose proof (run_inv _ _ _ _ _ _ _ _ _ _ R') as [_ _ _ _ Im]. destruct (Im t l eq_refl) as ((c & C1 & C2 & C3) & _).
  exists c, (a_name (fs_ag (ip_sec s'))). split; [exact C3|]. rewrite <- C2. now apply manifest_says.
Qed.
Print Assumptions C93_image_partial.
Example C93_case : let s := fst (ip_handle good_env (QInstall "app") left_over) in
  sec_run sv ld IE no_stale "ecu1" "hw1" no_sigs false [app_t] s /\
  exists s' m, get_manifest sv ld IE no_stale "ecu1" "hw1" no_sigs good_net (at_first s) = (s', m) /\ m <> JNull.
Proof.
  cbv zeta. split.
  - assert (B : installed_by sv IE no_stale "ecu1" "hw1" no_sigs good_env (QInstall "app") left_over = [app_t]) by (vm_compute; reflexivity).
    pose proof (sr_req sv ld IE no_stale "ecu1" "hw1" no_sigs false [] left_over good_env (QInstall "app") left_over_run good_noticed) as H. rewrite B in H.
    apply H. constructor; [exact app_sound|constructor].
  - set (p := get_manifest _ _ _ _ _ _ _ _ _). exists (fst p), (snd p). split; [destruct p; reflexivity|vm_compute; discriminate].
Qed.

(** ** C94: the protocol version *)
(** A Secondary that speaks version 2 and can be reached is not taken for one that speaks version 1. *)
Definition C94_statement : Prop :=
  forall savec loadc E stale ecu hw sigs W s, alive (ip_sec s) = true -> ip_ver s = 2 -> ip_ver (get_version savec loadc E stale ecu hw sigs W s) = 2.
(** The answer to the version request is lost, the one to the ping that follows is not. *)
Definition lossy_net : net := {| w_link := fun n => match n with O => LLost | _ => LAnswered end; w_env := fun _ => good_env; w_starts := fun _ => [] |}.
Theorem C94_refuted : ~ C94_statement.
Proof.
  intros H. specialize (H sv ld IE no_stale "ecu1" "hw1" no_sigs lossy_net {| ip_ver := 2; ip_sec := ip_start (sec0 ip_db); ip_n := 0 |} ltac:(vm_compute; reflexivity) eq_refl).
  vm_compute in H. discriminate.
Qed.
Print Assumptions C94_refuted.
(** As version 1 is assumed then, the metadata that follow are refused, whatever they are. *)
Theorem C94_version1_fails_partial savec loadc E stale ecu hw sigs W d s s' r :
  ip_ver (get_version savec loadc E stale ecu hw sigs W s) = 1 -> put_metadata savec loadc E stale ecu hw sigs W d s = (s', Ok r) -> ir_success r = false.
Proof.
  intros V H. destruct (ir_success r) eqn:S; [|reflexivity]. destruct (put_v1_fails savec loadc E stale ecu hw sigs W d s s' r V H S).
Qed.
Print Assumptions C94_version1_fails_partial.
(** The version is right whenever the version request is answered, whatever was assumed before; and if neither request is answered
    then the Primary keeps to what it knows. *)
Theorem C94_partial savec loadc E stale ecu hw sigs W s :
  (w_link W (ip_n s) = LAnswered -> alive (ip_sec s) = true \/ w_starts W (ip_n s) <> [] -> table_ok savec loadc ecu hw (fs_idb (ip_sec s)) ->
   ip_ver (get_version savec loadc E stale ecu hw sigs W s) = 2) /\
  (w_link W (ip_n s) <> LAnswered -> w_link W (S (ip_n s)) <> LAnswered -> ip_ver (get_version savec loadc E stale ecu hw sigs W s) = ip_ver s).
Proof. split; [apply version_answered|apply version_kept]. Qed.
Print Assumptions C94_partial.
Example C94_case : alive (ip_start (sec0 ip_db)) = true /\ table_ok sv ld "ecu1" "hw1" (fs_idb (ip_start (sec0 ip_db))) /\
  ip_ver (get_version sv ld IE no_stale "ecu1" "hw1" no_sigs lossy_net {| ip_ver := 2; ip_sec := ip_start (sec0 ip_db); ip_n := 0 |}) = 1 /\
  ip_ver (get_version sv ld IE no_stale "ecu1" "hw1" no_sigs good_net {| ip_ver := 1; ip_sec := ip_start (sec0 ip_db); ip_n := 0 |}) = 2.
Proof. split; [vm_compute; reflexivity|]. split; [split; [exact idb1_reach|reflexivity]|]. split; vm_compute; reflexivity. Qed.
