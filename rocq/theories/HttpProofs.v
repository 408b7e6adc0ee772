From Verif Require Import Base CodecModel CodecSpec CodecProofs HttpModel HttpSpec.

Lemma append_length a b : String.length (append a b) = (String.length a + String.length b)%nat.
Proof. induction a as [|c a IH]; [reflexivity|]. cbn [append String.length]. rewrite IH. reflexivity. Qed.
Lemma append_assoc_s a b c : append (append a b) c = append a (append b c).
Proof. induction a as [|x a IH]; [reflexivity|]. cbn [append]. now rewrite IH. Qed.
Lemma append_nil_s a : append a "" = a.
Proof. induction a as [|x a IH]; [reflexivity|]. cbn [append]. now rewrite IH. Qed.
Lemma concat_cons p ps : String.concat "" (p :: ps) = append p (String.concat "" ps).
Proof. destruct ps; cbn [String.concat]; [now rewrite append_nil_s|reflexivity]. Qed.

Lemma receive_spec limit ps : forall out,
  (0 < limit -> slen out <= limit) ->
  let '(b, all) := receive limit out ps in
  (0 < limit -> slen b <= limit) /\
  (all = true <-> (0 < limit -> slen (append out (String.concat "" ps)) <= limit)) /\
  (all = true -> b = append out (String.concat "" ps)).
Proof.
  induction ps as [|p ps IH]; intros out Ho.
  - cbn [receive String.concat]. rewrite append_nil_s. split; [exact Ho|]. split; [split; auto|reflexivity].
  - cbn [receive]. rewrite concat_cons, <- append_assoc_s. unfold write_string.
    destruct (0 <? limit) eqn:L.
    + apply Z.ltb_lt in L. assert (E : slen out + slen p = slen (append out p)).
      { unfold slen. rewrite append_length. lia. }
      rewrite E. destruct (limit <? slen (append out p)) eqn:B.
      * apply Z.ltb_lt in B. split; [exact Ho|]. split; [|discriminate]. split; [discriminate|].
        intros H. specialize (H L). unfold slen in *. rewrite append_length in H. lia.
      * apply Z.ltb_ge in B. apply (IH (append out p)). auto.
    + apply Z.ltb_ge in L. apply (IH (append out p)). lia.
Qed.

Lemma transfer_spec limit a :
  let r := transfer limit a in
  rs_status r = at_status a /\
  (0 < limit -> slen (rs_body r) <= limit) /\
  (rs_curl r = 0 <-> arrives limit a) /\
  (rs_curl r = 0 -> rs_body r = document a).
Proof.
  cbv zeta. unfold transfer, arrives.
  assert (A : match at_announced a with Some n => (0 <? limit) && (limit <? n) | None => false end = true ->
              0 < limit /\ exists n, at_announced a = Some n /\ limit < n).
  { destruct (at_announced a) as [n|]; [|discriminate]. intros H. apply andb_true_iff in H as [H1 H2].
    apply Z.ltb_lt in H1, H2. eauto. }
  assert (A' : match at_announced a with Some n => (0 <? limit) && (limit <? n) | None => false end = false ->
              0 < limit -> forall n, at_announced a = Some n -> n <= limit).
  { intros H L n En. rewrite En in H. rewrite (proj2 (Z.ltb_lt _ _) L) in H. cbn [andb] in H. apply Z.ltb_ge in H. exact H. }
  destruct (match at_announced a with Some n => _ | None => false end).
  - destruct (A eq_refl) as (L & n & En & Ln). cbn [rs_status rs_body rs_curl]. unfold curle_filesize_exceeded.
    split; [reflexivity|]. split; [intros; unfold slen; cbn; lia|]. split; [|discriminate].
    split; [discriminate|]. intros [_ H]. destruct (H L) as [_ H']. specialize (H' n En). lia.
  - specialize (A' eq_refl). clear A.
    pose proof (receive_spec limit (at_pieces a) "" ltac:(intros; unfold slen; cbn; lia)) as R.
    destruct (receive limit "" (at_pieces a)) as [b all]. destruct R as (R1 & R2 & R3).
    change (append "" (String.concat "" (at_pieces a))) with (document a) in *. cbn [rs_status rs_body rs_curl].
    split; [reflexivity|]. split; [exact R1|]. destruct all.
    + split; [|intros; now apply R3]. destruct (at_error a) as [e|].
      * split; [discriminate|]. intros [H _]. discriminate.
      * split; [|reflexivity]. intros _. split; [reflexivity|]. intros L. split; [apply (proj1 R2 eq_refl L)|]. exact (A' L).
    + unfold curle_write_error. split; [|discriminate]. split; [discriminate|]. intros [_ H].
      assert (K : false = true); [|discriminate]. apply R2. intros L. exact (proj1 (H L)).
Qed.

Lemma failed_spec limit a :
  (negb (rs_curl (transfer limit a) =? curle_ok) || (500 <=? rs_status (transfer limit a)))%bool = false <-> answers limit a.
Proof.
  destruct (transfer_spec limit a) as (H1 & _ & H3 & _). cbv zeta in *. unfold answers.
  rewrite orb_false_iff, negb_false_iff, Z.eqb_eq, Z.leb_gt, H1, <- H3. reflexivity.
Qed.

Lemma perform_spec limit srv retries : forall n,
  let '(r, k) := perform limit srv n retries in
  (n < k <= n + S retries)%nat /\ r = transfer limit (srv (k - 1)%nat) /\
  (forall i, (n <= i < k - 1)%nat -> ~ answers limit (srv i)) /\
  (k = (n + S retries)%nat \/ answers limit (srv (k - 1)%nat)).
Proof.
  induction retries as [|m IH]; intros n; cbn [perform].
  - destruct (_ || _)%bool; cbn [fst].
    all: split; [lia|]; split; [f_equal; f_equal; lia|]; split; [intros; lia|]; left; lia.
  - destruct (negb (rs_curl (transfer limit (srv n)) =? curle_ok) || (500 <=? rs_status (transfer limit (srv n))))%bool eqn:E.
    + specialize (IH (S n)). destruct (perform limit srv (S n) m) as [r k]. destruct IH as (H1 & H2 & H3 & H4).
      split; [lia|]. split; [exact H2|]. split.
      * intros i Hi. destruct (Nat.eq_dec i n) as [->|]; [|apply H3; lia].
        rewrite <- failed_spec, E. discriminate.
      * destruct H4 as [->|H4]; [left; lia|right; exact H4].
    + apply failed_spec in E. split; [lia|]. split; [f_equal; f_equal; lia|]. split; [intros; lia|].
      right. replace (S n - 1)%nat with n by lia. exact E.
Qed.

(** Settings. *)
Definition settings_match (cs : list call) (h : client) : Prop :=
  cl_tls h = latest certs_of cs /\ cl_certs_in_use h = latest certs_of cs /\
  cl_proxy h = match latest proxy_of cs with Some p => p | None => "" end /\
  (cl_user h, cl_pwd h) = match latest login_of cs with Some x => x | None => ("", "") end /\
  cl_ocsp h = match latest ocsp_of cs with Some b => b | None => false end /\
  cl_bandwidth h = match latest bandwidth_of cs with Some n => n | None => 0 end.

Lemma latest_snoc {A} (f : call -> option A) cs c :
  latest f (cs ++ [c]) = match f c with Some a => Some a | None => latest f cs end.
Proof. unfold latest. rewrite fold_left_app. reflexivity. Qed.

Lemma latest_in {A} (f : call -> option A) cs a : latest f cs = Some a -> exists c, In c cs /\ f c = Some a.
Proof.
  induction cs as [|c cs IH] using rev_ind; [discriminate|]. rewrite latest_snoc. destruct (f c) as [b|] eqn:E.
  - intros [= ->]. exists c. split; [apply in_or_app; right; now left|exact E].
  - intros H. destruct (IH H) as (x & Hx & Ex). exists x. split; [apply in_or_app; now left|exact Ex].
Qed.

Lemma settings_after extra cs : ca_in_files cs -> settings_match cs (client_after extra cs).
Proof.
  induction cs as [|c cs IH] using rev_ind; intros Hca.
  - repeat split.
  - assert (Hca' : ca_in_files cs) by (intros x Hx; apply Hca; apply in_or_app; now left).
    specialize (IH Hca'). destruct IH as (H1 & H2 & H3 & H4 & H5 & H6).
    unfold client_after in *. rewrite fold_left_app. cbn [fold_left].
    set (h := fold_left do_call cs (new_client extra)) in *.
    unfold settings_match. rewrite !latest_snoc.
    destruct c; cbn [do_call certs_of proxy_of login_of ocsp_of bandwidth_of].
    + unfold set_certs. rewrite (Hca c) by (apply in_or_app; right; now left). cbn [fst cl_tls cl_certs_in_use cl_proxy cl_user cl_pwd cl_ocsp cl_bandwidth].
      auto 10.
    + cbn [set_proxy cl_tls cl_certs_in_use cl_proxy cl_user cl_pwd cl_ocsp cl_bandwidth]. auto 10.
    + cbn [set_credentials cl_tls cl_certs_in_use cl_proxy cl_user cl_pwd cl_ocsp cl_bandwidth]. auto 10.
    + cbn [set_ocsp cl_tls cl_certs_in_use cl_proxy cl_user cl_pwd cl_ocsp cl_bandwidth]. auto 10.
    + cbn [set_bandwidth cl_tls cl_certs_in_use cl_proxy cl_user cl_pwd cl_ocsp cl_bandwidth]. auto 10.
    + unfold update_header. destruct (update_first _ _ _) as [l b]. cbn [fst cl_tls cl_certs_in_use cl_proxy cl_user cl_pwd cl_ocsp cl_bandwidth]. auto 10.
    + unfold reset. destruct (cl_certs_in_use h) as [x|] eqn:E.
      * assert (Hx : ct_ca_p11 x = false).
        { symmetry in H2. destruct (latest_in _ _ _ H2) as (y & Hy & Ey). destruct y; try discriminate.
          injection Ey as ->. apply Hca'. exact Hy. }
        unfold set_certs. rewrite Hx. cbn [fst cl_tls cl_certs_in_use cl_proxy cl_user cl_pwd cl_ocsp cl_bandwidth].
        rewrite <- H2. auto 10.
      * cbn [cl_tls cl_certs_in_use cl_proxy cl_user cl_pwd cl_ocsp cl_bandwidth]. rewrite <- H2. auto 10.
Qed.

Lemma url_encode_no_colon s : split_first ":" (url_encode s) = None.
Proof.
  induction s as [|c s IH]; [reflexivity|]. cbn [url_encode]. destruct (url_plain c) eqn:E.
  - cbn [split_first]. rewrite IH. destruct (Ascii.eqb ":" c) eqn:Q.
    + apply Ascii.eqb_eq in Q. subst c. discriminate.
    + destruct (Ascii.eqb c ":") eqn:Q'; [|reflexivity]. apply Ascii.eqb_eq in Q'. subst c. discriminate.
  - cbn [split_first]. rewrite IH. clear IH E.
    destruct c as [[] [] [] [] [] [] [] []]; reflexivity.
Qed.

Lemma split_first_append a b : split_first ":" a = None -> split_first ":" (append a (String ":" b)) = Some (a, b).
Proof.
  induction a as [|c a IH]; [reflexivity|]. cbn [split_first append].
  destruct (Ascii.eqb _ _) eqn:E; [discriminate|].
  destruct (split_first ":" a) as [[x y]|]; [discriminate|]. intros _. now rewrite IH.
Qed.

Lemma login_read u p : logs_in (append (url_encode u) (String ":" (url_encode p))) u p.
Proof.
  exists (url_encode u), (url_encode p). split; [apply split_first_append; apply url_encode_no_colon|].
  split; apply url_round_trip.
Qed.

Lemma proxy_used cs h : settings_match cs h ->
  fst (opt_proxy h) = the_proxy cs /\
  ((forall u, the_login cs <> Some (u, "")) ->
   match the_login cs with
   | Some (u, p) => exists t, snd (opt_proxy h) = Some t /\ logs_in t u p
   | None => snd (opt_proxy h) = None
   end) /\ opt_speed h = the_speed cs.
Proof.
  intros (_ & _ & H3 & H4 & _ & H6). unfold opt_proxy, the_login, the_proxy, opt_speed, the_speed. rewrite H3, H6.
  destruct (latest proxy_of cs) as [p|].
  2:{ split; [reflexivity|]. split; [reflexivity|]. destruct (latest bandwidth_of cs); reflexivity. }
  destruct (String.eqb p ""); [split; [reflexivity|]; split; [reflexivity|]; destruct (latest bandwidth_of cs); reflexivity|].
  split; [reflexivity|]. split; [|destruct (latest bandwidth_of cs); reflexivity].
  cbn [snd]. destruct (latest login_of cs) as [[u w]|]; injection H4 as -> ->; [|reflexivity].
  destruct (String.eqb u ""); [reflexivity|]. intros Hne.
  destruct (String.eqb w "") eqn:W.
  - apply String.eqb_eq in W. subst w. exfalso. exact (Hne u eq_refl).
  - eexists. split; [reflexivity|]. apply login_read.
Qed.

Lemma made_by_opts h r : made_by h r ->
  rq_tls r = cl_tls h /\ rq_proxy r = fst (opt_proxy h) /\ rq_proxy_login r = snd (opt_proxy h) /\ rq_speed r = opt_speed h /\
  (rq_method r <> MDownload -> rq_ocsp r = cl_ocsp h).
Proof.
  intros [(u & n & ->)|[(m & u & t & d & _ & ->)|(u & ->)]]; repeat split; auto.
  cbn [download_request rq_method]. congruence.
Qed.

Lemma update_first_spec look v l : forall l' b, update_first look v l = (l', b) ->
  (b = true /\ exists a x z, l = a ++ x :: z /\ String.prefix look x = true /\
     Forall (fun y => String.prefix look y = false) a /\ l' = a ++ append look v :: z) \/
  (b = false /\ l' = l /\ Forall (fun y => String.prefix look y = false) l).
Proof.
  induction l as [|x l IH]; intros l' b; cbn [update_first].
  - intros [= <- <-]. right. auto.
  - destruct (String.prefix look x) eqn:E.
    + intros [= <- <-]. left. split; [reflexivity|]. exists [], x, l. auto.
    + destruct (update_first look v l) as [l2 b2] eqn:U. intros [= <- <-].
      destruct (IH _ _ eq_refl) as [(-> & a & y & z & -> & P & F & ->)|(-> & -> & F)].
      * left. split; [reflexivity|]. exists (x :: a), y, z. auto.
      * right. auto.
Qed.

(** The race. *)
Lemma race_run_app pieces code ws1 ws2 :
  race_run pieces code (ws1 ++ ws2) = fold_left (fun s w => race_step pieces code w s) ws2 (race_run pieces code ws1).
Proof. unfold race_run. apply fold_left_app. Qed.

Definition doomed (s : race) : Prop :=
  rc_undef s = true \/ (rc_curlp s = false /\ past_info (rc_d s) = false).
Lemma doomed_step pieces code w s : doomed s -> doomed (race_step pieces code w s).
Proof.
  intros [H|[H1 H2]]; destruct w; unfold race_step.
  - destruct (rc_d s); left; cbn [rc_undef]; try (rewrite H; reflexivity); exact H.
  - destruct (rc_r s); left; cbn [rc_undef]; exact H.
  - destruct (rc_d s) as [|n|c|c|c]; try discriminate H2.
    + right. cbn [rc_curlp rc_d]. rewrite H1. split; [reflexivity|reflexivity].
    + right. cbn [rc_curlp rc_d]. split; [exact H1|]. destruct n; reflexivity.
    + left. cbn [rc_undef]. rewrite H1. apply orb_true_r.
  - destruct (rc_r s); right; cbn [rc_curlp rc_d]; auto.
Qed.
Lemma doomed_run pieces code ws : forall s, doomed s -> doomed (fold_left (fun s w => race_step pieces code w s) ws s).
Proof. induction ws as [|w ws IH]; intros s H; [exact H|]. apply IH, doomed_step, H. Qed.

Lemma freed_curlp pieces code ws : rc_freed (race_run pieces code ws) = true -> rc_curlp (race_run pieces code ws) = false.
Proof.
  induction ws as [|w ws IH] using rev_ind; [discriminate|].
  rewrite race_run_app. cbn [fold_left]. set (s := race_run pieces code ws) in *. clearbody s.
  destruct w; unfold race_step.
  - destruct (rc_d s); cbn [rc_freed rc_curlp]; exact IH.
  - destruct (rc_r s); cbn [rc_freed rc_curlp]; try exact IH. reflexivity.
Qed.
