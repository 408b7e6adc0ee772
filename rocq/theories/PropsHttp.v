(** C134-C138: the HTTP client. *)
From Verif Require Import Base CodecModel CodecSpec HttpModel HttpSpec HttpProofs.

(** C134: however the server answers, the body handed to the caller is never longer than the limit, and a transfer that is
    reported to have worked delivered the whole document of the last request. *)
Theorem C134 : forall limit srv r k, perform limit srv 0 retry_times = (r, k) ->
  (0 < limit -> Z.of_nat (String.length (rs_body r)) <= limit) /\
  (rs_curl r = 0 -> rs_body r = document (srv (k - 1)%nat) /\ rs_status r = at_status (srv (k - 1)%nat)).
Proof.
  intros limit srv r k H. pose proof (perform_spec limit srv retry_times 0) as P. rewrite H in P.
  destruct P as (_ & -> & _ & _). destruct (transfer_spec limit (srv (k - 1)%nat)) as (T1 & T2 & _ & T4). cbv zeta in *.
  split; [exact T2|]. intros E. split; [exact (T4 E)|exact T1].
Qed.

(** C135: a request is made at most three times, again only after an attempt that brought no answer; the caller gets the
    first answer among the three attempts, and an error only when none of them brought one. *)
Theorem C135 : forall limit srv r k, perform limit srv 0 retry_times = (r, k) ->
  (1 <= k <= 3)%nat /\
  (forall i, (i < k - 1)%nat -> ~ answers limit (srv i)) /\
  (k = 3%nat \/ answers limit (srv (k - 1)%nat)) /\
  (is_ok_response r = true <->
     exists i, (i < 3)%nat /\ (forall j, (j < i)%nat -> ~ answers limit (srv j)) /\ arrives limit (srv i) /\
       200 <= at_status (srv i) < 400 /\ rs_body r = document (srv i) /\ i = (k - 1)%nat).
Proof.
  intros limit srv r k H. pose proof (perform_spec limit srv retry_times 0) as P. rewrite H in P.
  destruct P as (P1 & P2 & P3 & P4). unfold retry_times in *.
  destruct (transfer_spec limit (srv (k - 1)%nat)) as (T1 & _ & T3 & T4). cbv zeta in *. rewrite <- P2 in *.
  split; [lia|]. split; [intros i Hi; apply P3; lia|]. split; [destruct P4 as [->|P4]; [left; lia|right; exact P4]|].
  unfold is_ok_response, curle_ok. rewrite !andb_true_iff, Z.eqb_eq, Z.leb_le, Z.ltb_lt. split.
  - intros [[E1 E2] E3]. exists (k - 1)%nat. split; [lia|]. split; [intros j Hj; apply P3; lia|].
    split; [apply T3; exact E1|]. split; [lia|]. split; [exact (T4 E1)|reflexivity].
  - intros (i & Hi & Hj & Ha & Hs & _ & ->). rewrite T1. split; [split; [apply T3; exact Ha|lia]|lia].
Qed.

(** A response that counts as success need not carry the document that was asked for: redirections are successes, too, and
    are not followed by get. *)
Definition C135_document_statement : Prop :=
  forall limit srv r k, perform limit srv 0 retry_times = (r, k) -> is_ok_response r = true -> 200 <= rs_status r < 300.
Definition moved : attempt := {| at_announced := None; at_pieces := ["moved"]; at_status := 302; at_error := None |}.
Theorem C135_document_refuted : ~ C135_document_statement.
Proof.
  intros H. specialize (H 100 (fun _ => moved) {| rs_body := "moved"; rs_status := 302; rs_curl := 0 |} 1%nat eq_refl eq_refl).
  cbn in H. lia.
Qed.

(** C136: what is posted reaches the server as it was given, and the server acts on it at most once. *)
Definition C136_once_statement : Prop :=
  forall limit srv r k, perform limit srv 0 retry_times = (r, k) -> (times_acted srv k <= 1)%nat.
(** The server accepts, but its answer is lost. *)
Definition lost : attempt := {| at_announced := None; at_pieces := []; at_status := 200; at_error := Some 56%positive |}.
Theorem C136_once_refuted : ~ C136_once_statement.
Proof.
  intros H. destruct (perform 100 (fun _ => lost) 0 retry_times) as [r k] eqn:E.
  specialize (H 100 (fun _ => lost) r k E). vm_compute in E. injection E as _ <-. vm_compute in H. lia.
Qed.
(** At most three times; and at most once, as long as no answer of a server that acted is lost. *)
Theorem C136_once_partial : forall limit srv r k, perform limit srv 0 retry_times = (r, k) ->
  (times_acted srv k <= 3)%nat /\
  ((forall i, acted (srv i) = true -> arrives limit (srv i)) -> (times_acted srv k <= 1)%nat) /\
  (is_ok_response r = true -> rs_status r < 300 -> (1 <= times_acted srv k)%nat).
Proof.
  intros limit srv r k H. destruct (C135 limit srv r k H) as (K & F & _ & OK).
  assert (B : forall j, (times_acted srv j <= j)%nat).
  { induction j as [|j IH]; cbn [times_acted]; [lia|]. destruct (acted (srv j)); lia. }
  split; [specialize (B k); lia|]. split.
  - intros A. assert (Z0 : forall j, (j <= k - 1)%nat -> times_acted srv j = 0%nat).
    { induction j as [|j IH]; intros Hj; [reflexivity|]. cbn [times_acted]. rewrite IH by lia.
      destruct (acted (srv j)) eqn:E; [|reflexivity]. exfalso. apply (F j); [lia|].
      split; [exact (A j E)|]. unfold acted in E. apply andb_true_iff in E as [_ E]. apply Z.ltb_lt in E. lia. }
    destruct k as [|k]; [cbn; lia|]. cbn [times_acted]. rewrite (Z0 k) by lia. destruct (acted (srv k)); lia.
  - intros E L. assert (S1 : rs_status r = at_status (srv (k - 1)%nat)).
    { destruct (C134 limit srv r k H) as [_ D]. apply D. unfold is_ok_response, curle_ok in E.
      rewrite !andb_true_iff, Z.eqb_eq in E. tauto. }
    apply OK in E as (i & _ & _ & _ & Hs & _ & ->).
    destruct k as [|k]; [lia|]. replace (S k - 1)%nat with k in * by lia. cbn [times_acted].
    assert (A : acted (srv k) = true) by (unfold acted; apply andb_true_iff; split; [apply Z.leb_le|apply Z.ltb_lt]; lia).
    rewrite A. lia.
Qed.

Definition C136_content_statement : Prop :=
  forall m h url t d, (m = MPost \/ m = MPut) -> rq_body (send_request m h url t d) = d.
(** Contents are passed as C strings. *)
Theorem C136_content_refuted : ~ C136_content_statement.
Proof.
  intros H. specialize (H MPut (new_client []) "u" "t" (String "a" (String "000" (String "b" ""))) (or_intror eq_refl)).
  vm_compute in H. discriminate.
Qed.
Theorem C136_content_partial : forall m h url t d, (forall a b, d <> append a (String "000" b)) ->
  rq_body (send_request m h url t d) = d.
Proof.
  intros m h url t d. cbn [send_request rq_body]. induction d as [|c d IH]; intros H; [reflexivity|]. cbn [c_str].
  destruct (Ascii.eqb c "000") eqn:E.
  - apply Ascii.eqb_eq in E. subst c. exfalso. exact (H "" d eq_refl).
  - rewrite IH; [reflexivity|]. intros a b ->. exact (H (String c a) b eq_refl).
Qed.

(** C137: every request uses the certificates, the proxy with its login, the bandwidth limit and the OCSP setting that were
    set last, whatever was set before and however often the client was reset in between. *)
Definition C137_statement : Prop :=
  forall extra cs r, ca_in_files cs -> made_by (client_after extra cs) r -> uses_settings cs r /\ uses_ocsp cs r.
(** Downloads ignore the OCSP setting. *)
Theorem C137_ocsp_refuted : ~ C137_statement.
Proof.
  intros H. destruct (H [] [SetOcsp true] (download_request (client_after [] [SetOcsp true]) "u")) as [_ K].
  - intros c [E|[]]. discriminate.
  - right. right. exists "u". reflexivity.
  - vm_compute in K. discriminate.
Qed.
(** A user name without a password is not sent to the proxy. *)
Theorem C137_refuted : ~ (forall extra cs r, ca_in_files cs -> made_by (client_after extra cs) r -> uses_settings cs r).
Proof.
  intros H. pose (cs := [SetProxy "http://p:3128"; SetCredentials "user" ""]).
  destruct (H [] cs (get_request (client_after [] cs) "u" 10)) as (_ & _ & K & _).
  - intros c [E|[E|[]]]; discriminate.
  - left. exists "u", 10. reflexivity.
  - vm_compute in K. destruct K as (t & K & _). discriminate.
Qed.
(** Apart from these two, it holds. *)
Theorem C137_partial : forall extra cs r, ca_in_files cs -> made_by (client_after extra cs) r ->
  (forall u, the_login cs <> Some (u, "")) ->
  uses_settings cs r /\ (rq_method r <> MDownload -> uses_ocsp cs r).
Proof.
  intros extra cs r Hca Hm Hl. pose proof (settings_after extra cs Hca) as S.
  destruct (made_by_opts _ _ Hm) as (M1 & M2 & M3 & M4 & M5). destruct (proxy_used cs _ S) as (P1 & P2 & P3).
  destruct S as (S1 & _ & _ & _ & S5 & _).
  split.
  - unfold uses_settings. rewrite M1, M2, M3, M4. split; [exact S1|]. split; [exact P1|]. split; [exact (P2 Hl)|exact P3].
  - intros Hd. unfold uses_ocsp. rewrite (M5 Hd). exact S5.
Qed.
(** updateHeader replaces the first header of that name and no other, and every get, post and put sends all headers. *)
Theorem C137_header : forall h name value h' b, update_header name value h = (h', b) ->
  (b = true -> exists l x l', cl_headers h = l ++ x :: l' /\ String.prefix (append name ": ") x = true /\
     cl_headers h' = l ++ append (append name ": ") value :: l' /\
     forall r, made_by h' r -> rq_method r <> MDownload -> In (append (append name ": ") value) (rq_headers r)) /\
  (b = false -> h' = h /\ forall x, In x (cl_headers h) -> String.prefix (append name ": ") x = false).
Proof.
  intros h name value h' b. unfold update_header. destruct (update_first _ _ _) as [l c] eqn:U. intros [= <- <-].
  apply update_first_spec in U as [(-> & l1 & x & l2 & E & P & _ & ->)|(-> & -> & F)].
  - split; [|discriminate]. intros _. exists l1, x, l2. split; [exact E|]. split; [exact P|].
    cbn [cl_headers]. split; [reflexivity|]. intros r [(u & n & ->)|[(m & u & t & d & _ & ->)|(u & ->)]] Hd.
    + cbn [get_request rq_headers cl_headers]. apply in_or_app. right. now left.
    + cbn [send_request rq_headers cl_headers]. apply in_or_app. left. apply in_or_app. right. now left.
    + cbn [download_request rq_method] in Hd. congruence.
  - split; [discriminate|]. intros _. split; [now destruct h|]. intros x Hx. now apply (proj1 (Forall_forall _ _) F).
Qed.
(** Downloads send none of them. *)
Theorem C137_header_refuted : ~ (forall h r, made_by h r -> forall x, In x (cl_headers h) -> In x (rq_headers r)).
Proof.
  intros H. pose (h := new_client ["x-token: 1"]).
  apply (H h (download_request h "u") (or_intror (or_intror (ex_intro _ "u" eq_refl))) "x-token: 1").
  right. now left.
Qed.

(** C138: changing the bandwidth with a restart of the running download (which resets the client from another thread) never
    leads to undefined behaviour. *)
Definition C138_statement : Prop := forall pieces code ws, rc_undef (race_run pieces code ws) = false.
(** The handle the download uses is freed under it. *)
Theorem C138_refuted : ~ C138_statement.
Proof.
  intros H. specialize (H 3%nat 0 [Downloader; Downloader; Resetter; Resetter; Resetter; Downloader]).
  vm_compute in H. discriminate.
Qed.
(** Not by bad luck: once the handle was released while the download was still going on, the download cannot end without. *)
Theorem C138_always_undefined : forall pieces code ws1 ws2 c,
  rc_freed (race_run pieces code ws1) = true -> past_info (rc_d (race_run pieces code ws1)) = false ->
  rc_d (race_run pieces code (ws1 ++ ws2)) = DEnd c ->
  rc_undef (race_run pieces code (ws1 ++ ws2)) = true.
Proof.
  intros pieces code ws1 ws2 c Hf Hp He.
  assert (D : doomed (race_run pieces code (ws1 ++ ws2))).
  { rewrite race_run_app. apply doomed_run. right. split; [now apply freed_curlp|exact Hp]. }
  destruct D as [D|[_ D]]; [exact D|]. rewrite He in D. discriminate.
Qed.
(** And that is the only way: otherwise all is defined, and the download ends with curl's result or as interrupted. *)
Theorem C138_partial : forall pieces code ws,
  (forall ws1 ws2, ws = ws1 ++ ws2 -> rc_freed (race_run pieces code ws1) = true -> past_info (rc_d (race_run pieces code ws1)) = true) ->
  rc_undef (race_run pieces code ws) = false /\
  (forall c, rc_d (race_run pieces code ws) = DEnd c ->
     c = code \/ c = curle_aborted /\ rc_flag (race_run pieces code ws) = true).
Proof.
  intros pieces code ws H.
  assert (K : rc_undef (race_run pieces code ws) = false /\
    (rc_curlp (race_run pieces code ws) = negb (rc_freed (race_run pieces code ws))) /\
    match rc_d (race_run pieces code ws) with
    | DInfo c | DCheck c => c = code
    | DEnd c => c = code \/ c = curle_aborted /\ rc_flag (race_run pieces code ws) = true
    | _ => True
    end).
  { induction ws as [|w ws IH] using rev_ind.
    - split; [reflexivity|]. split; [reflexivity|exact Logic.I].
    - assert (H' : forall ws1 ws2, ws = ws1 ++ ws2 -> rc_freed (race_run pieces code ws1) = true ->
        past_info (rc_d (race_run pieces code ws1)) = true).
      { intros a b E. apply (H a (b ++ [w])). rewrite E, app_assoc. reflexivity. }
      specialize (IH H'). specialize (H ws [w] eq_refl). rewrite race_run_app. cbn [fold_left].
      set (s := race_run pieces code ws) in *. clearbody s. destruct IH as (I1 & I2 & I3).
      destruct w; unfold race_step.
      + destruct (rc_d s) as [|n|c|c|c] eqn:Ed; cbn [rc_undef rc_curlp rc_freed rc_d rc_flag past_info] in *.
        * split; [exact I1|]. split; [exact I2|]. destruct (rc_freed s); [discriminate (H eq_refl)|].
          rewrite I2. exact Logic.I.
        * destruct (rc_freed s); [discriminate (H eq_refl)|]. split; [now rewrite I1|]. split; [exact I2|].
          destruct n; [reflexivity|exact Logic.I].
        * destruct (rc_freed s); [discriminate (H eq_refl)|]. split; [now rewrite I1, I2|]. split; [exact I2|exact I3].
        * split; [exact I1|]. split; [exact I2|]. destruct (rc_flag s); [right; auto|left; exact I3].
        * split; [exact I1|]. split; [exact I2|]. rewrite Ed. exact I3.
      + destruct (rc_r s); cbn [rc_undef rc_curlp rc_freed rc_d rc_flag past_info] in *.
        * split; [exact I1|]. split; [exact I2|exact I3].
        * split; [exact I1|]. split; [exact I2|]. destruct (rc_d s); try exact I3. destruct I3 as [->|[-> _]]; auto.
        * split; [exact I1|]. split; [reflexivity|exact I3].
        * split; [exact I1|]. split; [exact I2|exact I3]. }
  destruct K as (K1 & _ & K3). split; [exact K1|]. intros c E. rewrite E in K3. exact K3.
Qed.

(** ** Cases *)
Definition busy : attempt := {| at_announced := None; at_pieces := ["try later"]; at_status := 503; at_error := None |}.
Definition huge : attempt := {| at_announced := None; at_pieces := ["0123456789"; "0123456789"]; at_status := 200; at_error := None |}.
Definition fine : attempt := {| at_announced := Some 7; at_pieces := ["abc"; "defg"]; at_status := 200; at_error := None |}.
Example C134_case : perform 15 (fun n => match n with O => busy | S O => huge | _ => fine end) 0 retry_times =
  ({| rs_body := "abcdefg"; rs_status := 200; rs_curl := 0 |}, 3%nat).
Proof. vm_compute. reflexivity. Qed.
Example C134_cut : perform 15 (fun _ => huge) 0 retry_times = ({| rs_body := "0123456789"; rs_status := 200; rs_curl := 23 |}, 3%nat).
Proof. vm_compute. reflexivity. Qed.
Example C135_case : answers 15 fine /\ ~ answers 15 huge /\ ~ answers 15 busy /\ answers 0 huge.
Proof.
  split; [split; [split; [reflexivity|]|cbn; lia]|].
  { intros _. split; [cbn; lia|]. intros n [= <-]. lia. }
  split; [intros [[_ H] _]; destruct (H ltac:(lia)) as [K _]; cbn in K; lia|].
  split; [intros [_ H]; cbn in H; lia|]. split; [split; [reflexivity|lia]|cbn; lia].
Qed.
Example C136_case : (forall i, acted ((fun n => match n with O => busy | _ => fine end) i) = true ->
  arrives 100 ((fun n => match n with O => busy | _ => fine end) i)) /\
  times_acted (fun n => match n with O => busy | _ => fine end) 2 = 1%nat.
Proof.
  split; [|reflexivity]. intros [|i]; [discriminate|]. intros _. split; [reflexivity|]. cbn. split; [lia|]. intros n [= <-]. lia.
Qed.
Definition a_cert : certs := {| ct_ca := "ca"; ct_ca_p11 := false; ct_cert := "id"; ct_cert_p11 := true; ct_key := "k"; ct_key_p11 := true |}.
Definition a_history : list call :=
  [SetCerts a_cert; SetProxy "http://p:3128"; SetBandwidth 5; SetCredentials "a:b" "c%d"; Reset; SetOcsp true; SetBandwidth 0; Reset].
Example C137_case : ca_in_files a_history /\ (forall u, the_login a_history <> Some (u, "")) /\
  the_login a_history = Some ("a:b", "c%d") /\
  rq_proxy_login (get_request (client_after [] a_history) "u" 1) = Some "a%3Ab:c%25d" /\
  rq_tls (download_request (client_after [] a_history) "u") = Some a_cert.
Proof.
  split. { intros c [[= <-]|H]; [reflexivity|]. repeat (destruct H as [H|H]; [discriminate|]). destruct H. }
  split; [intros u; vm_compute; discriminate|]. split; [vm_compute; reflexivity|]. split; vm_compute; reflexivity.
Qed.
Example C137_header_case : snd (update_header "x-token" "2" (new_client ["x-token: 1"])) = true.
Proof. vm_compute. reflexivity. Qed.
Example C138_case : rc_d (race_run 1 0 [Downloader; Downloader; Resetter; Downloader; Downloader; Resetter; Resetter; Downloader]) = DEnd curle_aborted
  /\ rc_undef (race_run 1 0 [Downloader; Downloader; Resetter; Downloader; Downloader; Resetter; Resetter; Downloader]) = false.
Proof. split; vm_compute; reflexivity. Qed.
Example C138_doomed_case : rc_freed (race_run 1 0 [Downloader; Resetter; Resetter; Resetter]) = true /\
  past_info (rc_d (race_run 1 0 [Downloader; Resetter; Resetter; Resetter])) = false /\
  rc_d (race_run 1 0 ([Downloader; Resetter; Resetter; Resetter] ++ [Downloader; Downloader; Downloader; Downloader])) = DEnd curle_aborted.
Proof. repeat split; vm_compute; reflexivity. Qed.

Print Assumptions C134.
Print Assumptions C135.
Print Assumptions C135_document_refuted.
Print Assumptions C136_once_refuted.
Print Assumptions C136_once_partial.
Print Assumptions C136_content_refuted.
Print Assumptions C136_content_partial.
Print Assumptions C137_ocsp_refuted.
Print Assumptions C137_refuted.
Print Assumptions C137_partial.
Print Assumptions C137_header.
Print Assumptions C137_header_refuted.
Print Assumptions C138_refuted.
Print Assumptions C138_always_undefined.
Print Assumptions C138_partial.
