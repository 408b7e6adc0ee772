(** Proofs about the file update agent and the upload. *)
From Verif Require Import Base Json TufModel CodecModel DlModel DlSpec DlProofs SecFileModel SecFileSpec.

Lemma slen_app a b : String.length (append a b) = (String.length a + String.length b)%nat.
Proof. induction a; simpl; auto. Qed.
Lemma sapp_nil_r s : append s "" = s. Proof. induction s; simpl; congruence. Qed.
Lemma sapp_assoc a b c : append (append a b) c = append a (append b c). Proof. induction a; simpl; congruence. Qed.
Lemma slen_stake n : forall s, String.length (stake n s) = Nat.min n (String.length s).
Proof. induction n as [|n IH]; intros [|c s]; simpl; auto. Qed.
Lemma slen_sskip n : forall s, String.length (sskip n s) = (String.length s - n)%nat.
Proof. induction n as [|n IH]; intros [|c s]; simpl; auto. Qed.
Lemma stake_sskip n : forall s, append (stake n s) (sskip n s) = s.
Proof. induction n as [|n IH]; intros [|c s]; simpl; auto. now rewrite IH. Qed.
Lemma slen_0 s : String.length s = 0%nat -> s = "". Proof. destruct s; [auto|discriminate]. Qed.
Lemma stake_all n : forall s, (String.length s <= n)%nat -> stake n s = s.
Proof. induction n as [|n IH]; intros [|c s] H; simpl in *; auto; try lia. rewrite IH; [auto|lia]. Qed.

Section A.
Context (E : Env) (stale : htype -> string -> hash).

Definition inv (a : agent) : Prop := forall c h, a_new a = Some c -> a_hasher a = Some h -> hs_final h = false -> c <> "" ->
  (String.length (hs_data h) <= String.length c)%nat /\ (String.length (hs_data h) = String.length c -> c = hs_data h).

Lemma inv_restart a : inv (restart a).
Proof. intros c h _ H. discriminate. Qed.
Lemma receive_inv t d op w a : (forall k, w <> WLost k) -> inv a -> inv (fst (receive t d op w a)).
Proof.
  intros Hw I. unfold receive. destruct op; cbn [negb]; [|exact I].
  destruct (Z.leb_spec (t_length t) (a_size a)) as [L|L].
  { intros c h H1 H2 H3 H4. cbn [fst a_new a_hasher] in *. injection H1 as <-. destruct (a_new a) as [x|] eqn:N; [|now elim H4]. simpl in H4. exact (I x h N H2 H3 H4). }
  destruct ((a_size a =? 0) && _) eqn:B.
  { intros c h H1 H2 H3 H4. cbn [fst a_new a_hasher] in *. injection H1 as <-. destruct (a_new a) as [x|] eqn:N; [|now elim H4]. simpl in H4. exact (I x h N H2 H3 H4). }
  clear B. set (h0 := if a_size a =? 0 then make_hasher t else a_hasher a). set (old := content (a_new a)).
  assert (P : forall h, h0 = Some h -> hs_final h = false -> (String.length (hs_data h) <= String.length old)%nat /\ (String.length (hs_data h) = String.length old -> old = hs_data h)).
  { intros h Hh Hf. unfold h0 in Hh. destruct (Z.eqb_spec (a_size a) 0) as [Z0|Z0].
    - assert (old = "") as ->. { unfold old, a_size, content in *. destruct (a_new a); auto. apply slen_0. lia. }
      unfold make_hasher in Hh. destruct (t_hashes t) as [|x l]; [discriminate|]. destruct (h_type x); try discriminate; injection Hh as <-; simpl; auto.
    - unfold a_size, old, content in *. destruct (a_new a) as [x|] eqn:N; [|lia]. apply (I x h N Hh Hf). intros ->. simpl in Z0. lia. }
  assert (Q : forall h, h0 = Some h -> inv {| a_target := a_target a; a_new := Some (append old d); a_hasher := Some {| hs_type := hs_type h; hs_data := append (hs_data h) d; hs_final := hs_final h |}; a_name := a_name a |}).
  { intros h Hh c h' H1 H2 H3 H4. cbn [a_new a_hasher] in *. injection H1 as <-. injection H2 as <-. cbn [hs_data hs_final] in *. destruct (P h Hh H3) as (P1 & P2).
    rewrite !slen_app. split; [lia|]. intros G. rewrite P2; auto. lia. }
  destruct w as [|k|k]; [| |now elim (Hw k)].
  - destruct h0 as [h|] eqn:Hh; cbn [fst]; [exact (Q h eq_refl)|]. intros c h _ X. discriminate.
  - destruct (Nat.ltb_spec k (String.length d)).
    + intros c h H1 H2 H3 H4. cbn [fst a_new a_hasher] in *. injection H1 as <-. destruct (P h H2 H3) as (P1 & P2). rewrite slen_app, slen_stake. split; [lia|].
      intros G. assert (k = 0%nat) as -> by lia. simpl. rewrite sapp_nil_r. apply P2. lia.
    + rewrite (stake_all k d) by lia. destruct h0 as [h|] eqn:Hh; cbn [fst a_new]; [exact (Q h eq_refl)|]. intros c h _ X. discriminate.
Qed.
Lemma install_inv t rn a : inv a -> inv (fst (install E stale t rn a)).
Proof.
  intros I. unfold install. destruct (a_new a) as [c|] eqn:N; [|exact I]. destruct (negb (Z.of_nat (String.length c) =? t_length t)); [intros c' h X; discriminate|].
  destruct (a_hasher a) as [h|] eqn:Hh; [|exact I].
  assert (F : forall (x : agent), a_hasher x = Some (finalise h) -> inv x) by (intros x Hx c' h' _ X1 X2; rewrite Hx in X1; injection X1 as <-; discriminate).
  destruct (negb (match_hash t (hasher_digest E stale h))); [apply F; reflexivity|]. destruct rn; cbn [negb fst]; [|apply F; reflexivity]. intros c' h' X. discriminate.
Qed.
Lemma step_inv a o : (forall t d op k, o <> ARecv t d op (WLost k)) -> inv a -> inv (fst (astep E stale a o)).
Proof.
  intros Ho I. destruct o as [t d op w|t rn|]; cbn [astep].
  - pose proof (receive_inv t d op w a ltac:(intros k ->; now apply (Ho t d op k)) I) as H. destruct (receive t d op w a) as (a', r). cbn [fst] in *. destruct r; auto; apply inv_restart.
  - pose proof (install_inv t rn a I) as H. destruct (install E stale t rn a) as (a', r). cbn [fst] in *. destruct r; auto; apply inv_restart.
  - apply inv_restart.
Qed.
Lemma run_inv : forall ops a, no_silent_loss ops -> inv a -> inv (arun E stale a ops).
Proof.
  induction ops as [|o ops IH]; intros a N I; [exact I|]. cbn [arun fold_left]. apply (IH (fst (astep E stale a o))).
  - intros t d op k X. apply (N t d op k). now right.
  - apply step_inv; auto. intros t d op k ->. apply (N t d op k). now left.
Qed.
Lemma digest_matches t ty d h : digest E ty d = Some h -> In h (t_hashes t) -> matches_target E t d.
Proof. unfold digest, matches_target, mk_hash_t. destruct ty; intros X; inversion X; subst; simpl; auto. Qed.
Theorem install_verified a t rn a' : inv a -> consistent E t -> no_stale_match stale t -> install E stale t rn a = (a', AOk) ->
  exists c, a_target a' = Some c /\ size c = t_length t /\ matches_target E t c.
Proof.
  intros I C NS H. unfold install in H. destruct (a_new a) as [c|] eqn:N; [|discriminate]. destruct (Z.eqb_spec (Z.of_nat (String.length c)) (t_length t)) as [L|]; cbn [negb] in H; [|discriminate].
  destruct (a_hasher a) as [h|] eqn:Hh; [|discriminate]. destruct (match_hash t (hasher_digest E stale h)) eqn:M; cbn [negb] in H; [|discriminate].
  destruct rn; [|discriminate]. cbn [negb] in H. injection H as <-. exists c. cbn [a_target]. split; [reflexivity|]. split; [exact L|].
  apply match_hash_in in M. unfold hasher_digest in M. destruct (hs_final h) eqn:F; [now apply NS in M|]. destruct (digest E (hs_type h) (hs_data h)) as [x|] eqn:D; [|now apply NS in M].
  pose proof (digest_matches _ _ _ _ D M) as MT. pose proof (C _ MT) as S. unfold size in S. destruct (String.eqb_spec c "") as [->|Hne].
  - simpl in L. assert (hs_data h = "") as X by (apply slen_0; lia). now rewrite X in MT.
  - destruct (I c h N Hh F Hne) as (_ & I2). rewrite I2; auto. lia.
Qed.
(** Whatever was hashed, length and hash were compared. *)
Theorem install_checked a t rn a' : install E stale t rn a = (a', AOk) -> exists c h, a_new a = Some c /\ a_target a' = Some c /\ a_new a' = None /\ size c = t_length t /\ a_hasher a = Some h /\ In (hasher_digest E stale h) (t_hashes t) /\ a_name a' = t_filename t.
Proof.
  intros H. unfold install in H. destruct (a_new a) as [c|] eqn:N; [|discriminate]. destruct (Z.eqb_spec (Z.of_nat (String.length c)) (t_length t)) as [L|]; cbn [negb] in H; [|discriminate].
  destruct (a_hasher a) as [h|] eqn:Hh; [|discriminate]. destruct (match_hash t (hasher_digest E stale h)) eqn:M; cbn [negb] in H; [|discriminate].
  destruct rn; [|discriminate]. cbn [negb] in H. injection H as <-. apply match_hash_in in M. exists c, h. cbn. auto 10.
Qed.
Theorem failure_untouched a o a' r : astep E stale a o = (a', r) -> match o with AInstall _ _ => r <> AOk | _ => True end -> a_target a' = a_target a /\ a_name a' = a_name a.
Proof.
  destruct o as [t d op w|t rn|]; cbn [astep]; intros H N.
  - unfold receive in H. destruct op; cbn [negb] in H; [|injection H as <- <-; auto]. destruct (t_length t <=? a_size a); [injection H as <- <-; auto|].
    destruct ((a_size a =? 0) && _); [injection H as <- <-; auto|]. destruct w as [|k|k]; [| |].
    all: destruct (if a_size a =? 0 then make_hasher t else a_hasher a); try destruct (Nat.ltb k (String.length d)); injection H as <- <-; auto.
  - unfold install in H. destruct (a_new a) as [c|]; [|injection H as <- <-; auto]. destruct (negb (Z.of_nat (String.length c) =? t_length t)); [injection H as <- <-; auto|].
    destruct (a_hasher a) as [h|]; [|injection H as <- <-; auto]. destruct (negb (match_hash t (hasher_digest E stale h))); [injection H as <- <-; auto|].
    destruct rn; injection H as <- <-; auto. now elim N.
  - injection H as <- <-. auto.
Qed.

(** ** Recovery *)
Lemma receive_all t d a h : a_hasher a = Some h -> 0 < a_size a < t_length t ->
  receive t d true WAll a = ({| a_target := a_target a; a_new := Some (append (content (a_new a)) d); a_hasher := Some {| hs_type := hs_type h; hs_data := append (hs_data h) d; hs_final := hs_final h |}; a_name := a_name a |}, AOk).
Proof.
  intros Hh S. unfold receive. cbn [negb]. destruct (Z.leb_spec (t_length t) (a_size a)); [lia|]. destruct (Z.eqb_spec (a_size a) 0); [lia|]. cbn [andb]. rewrite Hh. reflexivity.
Qed.
Lemma receive_first t d a : a_size a = 0 -> 0 < t_length t -> file_type t <> HUnknown ->
  receive t d true WAll a = ({| a_target := a_target a; a_new := Some d; a_hasher := Some {| hs_type := file_type t; hs_data := d; hs_final := false |}; a_name := a_name a |}, AOk).
Proof.
  intros S L F. unfold receive. cbn [negb]. rewrite S. destruct (Z.leb_spec (t_length t) 0); [lia|]. cbn [Z.eqb andb].
  assert (content (a_new a) = "") as ->. { unfold a_size, content in *. destruct (a_new a); auto. apply slen_0. lia. }
  unfold file_type, make_hasher in *. destruct (t_hashes t) as [|x l]; [congruence|]. destruct (h_type x); try congruence; reflexivity.
Qed.
Lemma rest_uploads t : forall chunks a h, a_hasher a = Some h -> 0 < a_size a -> Forall (fun c => c <> "") chunks -> a_size a + size (sconcat chunks) = t_length t ->
  arun E stale a (uploads t chunks) = {| a_target := a_target a; a_new := Some (append (content (a_new a)) (sconcat chunks)); a_hasher := Some {| hs_type := hs_type h; hs_data := append (hs_data h) (sconcat chunks); hs_final := hs_final h |}; a_name := a_name a |}
  /\ results E stale a (uploads t chunks) = map (fun _ => AOk) chunks.
Proof.
  induction chunks as [|c chunks IH]; intros a h Hh S F L.
  - cbn. rewrite !sapp_nil_r. split; [|reflexivity]. unfold a_size in S. destruct a as [x [n|] y z]; [|simpl in S; lia]. simpl in *. subst y. destruct h. reflexivity.
  - inversion F; subst. cbn [sconcat fold_right] in L. unfold size in L. rewrite slen_app in L. assert (0 < String.length c)%nat by (destruct c; [congruence|simpl; lia]).
    assert (R : receive t c true WAll a = ({| a_target := a_target a; a_new := Some (append (content (a_new a)) c); a_hasher := Some {| hs_type := hs_type h; hs_data := append (hs_data h) c; hs_final := hs_final h |}; a_name := a_name a |}, AOk)).
    { apply receive_all; auto. split; [auto|]. lia. }
    cbn [uploads map results]. unfold arun. cbn [fold_left astep]. rewrite R. cbn [fst snd].
    set (a1 := {| a_target := a_target a; a_new := Some (append (content (a_new a)) c); a_hasher := Some _; a_name := a_name a |}) in *.
    assert (S1 : a_size a1 = a_size a + size c). { unfold a1, a_size, size; cbn [a_new]. rewrite slen_app. unfold content. destruct (a_new a); simpl; lia. }
    destruct (IH a1 _ eq_refl) as (I1 & I2); auto; [unfold size in S1; lia|rewrite S1; unfold size; fold (sconcat chunks) in L; lia|].
    fold (uploads t chunks). unfold arun in I1. rewrite I1, I2. unfold a1. cbn. split; [|reflexivity]. rewrite !sapp_assoc. reflexivity.
Qed.
(** From a clean state any division of the right image into non-empty pieces is accepted and installed. *)
Theorem clean_upload a t image chunks : a_size a = 0 -> describes_image E t image -> sconcat chunks = image -> Forall (fun c => c <> "") chunks ->
  results E stale a (uploads t chunks ++ [AInstall t true]) = map (fun _ => AOk) chunks ++ [AOk] /\
  let a' := arun E stale a (uploads t chunks ++ [AInstall t true]) in a_target a' = Some image /\ a_new a' = None /\ a_name a' = t_filename t.
Proof.
  intros S (D1 & D2 & D3 & D4) C F. 
  assert (FT : file_type t <> HUnknown) by (destruct D3 as [(-> & _)|(-> & _)]; discriminate).
  destruct chunks as [|c chunks]; [simpl in C; subst image; unfold size in D1; simpl in D1; lia|].
  inversion F; subst. assert (0 < String.length c)%nat by (destruct c; [congruence|simpl; lia]).
  pose proof (receive_first t c a S D2 FT) as R. cbn [uploads map app results]. unfold arun. cbn [fold_left astep]. rewrite R. cbn [fst snd].
  set (a1 := {| a_target := a_target a; a_new := Some c; a_hasher := Some _; a_name := a_name a |}) in *.
  destruct (rest_uploads t chunks a1 _ eq_refl) as (I1 & I2); auto.
  { unfold a1, a_size; cbn [a_new]. lia. }
  { unfold a1, a_size; cbn [a_new]. rewrite D1. cbn [sconcat fold_right]. unfold size. rewrite slen_app. fold (sconcat chunks). lia. }
  fold (uploads t chunks). unfold arun in I1. rewrite fold_left_app, I1. cbn [fold_left].
  assert (RA : forall ops1 ops2 x, results E stale x (ops1 ++ ops2) = results E stale x ops1 ++ results E stale (arun E stale x ops1) ops2).
  { clear. induction ops1 as [|o ops1 IH]; intros ops2 x; simpl; auto. now rewrite IH. }
  rewrite RA, I2. unfold arun. rewrite I1. unfold a1. cbn [results astep a_target a_new a_hasher a_name content hs_type hs_data hs_final].
  set (img := append c (sconcat chunks)). assert (img = sconcat (c :: chunks)) as X by reflexivity. rewrite <- X in D1, D3.
  assert (M : match_hash t (hasher_digest E stale {| hs_type := file_type t; hs_data := img; hs_final := false |}) = true).
  { destruct (match_digest E t img D3) as (h & Hd & Hm). unfold hasher_digest. cbn [hs_final hs_type hs_data]. now rewrite Hd. }
  unfold install. cbn [a_target a_new a_hasher a_name]. rewrite D1. unfold size. rewrite Z.eqb_refl. cbn [negb]. rewrite M. cbn [negb fst snd a_target a_new a_name]. auto.
Qed.
(** A received file that is long enough blocks every further upload of the target. *)
Theorem stuck_step a t d op w : t_length t <= a_size a -> a_new a <> None -> receive t d op w a = (a, AFail).
Proof.
  intros L N. unfold receive. destruct op; cbn [negb]; auto. destruct (Z.leb_spec (t_length t) (a_size a)); [|lia]. destruct a as [x [n|] y z]; [reflexivity|now elim N].
Qed.
Theorem stuck_forever a t : t_length t <= a_size a -> a_new a <> None -> forall ops,
  Forall (fun o => match o with ARecv t' _ _ _ => t' = t | ARestart => True | AInstall _ _ => False end) ops ->
  a_new (arun E stale a ops) = a_new a /\ Forall2 (fun o r => match o with ARecv _ _ _ _ => r = AFail | _ => True end) ops (results E stale a ops).
Proof.
  intros L N ops. revert a L N. induction ops as [|o ops IH]; intros a L N F; [split; [reflexivity|constructor]|]. inversion F; subst.
  destruct o as [t' d op w|t' rn|]; [subst t'|contradiction|].
  - cbn [results]. unfold arun. cbn [fold_left astep]. rewrite (stuck_step a t d op w L N). cbn [fst snd]. destruct (IH a L N H2) as (A & B). split; [exact A|constructor; auto].
  - cbn [results]. unfold arun. cbn [fold_left astep fst snd]. destruct (IH (restart a) L N H2) as (A & B). split; [exact A|constructor; auto].
Qed.
Theorem wrong_size_removed a t rn c : a_new a = Some c -> size c <> t_length t -> exists a', install E stale t rn a = (a', AFail) /\ a_size a' = 0 /\ a_target a' = a_target a.
Proof. intros N S. unfold install. rewrite N. destruct (Z.eqb_spec (Z.of_nat (String.length c)) (t_length t)); [now elim S|]. eexists. split; [reflexivity|]. auto. Qed.
(** After a hash mismatch the file stays, and so does the failure. *)
Theorem mismatch_sticks a t rn c h : a_new a = Some c -> size c = t_length t -> a_hasher a = Some h -> ~ In (hasher_digest E stale h) (t_hashes t) ->
  exists a', install E stale t rn a = (a', AFail) /\ a_new a' = Some c /\ t_length t <= a_size a'.
Proof.
  intros N S Hh M. unfold install. rewrite N. destruct (Z.eqb_spec (Z.of_nat (String.length c)) (t_length t)); [|unfold size in S; lia]. cbn [negb]. rewrite Hh.
  destruct (match_hash t (hasher_digest E stale h)) eqn:X; [apply match_hash_in in X; contradiction|]. cbn [negb]. eexists. split; [reflexivity|].
  cbn [a_new]. split; [reflexivity|]. unfold a_size; cbn [a_new]. lia.
Qed.
End A.

(** ** Upload *)
Lemma upload_ok : forall fuel ack len n image total sent, (forall i, ack i = true) -> total + size image = len -> (String.length image < fuel)%nat ->
  exists chunks, upload_loop fuel ack len n image total sent = Some (sent ++ chunks, true) /\ sconcat chunks = image /\ Forall (fun c => c <> "" /\ (String.length c <= 1024)%nat) chunks.
Proof.
  induction fuel as [|fuel IH]; intros ack len n image total sent A L F; [lia|]. cbn [upload_loop]. destruct (Z.ltb_spec total len) as [X|X].
  - rewrite A. unfold size in L. assert (0 < String.length image)%nat by lia. pose proof (slen_stake chunk image) as LT. pose proof (slen_sskip chunk image) as LS.
    assert (CK : (0 < chunk)%nat) by (unfold chunk; lia).
    destruct (IH ack len (S n) (sskip chunk image) (total + Z.of_nat (String.length (stake chunk image))) (sent ++ [stake chunk image]) A) as (cs & E1 & E2 & E3).
    { unfold size. rewrite LT, LS. lia. }
    { rewrite LS. lia. }
    exists (stake chunk image :: cs). rewrite E1, <- app_assoc. split; [reflexivity|]. split; [cbn [sconcat fold_right]; fold (sconcat cs); rewrite E2; apply stake_sskip|].
    constructor; auto. split; [|rewrite LT; unfold chunk; lia]. intros Z0. rewrite Z0 in LT. cbn [String.length] in LT. lia.
  - exists []. rewrite app_nil_r. assert (image = "") as -> by (apply slen_0; unfold size in L; lia). unfold size in L; simpl in L.
    assert (total =? len = true) as -> by (apply Z.eqb_eq; lia). auto.
Qed.
Lemma upload_prefix : forall fuel ack len n image total sent r ok, upload_loop fuel ack len n image total sent = Some (r, ok) ->
  exists chunks rest, r = sent ++ chunks /\ append (sconcat chunks) rest = image.
Proof.
  induction fuel as [|fuel IH]; intros ack len n image total sent r ok H; cbn [upload_loop] in H; destruct (total <? len); try discriminate;
    try (injection H as <- <-; exists [], image; rewrite app_nil_r; split; reflexivity).
  destruct (ack n).
  - destruct (IH _ _ _ _ _ _ _ _ H) as (cs & rest & -> & E2). exists (stake chunk image :: cs), rest. rewrite <- app_assoc. split; [reflexivity|].
    cbn [sconcat fold_right]. fold (sconcat cs). rewrite sapp_assoc, E2. apply stake_sskip.
  - injection H as <- <-. exists [stake chunk image], (sskip chunk image). split; [reflexivity|]. cbn [sconcat fold_right]. rewrite sapp_nil_r. apply stake_sskip.
Qed.
Lemma upload_short : forall fuel ack len n image total sent, (forall i, ack i = true) -> total + size image < len -> upload_loop fuel ack len n image total sent = None.
Proof.
  induction fuel as [|fuel IH]; intros ack len n image total sent A L; cbn [upload_loop]; unfold size in L; (destruct (Z.ltb_spec total len); [|lia]); auto.
  rewrite A. apply IH; auto. unfold size. rewrite slen_stake, slen_sskip. lia.
Qed.
