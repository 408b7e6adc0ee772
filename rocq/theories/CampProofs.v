From Verif Require Import Base Json CodecModel CodecProofs CampModel CampSpec.

Definition ok_of {A} (m : res A) : option A := match m with Ok a => Some a | Throw _ => None end.

(** The three kinds of entries do not touch each other. *)
Fixpoint upd_text (d : string) (vs : list json) : option string :=
  match vs with
  | [] => Some d
  | v :: vs' => if is_empty d then match jas_string v with Ok s => upd_text s vs' | Throw _ => None end else None
  end.
Fixpoint upd_num (n : Z) (vs : list json) : option Z :=
  match vs with
  | [] => Some n
  | v :: vs' => if n =? 0 then match (do s <- jas_string v; stoi s) with Ok n' => upd_num n' vs' | Throw _ => None end
                else None
  end.

Definition join (a : option string) (b c : option Z) : option meta :=
  match a, b, c with Some x, Some y, Some z => Some (x, y, z) | _, _, _ => None end.

Lemma join_none_m a c : join a None c = None. Proof. now destruct a. Qed.
Lemma join_none_r a b : join a b None = None. Proof. now destruct a, b. Qed.

Lemma eqb_kinds t : (String.eqb t k_desc = true -> String.eqb t k_inst = false /\ String.eqb t k_prep = false) /\
  (String.eqb t k_inst = true -> String.eqb t k_prep = false).
Proof. split; [intros H|intros H]; apply String.eqb_eq in H; subst t; [split|]; reflexivity. Qed.

Lemma given_cons t m ms : given t (m :: ms) = given t [m] ++ given t ms.
Proof. unfold given. cbn [flat_map]. rewrite List.app_nil_r. reflexivity. Qed.

Lemma meta_all_join l : forall d i p,
  ok_of (meta_all l (d, i, p)) =
  join (upd_text d (given k_desc (map snd l))) (upd_num i (given k_inst (map snd l))) (upd_num p (given k_prep (map snd l))).
Proof.
  induction l as [|[k o] l IH]; intros d i p; [reflexivity|].
  cbn [map snd meta_all]. rewrite (given_cons k_desc), (given_cons k_inst), (given_cons k_prep).
  assert (Hskip : (forall t, given t [o] = []) -> meta_step o (d, i, p) = Ok (d, i, p) ->
    ok_of (do m' <- meta_step o (d, i, p); meta_all l m') =
    join (upd_text d (given k_desc [o] ++ given k_desc (map snd l))) (upd_num i (given k_inst [o] ++ given k_inst (map snd l)))
         (upd_num p (given k_prep [o] ++ given k_prep (map snd l)))).
  { intros Hg Hs. rewrite Hs, !Hg. cbn [bind app]. apply IH. }
  destruct o as [| | | | | |ms]; try (apply Hskip; [intros; reflexivity|reflexivity]).
  unfold meta_step. cbn [jis_object negb jget bind].
  unfold given at 1 3 5. cbn [flat_map].
  destruct (aget "type" ms) as [t|] eqn:Et.
  2:{ cbn [jeq_str bind app]. apply IH. }
  destruct t as [| | | |t| |]; try (cbn [jeq_str bind app]; apply IH).
  cbn [jeq_str]. destruct (eqb_kinds t) as [H1 H2].
  set (v := match aget "value" ms with Some v => v | None => JNull end).
  destruct (String.eqb t k_desc) eqn:Ed.
  { destruct (H1 eq_refl) as [-> ->]. cbn [app upd_text].
    destruct (is_empty d); cbn [negb bind]; [|reflexivity].
    destruct (jas_string v); cbn [bind]; [apply IH|reflexivity]. }
  destruct (String.eqb t k_inst) eqn:Ei.
  { rewrite (H2 eq_refl). cbn [app upd_num].
    destruct (i =? 0); cbn [negb bind]; [|symmetry; apply join_none_m].
    destruct (jas_string v) as [s|]; cbn [bind]; [|symmetry; apply join_none_m].
    destruct (stoi s); cbn [bind]; [apply IH|symmetry; apply join_none_m]. }
  destruct (String.eqb t k_prep) eqn:Ep.
  { cbn [app upd_num].
    destruct (p =? 0); cbn [negb bind]; [|symmetry; apply join_none_r].
    destruct (jas_string v) as [s|]; cbn [bind]; [|symmetry; apply join_none_r].
    destruct (stoi s); cbn [bind]; [apply IH|symmetry; apply join_none_r]. }
  cbn [app bind]. apply IH.
Qed.

Lemma jiter_arr ms : map snd (jiter (JArr ms)) = ms.
Proof.
  cbn [jiter]. generalize 0. induction ms as [|m ms IH]; intros z; [reflexivity|].
  cbn [index_from map snd]. now rewrite IH.
Qed.

Lemma upd_text_one d : upd_text "" (map JStr (as_list d)) = Some (opt "" d).
Proof. destruct d; reflexivity. Qed.

Lemma upd_num_one o : min_int <= opt 0 o <= max_int ->
  upd_num 0 (map (fun n => JStr (to_dec n)) (as_list o)) = Some (opt 0 o).
Proof.
  destruct o as [n|]; [|reflexivity]. cbn [opt as_list map upd_num]. intros H.
  replace (0 =? 0) with true by reflexivity. cbn [jas_string bind]. rewrite stoi_dec; [reflexivity|exact H].
Qed.

Lemma parse_publishes j p : publishes j p -> parse j = Some (shown p).
Proof.
  intros (l & ms & -> & Hid & Hid' & Hn & Hn' & Hs & Hs' & Ha & Hm & Hd & Hi & Hp & Hri & Hrp).
  unfold parse, campaign_of. cbn [jis_object negb jget bind]. rewrite Hid. cbn [jas_string bind].
  unfold is_empty. rewrite (proj2 (String.eqb_neq _ _) Hid').
  rewrite Hn. cbn [jas_string bind]. rewrite (proj2 (String.eqb_neq _ _) Hn').
  assert (Esz : (do jsz <- jget_or "size" (JInt 0) (JObj l); jas_int64 jsz) = Ok (opt 0 (p_size p))).
  { unfold jget_or. cbn [jmember jget bind]. rewrite Hs.
    assert (E : Json.in_range min_int64 max_int64 (opt 0 (p_size p)) = true).
    { unfold Json.in_range. apply andb_true_iff. split; apply Z.leb_le; lia. }
    destruct (p_size p) as [n|]; cbn [option_map bind opt] in *; unfold jas_int64, jas_range; now rewrite E. }
  assert (Eau : (do ja <- jget_or "autoAccept" (JBool false) (JObj l); jas_bool ja) = Ok (opt false (p_auto p))).
  { unfold jget_or. cbn [jmember jget bind]. rewrite Ha. destruct (p_auto p); reflexivity. }
  destruct (jget_or "size" (JInt 0) (JObj l)) as [js|]; cbn [bind] in Esz |- *; [|discriminate]. rewrite Esz. cbn [bind].
  destruct (jget_or "autoAccept" (JBool false) (JObj l)) as [jb|]; cbn [bind] in Eau |- *; [|discriminate].
  rewrite Eau. cbn [bind].
  set (jm := match aget "metadata" l with Some v => v | None => JNull end).
  assert (Ems : map snd (jiter jm) = ms).
  { subst jm. destruct Hm as [->|[-> ->]]; [apply jiter_arr|reflexivity]. }
  pose proof (meta_all_join (jiter jm) "" 0 0) as M. rewrite Ems in M.
  change k_desc with "DESCRIPTION" in M. change k_inst with "ESTIMATED_INSTALLATION_DURATION" in M.
  change k_prep with "ESTIMATED_PREPARATION_DURATION" in M.
  rewrite Hd, Hi, Hp, upd_text_one, !upd_num_one in M by assumption.
  cbn [join] in M. destruct (meta_all (jiter jm) ("", 0, 0)) as [m|]; cbn [ok_of] in M; [|discriminate].
  injection M as ->. reflexivity.
Qed.

(** Malformed entries are left out. *)
Lemma parse_meta_none l ms : aget "metadata" l = Some (JArr ms) ->
  join (upd_text "" (given k_desc ms)) (upd_num 0 (given k_inst ms)) (upd_num 0 (given k_prep ms)) = None ->
  parse (JObj l) = None.
Proof.
  intros Hm HN. unfold parse, campaign_of. cbn [jis_object negb jget bind].
  destruct (jas_string _) as [s|]; cbn [bind]; [|reflexivity]. destruct (is_empty s); [reflexivity|].
  destruct (jas_string _) as [s'|]; cbn [bind]; [|reflexivity]. destruct (is_empty s'); [reflexivity|].
  destruct (jget_or _ _ _) as [x|]; cbn [bind]; [|reflexivity]. destruct (jas_int64 x); cbn [bind]; [|reflexivity].
  destruct (jget_or _ _ _) as [y|]; cbn [bind]; [|reflexivity]. destruct (jas_bool y); cbn [bind]; [|reflexivity].
  rewrite Hm. pose proof (meta_all_join (jiter (JArr ms)) "" 0 0) as M. rewrite jiter_arr, HN in M.
  destruct (meta_all _ _); [discriminate|reflexivity].
Qed.

Lemma no_text_string o : no_text o ->
  match jas_string (match o with Some v => v | None => JNull end) with Ok s => is_empty s = true | Throw _ => True end.
Proof.
  intros [->|[->|[->|[[l ->]|[l ->]]]]]; cbn [jas_string]; try reflexivity; exact Logic.I.
Qed.

Lemma digit_val_none c : ~ (48 <= nat_of_ascii c <= 57)%nat -> digit_val c = None.
Proof.
  intros H. unfold digit_val. destruct ((48 <=? Z.of_nat (nat_of_ascii c)) && (Z.of_nat (nat_of_ascii c) <=? 57)) eqn:E; [|reflexivity].
  apply andb_true_iff in E as [E1 E2]. apply Z.leb_le in E1, E2. exfalso. apply H. lia.
Qed.

Lemma stoi_no_number s : ~ begins_number s -> exists e, stoi s = Throw e.
Proof.
  intros H. exists EStd. destruct s as [|c s]; [reflexivity|].
  assert (H' : ~ (nat_of_ascii c <= 32 \/ c = "+"%char \/ c = "-"%char \/ 48 <= nat_of_ascii c <= 57)%nat).
  { intros K. apply H. exists c, s. auto. }
  assert (H32 : ~ (nat_of_ascii c <= 32)%nat) by (intros K; apply H'; auto).
  assert (Hd : ~ (48 <= nat_of_ascii c <= 57)%nat) by (intros K; apply H'; auto).
  assert (Ep : c <> "+"%char) by (intros K; apply H'; auto).
  assert (Em : c <> "-"%char) by (intros K; apply H'; auto).
  clear H H'.
  assert (Es : is_space c = false).
  { unfold is_space. apply orb_false_iff. split.
    - apply Nat.eqb_neq. lia.
    - apply andb_false_iff. destruct (Nat.leb_spec 9 (nat_of_ascii c)); [right|left; reflexivity]. apply Nat.leb_gt. lia. }
  assert (Esn : scan_number (String c s) = None) by (cbn [scan_number]; rewrite digit_val_none by exact Hd; reflexivity).
  unfold stoi. cbn [skip_space]. rewrite Es.
  enough (E : match String c s with
              | String "-" s' => match scan_number s' with Some z => Some (- z) | None => None end
              | String "+" s' => scan_number s'
              | s' => scan_number s'
              end = None) by now rewrite E.
  destruct c as [[] [] [] [] [] [] [] []]; try exact Esn; congruence.
Qed.

Lemma stoi_dec_big n : ~ min_int <= n <= max_int -> exists e, stoi (to_dec n) = Throw e.
Proof.
  intros H. exists EStd.
  assert (Hr : in_int32 n = false).
  { unfold in_int32. apply andb_false_iff. unfold min_int, max_int in H.
    destruct (Z.leb_spec (-2147483648) n); [right|left; reflexivity]. apply Z.leb_gt. lia. }
  unfold stoi, to_dec. destruct (n <? 0) eqn:E.
  - apply Z.ltb_lt in E. change (skip_space (String "-" (dec_nonneg (- n)))) with (String "-" (dec_nonneg (- n))).
    cbv iota beta. rewrite scan_number_dec by lia. rewrite Z.opp_involutive. now rewrite Hr.
  - apply Z.ltb_ge in E. pose proof (scan_number_dec n E) as Hs. destruct (dec_nonneg_head n E) as (d & s & Hd & Eq).
    rewrite Eq in *. destruct (digit_plain d Hd) as (P1 & P2 & P3). cbn [skip_space]. rewrite P1.
    set (c := digit_ascii d) in *. clearbody c.
    assert (match String c s with String "-" s' => match scan_number s' with Some z => Some (- z) | None => None end
           | String "+" s' => scan_number s' | s' => scan_number s' end = scan_number (String c s)) as ->.
    { destruct c as [[] [] [] [] [] [] [] []]; try reflexivity; congruence. }
    rewrite Hs, Hr. reflexivity.
Qed.

Lemma upd_num_twice n v w r : (n =? 0) = false -> v = JStr (to_dec n) -> upd_num 0 (v :: w :: r) = None.
Proof.
  intros Hn ->. cbn [upd_num]. replace (0 =? 0) with true by reflexivity. cbn [jas_string bind].
  destruct (stoi (to_dec n)) as [m|] eqn:E; [|reflexivity].
  assert (m = n) as ->.
  { destruct (Z_le_dec min_int n) as [H1|H1]; [destruct (Z_le_dec n max_int) as [H2|H2]|].
    - rewrite stoi_dec in E by (split; assumption). now injection E as <-.
    - destruct (stoi_dec_big n) as [e H]; [lia|]. rewrite H in E. discriminate.
    - destruct (stoi_dec_big n) as [e H]; [lia|]. rewrite H in E. discriminate. }
  now rewrite Hn.
Qed.

Lemma upd_num_bad s : (exists e, stoi s = Throw e) -> forall vs n, In (JStr s) vs -> upd_num n vs = None.
Proof.
  intros [e He]. induction vs as [|v vs IH]; intros n Hin; [destruct Hin|].
  cbn [upd_num]. destruct (n =? 0); [|reflexivity].
  destruct Hin as [->|Hin].
  - cbn [jas_string bind]. now rewrite He.
  - destruct (do s' <- jas_string v; stoi s'); [now apply IH|reflexivity].
Qed.

Lemma num_kind_none l ms t : aget "metadata" l = Some (JArr ms) ->
  In t ["ESTIMATED_INSTALLATION_DURATION"; "ESTIMATED_PREPARATION_DURATION"] ->
  upd_num 0 (given t ms) = None -> parse (JObj l) = None.
Proof.
  intros Hm Ht HN. apply (parse_meta_none l ms Hm).
  destruct Ht as [<-|[<-|[]]].
  - change k_inst with "ESTIMATED_INSTALLATION_DURATION". rewrite HN. apply join_none_m.
  - change k_prep with "ESTIMATED_PREPARATION_DURATION". rewrite HN. apply join_none_r.
Qed.

Lemma parse_malformed j : malformed_plainly j -> parse j = None.
Proof.
  intros H. destruct H.
  - destruct j; try reflexivity. exfalso. eapply H. reflexivity.
  - unfold parse, campaign_of. cbn [jis_object negb jget bind].
    pose proof (no_text_string _ H) as K. destruct (jas_string _) as [s|]; cbn [bind]; [now rewrite K|reflexivity].
  - unfold parse, campaign_of. cbn [jis_object negb jget bind].
    destruct (jas_string _) as [s|]; cbn [bind]; [|reflexivity]. destruct (is_empty s); [reflexivity|].
    pose proof (no_text_string _ H) as K. destruct (jas_string _) as [s'|]; cbn [bind]; [now rewrite K|reflexivity].
  - unfold parse, campaign_of. cbn [jis_object negb jget bind].
    destruct (jas_string _) as [s|]; cbn [bind]; [|reflexivity]. destruct (is_empty s); [reflexivity|].
    destruct (jas_string _) as [s'|]; cbn [bind]; [|reflexivity]. destruct (is_empty s'); [reflexivity|].
    unfold jget_or at 1. cbn [jmember jget bind]. rewrite H. cbn [bind].
    assert (E : Json.in_range min_int64 max_int64 n = false).
    { unfold Json.in_range. apply andb_false_iff. destruct (Z.leb_spec min_int64 n); [right|left; reflexivity].
      apply Z.leb_gt. lia. }
    unfold jas_int64, jas_range. rewrite E. reflexivity.
  - unfold parse, campaign_of. cbn [jis_object negb jget bind].
    destruct (jas_string _) as [s1|]; cbn [bind]; [|reflexivity]. destruct (is_empty s1); [reflexivity|].
    destruct (jas_string _) as [s2|]; cbn [bind]; [|reflexivity]. destruct (is_empty s2); [reflexivity|].
    unfold jget_or at 1. cbn [jmember jget bind]. rewrite H. reflexivity.
  - apply (parse_meta_none l ms H). change k_desc with "DESCRIPTION". rewrite H0.
    cbn [upd_text jas_string]. change (is_empty "") with true. cbv iota. unfold is_empty.
    rewrite (proj2 (String.eqb_neq _ _) H1). reflexivity.
  - apply (num_kind_none l ms t H H0). rewrite H1. apply (upd_num_twice n); [now apply Z.eqb_neq|reflexivity].
  - apply (num_kind_none l ms t H H0). apply (upd_num_bad s (stoi_no_number s H2) _ _ H1).
  - apply (num_kind_none l ms t H H0). apply (upd_num_bad _ (stoi_dec_big n H2) _ _ H1).
Qed.

Lemma server_list_parsed js ps : server_list malformed_plainly js ps -> parse_all js = map shown ps.
Proof.
  induction 1 as [|j p js ps Hp _ IH|j js ps Hb _ IH]; [reflexivity| |]; cbn [parse_all map].
  - now rewrite (parse_publishes j p Hp), IH.
  - now rewrite (parse_malformed j Hb), IH.
Qed.

(** Writing and reading back. *)
Definition with_size (z : Z) (c : campaign) : campaign :=
  {| ca_id := ca_id c; ca_name := ca_name c; ca_size := z; ca_auto := ca_auto c;
     ca_desc := ca_desc c; ca_inst := ca_inst c; ca_prep := ca_prep c |}.

Lemma get_json_publishes c : holdable c ->
  publishes (get_json c)
    {| p_id := ca_id c; p_name := ca_name c; p_size := Some (ca_size c mod 2 ^ 32); p_auto := Some (ca_auto c);
       p_desc := Some (ca_desc c); p_inst := Some (ca_inst c); p_prep := Some (ca_prep c) |}.
Proof.
  intros (H1 & H2 & _ & H4 & H5). unfold publishes, get_json. do 2 eexists. split; [reflexivity|].
  cbn [p_id p_name p_size p_auto p_desc p_inst p_prep opt as_list map option_map].
  split; [reflexivity|]. split; [exact H1|]. split; [reflexivity|]. split; [exact H2|].
  split; [reflexivity|].
  split. { pose proof (Z.mod_pos_bound (ca_size c) (2 ^ 32) ltac:(lia)). unfold min_int64, max_int64. lia. }
  split; [reflexivity|]. split; [left; reflexivity|].
  repeat (split; [reflexivity|]). split; assumption.
Qed.

Lemma round_trip cs : Forall holdable cs ->
  campaigns_from_json (json_from_campaigns cs) = map (fun c => with_size (ca_size c mod 2 ^ 32) c) cs.
Proof.
  intros H. assert (K : parse_all (map get_json cs) = map (fun c => with_size (ca_size c mod 2 ^ 32) c) cs).
  { induction H as [|c cs Hc _ IH]; [reflexivity|]. cbn [map parse_all].
    rewrite (parse_publishes _ _ (get_json_publishes c Hc)), IH. reflexivity. }
  destruct cs as [|c cs]; [reflexivity|]. exact K.
Qed.

Lemma parse_sound j c : parse j = Some c -> ca_id c <> "" /\ ca_name c <> "" /\
  exists l, j = JObj l /\ (forall s, aget "id" l = Some (JStr s) -> s = ca_id c) /\
    (forall s, aget "name" l = Some (JStr s) -> s = ca_name c).
Proof.
  unfold parse, campaign_of. destruct j as [| | | | | |l]; cbn [jis_object negb]; try discriminate.
  cbn [jget bind]. destruct (jas_string (match aget "id" l with Some v => v | None => JNull end)) as [s|] eqn:E1; cbn [bind]; [|discriminate].
  destruct (is_empty s) eqn:Z1; [discriminate|].
  destruct (jas_string (match aget "name" l with Some v => v | None => JNull end)) as [s'|] eqn:E2; cbn [bind]; [|discriminate].
  destruct (is_empty s') eqn:Z2; [discriminate|].
  destruct (jget_or _ _ _) as [x|]; cbn [bind]; [|discriminate]. destruct (jas_int64 x); cbn [bind]; [|discriminate].
  destruct (jget_or _ _ _) as [y|]; cbn [bind]; [|discriminate]. destruct (jas_bool y); cbn [bind]; [|discriminate].
  destruct (meta_all _ _); cbn [bind]; [|discriminate]. cbv iota. intros K. injection K as <-. cbn [ca_id ca_name].
  apply String.eqb_neq in Z1, Z2. split; [exact Z1|]. split; [exact Z2|]. exists l. split; [reflexivity|].
  split; intros t Ht; [rewrite Ht in E1; cbn [jas_string] in E1|rewrite Ht in E2; cbn [jas_string] in E2]; congruence.
Qed.
