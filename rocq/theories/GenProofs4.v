(** The Targets, Snapshot and Timestamp documents that the generator writes, as the client reads them. *)
From Verif Require Import Base Json TufModel TufSpec TufProofs MetaStore RepoModel RepoSpec RepoProofs RepoProofs4 GenModel GenSpec GenProofs GenProofs2 GenProofs3.

Lemma range_int v : 0 <= v <= max_int -> in_range min_int max_int v = true.
Proof. intros H. unfold in_range, min_int. apply andb_true_iff. split; apply Z.leb_le; lia. Qed.

(** ** Targets *)
Definition tlist_ok (ts : json) : Prop := ts = JNull \/ exists l, ts = JObj l /\ forall n c, In (n, c) l -> good_target c.
Definition role_entry (n kid path : string) (te : bool) : json :=
  JObj [("keyids", JArr [JStr kid]); ("name", JStr n); ("paths", JArr [JStr path]); ("terminating", JBool te); ("threshold", JInt 1)].
Definition good_entry (r : json) : Prop := exists n kid path te, r = role_entry n kid path te /\ exists x, role_delegation n = Ok x.
Definition good_keys (kj : json) : Prop :=
  kj = JNull \/ exists kl, kj = JObj kl /\ forall kid j, In (kid, j) kl -> exists p, j = to_uptane p /\ pk_type p <> KUnknown.
Definition deleg_ok (de : option json) : Prop :=
  match de with None => True | Some d => exists kj rl, d = JObj [("keys", kj); ("roles", JArr rl)] /\ good_keys kj /\ forall r, In r rl -> good_entry r end.
Definition custom_ok (cu : option json) : Prop := match cu with None => True | Some c => exists x, c = JObj [("correlationId", JStr x)] end.

Section Client.
Context (E : Env).
Lemma parse_list_ok : forall l, (forall n c, In (n, c) l -> good_target c) -> exists ts, parse_target_list l = Ok ts.
Proof.
  induction l as [|(n, c) l IH]; intros H; [now exists []|]. cbn [parse_target_list].
  destruct (proj2 (target_iff n c) (H n c (or_introl eq_refl))) as (t & ->). cbn [bind]. destruct IH as (ts & ->); [|cbn [bind]; eauto]. intros n' c' i. apply (H n' c'). now right.
Qed.
Lemma keys_any : forall l, (forall kid j, In (kid, j) l -> exists p, j = to_uptane p /\ pk_type p <> KUnknown) -> forall ks, exists ks', parse_keys E l ks = Ok ks'.
Proof.
  induction l as [|(k, j) l IH]; intros H ks; [now exists ks|]. destruct (H k j (or_introl eq_refl)) as (p & -> & U). cbn [parse_keys].
  change (jget "keytype" (to_uptane p)) with (Ok (JStr (match pk_type p with KUnknown => "unknown" | KEd25519 => "ED25519" | _ => "RSA" end))). cbn [bind jas_string].
  replace (negb _) with false by (destruct (pk_type p); try congruence; reflexivity). apply IH. intros kid j' i. apply (H kid j'). now right.
Qed.
Lemma roles_any : forall l, (forall k r, In (k, r) l -> good_entry r) -> forall t, exists t', parse_deleg_roles l t = Ok t' /\ tg_base t' = tg_base t /\ tg_targets t' = tg_targets t /\ tg_name t' = tg_name t.
Proof.
  induction l as [|(k, r) l IH]; intros H t; [exists t; auto|]. destruct (H k r (or_introl eq_refl)) as (n & kid & path & te & -> & x & Hx). cbn [parse_deleg_roles].
  change (jget "name" (role_entry n kid path te)) with (@Ok json (JStr n)). change (jget "paths" (role_entry n kid path te)) with (@Ok json (JArr [JStr path])).
  change (jget "terminating" (role_entry n kid path te)) with (@Ok json (JBool te)). cbn [bind jas_string]. rewrite Hx. cbn [bind].
  assert (exists ks, parse_role (role_entry n kid path te) x (tg_ks t) = Ok ks) as (ks & ->).
  { unfold parse_role. destruct (role_eqb x role_invalid); [eauto|].
    change (jget "threshold" (role_entry n kid path te)) with (@Ok json (JInt 1)). change (jget "keyids" (role_entry n kid path te)) with (@Ok json (JArr [JStr kid])). cbn. eauto. }
  cbn [bind jiter index_from parse_paths jas_string jas_bool]. destruct (IH (fun k r i => H k r (or_intror i)) {| tg_base := tg_base t; tg_ks := ks; tg_targets := tg_targets t; tg_deleg := tg_deleg t ++ [n];
           tg_paths := aset n [path] (tg_paths t); tg_term := aset n te (tg_term t); tg_name := tg_name t; tg_corr := tg_corr t |}) as (t' & A & B). exists t'. split; [exact A|exact B].
Qed.
Lemma jget_tgt_type cu de e ts v : jget "_type" (tgt_shape cu de e ts v) = Ok (JStr "Targets"). Proof. reflexivity. Qed.
Lemma jget_tgt_version cu de e ts v : jget "version" (tgt_shape cu de e ts v) = Ok (JInt v). Proof. destruct cu, de; reflexivity. Qed.
Lemma jget_tgt_expires cu de e ts v : jget "expires" (tgt_shape cu de e ts v) = Ok (JStr e). Proof. destruct cu, de; reflexivity. Qed.
Lemma jget_tgt_targets cu de e ts v : jget "targets" (tgt_shape cu de e ts v) = Ok ts. Proof. destruct cu, de; reflexivity. Qed.
Lemma jget_tgt_deleg cu de e ts v : jget "delegations" (tgt_shape cu de e ts v) = Ok (match de with Some d => d | None => JNull end). Proof. destruct cu, de; reflexivity. Qed.
Lemma jget_tgt_custom cu de e ts v : jget "custom" (tgt_shape cu de e ts v) = Ok (match cu with Some d => d | None => JNull end). Proof. destruct cu, de; reflexivity. Qed.
Lemma targets_parse kid m sg cu de e ts v : custom_ok cu -> deleg_ok de -> tlist_ok ts -> 0 <= v <= max_int -> timestamp_of_string e = Ok e ->
  exists t tl, targets_doc E "targets" (signed_doc kid m sg (tgt_shape cu de e ts v)) t /\ tg_version t = v /\ parse_target_list (jiter ts) = Ok tl /\ tg_targets t = tl /\ (de = None -> tg_deleg t = []).
Proof.
  intros C D T V H. set (j := tgt_shape cu de e ts v).
  assert (B : base_init (signed_doc kid m sg j) = Ok {| b_version := v; b_expiry := e; b_orig := signed_doc kid m sg j |}).
  { apply base_signed; [apply jget_tgt_version|now apply range_int|apply jget_tgt_expires|exact H]. }
  set (b := {| b_version := v; b_expiry := e; b_orig := signed_doc kid m sg j |}) in *.
  assert (exists tl, parse_target_list (jiter ts) = Ok tl) as (tl & L).
  { destruct T as [->|(l & -> & T)]; [now exists []|]. apply parse_list_ok. exact T. }
  assert (exists t, targets_init E b "targets" (signed_doc kid m sg j) = Ok t /\ tg_base t = b /\ tg_targets t = tl /\ (de = None -> tg_deleg t = [])) as (t & A & A1 & A2 & A3).
  { unfold targets_init. cbn [jis_object signed_doc negb]. change (jget "signed" (signed_doc kid m sg j)) with (Ok j). cbn [bind].
    assert (J1 : jget "_type" j = Ok (JStr "Targets")) by apply jget_tgt_type. assert (J2 : jget "targets" j = Ok ts) by apply jget_tgt_targets.
    assert (J3 : jget "delegations" j = Ok (match de with Some d => d | None => JNull end)) by apply jget_tgt_deleg.
    assert (J4 : jget "custom" j = Ok (match cu with Some d => d | None => JNull end)) by apply jget_tgt_custom.
    rewrite J1, J2. cbn [bind jeq_str]. rewrite String.eqb_refl. cbn [negb]. rewrite L. cbn [bind].
    rewrite J3, J4. cbn [bind].
    assert (exists t1, (if jis_object (match de with Some d => d | None => JNull end) then
              do kj <- jget "keys" (match de with Some d => d | None => JNull end);
              do ks <- parse_keys E (jiter kj) ks_empty;
              do rj <- jget "roles" (match de with Some d => d | None => JNull end);
              parse_deleg_roles (jiter rj)
                {| tg_base := b; tg_ks := ks; tg_targets := tl; tg_deleg := []; tg_paths := []; tg_term := [];
                   tg_name := "targets"; tg_corr := "" |}
            else Ok {| tg_base := b; tg_ks := ks_empty; tg_targets := tl; tg_deleg := []; tg_paths := []; tg_term := [];
               tg_name := "targets"; tg_corr := "" |}) = Ok t1 /\ tg_base t1 = b /\ tg_targets t1 = tl /\ (de = None -> tg_deleg t1 = [])) as (t1 & -> & P1 & P2 & P3).
    { destruct de as [d|]; [|eexists; split; [reflexivity|]; auto]. destruct D as (kj & rl & -> & K & R). cbn [jis_object].
      change (jget "keys" (JObj [("keys", kj); ("roles", JArr rl)])) with (Ok kj). change (jget "roles" (JObj [("keys", kj); ("roles", JArr rl)])) with (@Ok json (JArr rl)). cbn [bind].
      assert (exists ks, parse_keys E (jiter kj) ks_empty = Ok ks) as (ks & ->) by (destruct K as [->|(kl & -> & K)]; [now exists ks_empty|now apply keys_any]). cbn [bind jiter].
      edestruct roles_any as (t' & -> & Q1 & Q2 & _); [|exists t'; split; [reflexivity|]; split; [exact Q1|]; split; [exact Q2|discriminate]].
      intros k r i. apply in_index in i. now apply R. }
    cbn [bind].
    assert (exists corr, (if jis_object (match cu with Some d => d | None => JNull end) then do ci <- jget "correlationId" (match cu with Some d => d | None => JNull end); jas_string ci else Ok "") = Ok corr) as (corr & ->).
    { destruct cu as [c|]; [|now exists ""]. destruct C as (x & ->). now exists x. }
    cbn [bind]. eexists. split; [reflexivity|]. auto. }
  exists t, tl. rewrite <- A1 in A. split; [split; [rewrite A1; exact B|exact A]|]. unfold tg_version. rewrite A1. auto.
Qed.

(** ** Snapshot *)
Lemma strip_json n : strip_ext (append n ".json") = n.
Proof.
  unfold strip_ext. assert (strip_ext_opt (append n ".json") = Some n) as ->; [|reflexivity]. induction n as [|c n IH]; [reflexivity|].
  change (strip_ext_opt (append (String c n) ".json")) with (match strip_ext_opt (append n ".json") with Some p => Some (String c p) | None => if Ascii.eqb c "." then Some EmptyString else None end). now rewrite IH.
Qed.
Lemma json_inj a b : append a ".json" = append b ".json" -> a = b.
Proof. intros H. rewrite <- (strip_json a), <- (strip_json b). now rewrite H. Qed.
Definition meta_entry (n : string) (j : json) : Prop :=
  exists v, 0 <= v <= max_int /\ (j = JObj [("version", JInt v)] \/
    (n = "root" /\ exists a b z, j = JObj [("hashes", JObj [("sha256", JStr a); ("sha512", JStr b)]); ("length", JInt z); ("version", JInt v)])).
Definition meta_name (n : string) : Prop := n = "root" \/ n = "targets" \/ exists x, role_delegation n = Ok x.
Definition meta_ok (ml : list (string * json)) : Prop :=
  increasing ml = true /\ forall k j, In (k, j) ml -> exists n, k = append n ".json" /\ meta_name n /\ meta_entry n j.
Lemma jas_int_ok v : 0 <= v <= max_int -> jas_int (JInt v) = Ok v.
Proof. intros H. unfold jas_int, jas_range. now rewrite range_int. Qed.
Lemma deleg_not_reserved n x : role_delegation n = Ok x -> is_reserved n = false /\ x = {| r_kind := RDelegation; r_name := n |}.
Proof.
  unfold role_delegation. destruct (is_reserved (to_lower n)) eqn:H; [discriminate|]. intros e. injection e as <-. split; [|reflexivity].
  unfold is_reserved in *. destruct (String.eqb_spec n "root") as [->|_]; [discriminate|]. destruct (String.eqb_spec n "targets") as [->|_]; [discriminate|].
  destruct (String.eqb_spec n "snapshot") as [->|_]; [discriminate|]. destruct (String.eqb_spec n "timestamp") as [->|_]; [discriminate|]. reflexivity.
Qed.
Lemma meta_role n : meta_name n -> exists r, (if is_reserved n then Ok (role_of_string n) else role_delegation n) = Ok r /\ r_name r = n.
Proof.
  intros [->|[->|(x & H)]]; [eexists; split; reflexivity|eexists; split; reflexivity|]. destruct (deleg_not_reserved n x H) as (-> & ->). eexists. split; [exact H|reflexivity].
Qed.
Lemma parse_meta_ok : forall ml sn, (forall k j, In (k, j) ml -> exists n, k = append n ".json" /\ meta_name n /\ meta_entry n j) -> NoDup (map fst ml) ->
  exists sn', parse_snapshot_meta ml sn = Ok sn' /\ sn_base sn' = sn_base sn /\ role_hashes sn' "targets" = role_hashes sn "targets" /\
    role_version sn' "targets" = match aget "targets.json" ml with Some j => match jget "version" j with Ok (JInt v) => v | _ => 0 end | None => role_version sn "targets" end.
Proof.
  induction ml as [|(k, j) ml IH]; intros sn H N; [exists sn; repeat split|].
  destruct (H k j (or_introl eq_refl)) as (n & -> & Hn & v & V & Hj). inversion N as [|? ? N1 N2]; subst. cbn [parse_snapshot_meta].
  set (old := match aget n (sn_hashes sn) with Some x => x | None => [] end).
  assert (exists hl sz hs, jget "hashes" j = Ok hl /\ jget "length" j = Ok sz /\ jget "version" j = Ok (JInt v) /\ jis_object sz = false /\
     (if jis_object hl then parse_hashes_all (jiter hl) old else Ok old) = Ok hs /\ (n = "targets" -> hs = old)) as (hl & sz & hs & -> & -> & Hv & Hs & Hh & Ht).
  { destruct Hj as [->|(-> & a & b & z & ->)]; (do 3 eexists; split; [reflexivity|]; split; [reflexivity|]; split; [reflexivity|]; split; [reflexivity|]); split; try reflexivity; discriminate. }
  rewrite Hv. cbn [bind jis_integral negb]. rewrite strip_json. destruct (meta_role n Hn) as (r & -> & Hr). cbn [bind]. rewrite jas_int_ok by exact V. cbn [bind]. rewrite Hs. cbn [bind]. rewrite Hr.
  fold old. rewrite Hh. cbn [bind].
  edestruct IH as (sn' & -> & B & Hh' & Hv'); [intros k' j' i; apply (H k' j'); now right|exact N2|]. exists sn'. split; [reflexivity|]. split; [exact B|].
  rewrite Hh', Hv'. unfold role_hashes, role_version. cbn [sn_hashes sn_version aset aget]. destruct (String.eqb_spec "targets" n) as [<-|Ne].
  - split; [rewrite (Ht eq_refl); reflexivity|]. cbn [append]. rewrite String.eqb_refl, Hv. destruct (aget "targets.json" ml) eqn:G; [|reflexivity].
    exfalso. apply N1. apply aget_in in G. apply (in_map fst) in G. exact G.
  - split; [reflexivity|]. destruct (String.eqb_spec "targets.json" (append n ".json")) as [X|_]; [|reflexivity].
    exfalso. apply Ne. apply (json_inj "targets" n). exact X.
Qed.
Lemma snapshot_parse kid m sg e ml v tv : meta_ok ml -> aget "targets.json" ml = Some (JObj [("version", JInt tv)]) -> 0 <= v <= max_int -> timestamp_of_string e = Ok e ->
  exists sn, snapshot_doc (signed_doc kid m sg (snap_shape e ml v)) sn /\ b_version (sn_base sn) = v /\ role_version sn "targets" = tv /\ role_hashes sn "targets" = [].
Proof.
  intros (M1 & M2) T V H.
  assert (B : base_init (signed_doc kid m sg (snap_shape e ml v)) = Ok {| b_version := v; b_expiry := e; b_orig := signed_doc kid m sg (snap_shape e ml v) |}).
  { apply base_signed; [reflexivity|now apply range_int|reflexivity|exact H]. }
  set (b := {| b_version := v; b_expiry := e; b_orig := signed_doc kid m sg (snap_shape e ml v) |}) in *.
  destruct (parse_meta_ok ml {| sn_base := b; sn_size := []; sn_version := []; sn_hashes := [] |} M2 (increasing_nodup _ M1)) as (sn & A & A1 & A2 & A3).
  exists sn. cbn [sn_base] in A1. split; [split; [rewrite A1; exact B|rewrite A1; exact A]|]. rewrite A1, A2, A3, T. repeat split.
Qed.

(** ** Timestamp *)
Lemma timestamp_parse kid m sg e a b len sv v : 0 <= len <= max_int -> 0 <= sv <= max_int -> 0 <= v <= max_int -> timestamp_of_string e = Ok e ->
  exists tm, timestamp_doc (signed_doc kid m sg (ts_shape e a b len sv v)) tm /\ b_version (tm_base tm) = v /\ tm_snap_version tm = sv /\
    tm_hashes tm = [mk_hash "sha256" a; mk_hash "sha512" b].
Proof.
  intros L S V H. set (d := signed_doc kid m sg (ts_shape e a b len sv v)).
  assert (B : base_init d = Ok {| b_version := v; b_expiry := e; b_orig := d |}) by (apply base_signed; [reflexivity|now apply range_int|reflexivity|exact H]).
  exists {| tm_base := {| b_version := v; b_expiry := e; b_orig := d |}; tm_hashes := [mk_hash "sha256" a; mk_hash "sha512" b]; tm_size := len; tm_snap_version := sv |}.
  split; [|repeat split]. split; [exact B|]. cbn [tm_base]. unfold timestamp_init.
  change (jget "signed" d) with (Ok (ts_shape e a b len sv v)). cbn [bind].
  change (jget "meta" (ts_shape e a b len sv v)) with (@Ok json (JObj [("snapshot.json", JObj [("hashes", JObj [("sha256", JStr a); ("sha512", JStr b)]); ("length", JInt len); ("version", JInt sv)])])). cbn [bind].
  change (jget "snapshot.json" _) with (@Ok json (JObj [("hashes", JObj [("sha256", JStr a); ("sha512", JStr b)]); ("length", JInt len); ("version", JInt sv)])). cbn [bind].
  change (jget "hashes" _) with (@Ok json (JObj [("sha256", JStr a); ("sha512", JStr b)])). change (jget "length" _) with (@Ok json (JInt len)). change (jget "version" _) with (@Ok json (JInt sv)). cbn [bind].
  change (jis_object d) with true. cbn [negb]. change (jget "_type" (ts_shape e a b len sv v)) with (@Ok json (JStr "Timestamp")). cbn [bind jeq_str jis_object jis_integral negb]. rewrite String.eqb_refl. cbn [negb orb].
  cbn [jiter parse_hashes_all jas_string bind app]. rewrite !jas_int_ok by assumption. reflexivity.
Qed.
End Client.
