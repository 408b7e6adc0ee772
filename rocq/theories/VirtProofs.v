(** Proofs about the virtual Secondary. *)
From Verif Require Import Base Json TufModel TufProofs MetaStore RepoModel CodecModel InstModel DevModel ClientModel UpdModel UpdProofs IpModel VirtModel VirtSpec.

(** ** The image *)
Section Img.
Context (E : Env).
Lemma raw_to_meta_files m v v' r : raw_to_meta E m v = (v', r) -> vs_fw v' = vs_fw v /\ vs_name v' = vs_name v /\ vs_bundle v' = vs_bundle v /\ vs_attack v' = vs_attack v.
Proof.
  unfold raw_to_meta. intros H.
  repeat match type of H with context [match ?x with Ok _ => _ | Throw _ => _ end] => destruct x end; injection H as <- _; auto.
Qed.
Lemma put_meta_files d v : vs_fw (fst (v_put_metadata E d v)) = vs_fw v /\ vs_name (fst (v_put_metadata E d v)) = vs_name v.
Proof.
  unfold v_put_metadata. destruct (get_metadata d) as [[m|]|]; cbn [fst]; auto.
  destruct (raw_to_meta E m (set_flags true false v)) as [v1 [u|e]] eqn:R; apply raw_to_meta_files in R; cbn [fst verdict]; destruct R as (A & B & _); rewrite A, B; auto.
Qed.
Lemma put_root_files raw rp v : vs_fw (fst (v_put_root E raw rp v)) = vs_fw v /\ vs_name (fst (v_put_root E raw rp v)) = vs_name v.
Proof.
  unfold v_put_root. destruct (negb (vs_bundle v)); auto. destruct (root_of_json E (parse E raw)); auto. unfold verdict. cbn [fst].
  destruct (rt_version a =? _); auto.
Qed.

Definition has (i : option (string * string)) (v : vsec) : Prop :=
  match i with Some (n, c) => vs_name v = Some n /\ vs_fw v = Some c | None => vs_name v = None /\ vs_fw v = None end.
Lemma has_image i v : has i v -> v_image E v = shown E i.
Proof. unfold has, v_image, shown. destruct i as [[n c]|]; intros (A & B); [rewrite A, B|rewrite A]; reflexivity. Qed.
Lemma run_has l : faults (fun f => f = FNone) l -> forall i v, has i v -> has (told_from i l) (v_run E l v).
Proof.
  induction 1 as [|o l Ho _ IH]; intros i v H; [exact H|]. cbn [told_from fold_left]. unfold v_run. cbn [fold_left]. apply IH.
  destruct o as [d|raw rp|n src f|]; cbn [v_step].
  - unfold has in *. destruct (put_meta_files d v) as (A & B). rewrite A, B. exact H.
  - unfold has in *. destruct (put_root_files raw rp v) as (A & B). rewrite A, B. exact H.
  - subst f. destruct src as [c|e]; cbn; auto.
  - exact H.
Qed.
End Img.

(** ** Roots *)
Section Roots.
Context (savec : json -> string) (E : Env) (W : world) (srv : server) (ecu : string) (d : db) (v0 : vsec).
Notation V := (v_world E ecu d v0 W).
Notation now := (vs_now E ecu d v0).

Lemma put_root_cases raw rp v v' r : v_put_root E raw rp v = (v', r) ->
  (exists new, root_of_json E (parse E raw) = Ok new /\ vs_bundle v = true /\ rt_version new = v_root_version rp v + 1 /\ v' = set_root rp new v) \/
  (exists new, root_of_json E (parse E raw) = Ok new /\ vs_bundle v = true /\ rt_version new <> v_root_version rp v + 1 /\ v' = set_flags true true v) \/
  (v' = v /\ (exists e, r = Throw e) /\ (vs_bundle v = false \/ exists e, root_of_json E (parse E raw) = Throw e)).
Proof.
  unfold v_put_root. destruct (vs_bundle v) eqn:B; cbn [negb].
  - destruct (root_of_json E (parse E raw)) as [new|e] eqn:R.
    + unfold verdict. intros H. injection H as <- <-. destruct (Z.eqb_spec (rt_version new) (v_root_version rp v + 1)); [left|right; left]; exists new; auto.
    + intros H. injection H as <- <-. right; right. eauto 6.
  - intros H. injection H as <- <-. right; right. eauto.
Qed.
Lemma version_set_same rp r v : v_root_version rp (set_root rp r v) = rt_version r.
Proof. destruct rp; reflexivity. Qed.
Lemma root_set_other rp rp' r v : rp <> rp' -> vs_root rp' (set_root rp r v) = vs_root rp' v.
Proof. destruct rp, rp'; try congruence; reflexivity. Qed.

Lemma now_tell e s s' r : tell savec e s = (s', r) -> now s' = v_event E ecu d (now s) e /\ p_ust s' = p_ust s /\ r = Ok tt.
Proof. unfold tell. intros H. injection H as <- <-. unfold vs_now, v_replay. cbn [p_tr p_ust]. rewrite fold_left_app. auto. Qed.

Lemma V_putroot s rp raw : e_putroot V (p_tr s) ecu rp raw = snd (v_put_root E raw rp (now s)).
Proof. unfold v_world. cbn [e_putroot]. rewrite String.eqb_refl. reflexivity. Qed.
Lemma V_rootver s rp : e_rootver V (p_tr s) ecu rp = Ok (v_root_version rp (now s)).
Proof. unfold v_world. cbn [e_rootver]. rewrite String.eqb_refl. reflexivity. Qed.
Lemma V_putmeta s t : e_putmeta V (p_tr s) ecu t = snd (v_put_metadata E d (now s)).
Proof. unfold v_world. cbn [e_putmeta]. rewrite String.eqb_refl. reflexivity. Qed.

(** The next Root is taken over; the answer tells whether the metadata held is then consistent. *)
Lemma put_next raw rp v : vs_bundle v = true -> root_doc E raw (v_root_version rp v + 1) ->
  exists new, root_of_json E (parse E raw) = Ok new /\ rt_version new = v_root_version rp v + 1 /\
  v_put_root E raw rp v = verdict E (set_root rp new v).
Proof.
  intros B (new & R & N). exists new. split; [auto|]. split; [auto|]. unfold v_put_root. rewrite B, R. cbn [negb]. rewrite (proj2 (Z.eqb_eq _ _) N). reflexivity.
Qed.

Lemma send_roots_virt rp n : forall v s last, u_db (p_ust s) = d -> vs_bundle (now s) = true -> v_root_version rp (now s) = v - 1 -> 0 < v ->
  all_roots E d rp (v - 1 + Z.of_nat n) -> ir_success last = true ->
  exists s' r, send_roots savec V srv n v ecu rp last s = (s', Ok r) /\ p_ust s' = p_ust s /\ vs_bundle (now s') = true /\
    (forall rp', rp <> rp' -> vs_root rp' (now s') = vs_root rp' (now s)) /\
    (ir_success r = true -> v_root_version rp (now s') = v - 1 + Z.of_nat n) /\
    (ir_success r = false -> v <= v_root_version rp (now s') <= v - 1 + Z.of_nat n).
Proof.
  induction n as [|n IH]; intros v s last Hd Hb Hv Hp Ha Hl.
  - cbn [send_roots]. exists s, last. unfold pret. rewrite Hl. repeat split; auto; try discriminate. intros _. rewrite Hv. lia.
  - destruct (Ha v) as (raw & L & RD); [lia|]. replace v with (v_root_version rp (now s) + 1) in RD by lia.
    destruct (put_next raw rp (now s) Hb RD) as (new & R & Nv & Put).
    cbn [send_roots]. unfold pbind at 1. rewrite Hd, L. unfold pbind at 1, pgets.
    cbv beta iota. rewrite V_putroot, Put.
    set (a := or_internal (snd (verdict E (set_root rp new (now s))))).
    set (ev := UPutRoot ecu rp v raw (ir_success a)).
    unfold pbind. destruct (tell savec ev s) as [s1 r1] eqn:T. destruct (now_tell ev s s1 r1 T) as (N1 & U1 & ->).
    assert (N2 : now s1 = set_root rp new (now s)). { rewrite N1. unfold ev. cbn [v_event]. rewrite String.eqb_refl, Put. reflexivity. }
    destruct (ir_success a) eqn:Sa.
    + destruct (IH (v + 1) s1 a) as (s' & r & X & XU & XB & XO & XS & XF).
      * congruence.
      * rewrite N2. destruct rp; exact Hb.
      * rewrite N2, version_set_same. lia.
      * lia.
      * replace (v + 1 - 1 + Z.of_nat n) with (v - 1 + Z.of_nat (S n)) by lia. exact Ha.
      * exact Sa.
      * exists s', r. split; [exact X|]. split; [congruence|]. split; [exact XB|]. split; [|split].
        -- intros rp' Ne. rewrite XO by auto. rewrite N2. apply root_set_other; auto.
        -- intros Q. rewrite (XS Q). lia.
        -- intros Q. specialize (XF Q). lia.
    + exists s1, a. unfold pret. split; [reflexivity|]. split; [exact U1|]. split; [rewrite N2; destruct rp; exact Hb|]. split; [|split].
      * intros rp' Ne. rewrite N2. apply root_set_other; auto.
      * congruence.
      * intros _. rewrite N2, version_set_same. lia.
Qed.

(** rotateSecondaryRoot *)
Lemma rotate_virt rp l s raw : u_db (p_ust s) = d -> load_latest_root rp d = Ok (Some raw) -> extract_version_untrusted E raw = Ok l ->
  all_roots E d rp l -> (0 < v_root_version rp (now s) -> vs_bundle (now s) = true) ->
  exists s' r, rotate_root savec E V srv rp ecu s = (s', Ok r) /\ p_ust s' = p_ust s /\ vs_bundle (now s') = vs_bundle (now s) /\
    (forall rp', rp <> rp' -> vs_root rp' (now s') = vs_root rp' (now s)) /\
    (0 < v_root_version rp (now s) -> 0 < v_root_version rp (now s')) /\
    (v_root_version rp (now s) <= 0 -> v_root_version rp (now s') <= 0) /\
    (ir_success r = true -> behind l (v_root_version rp (now s')) = 0) /\
    behind l (v_root_version rp (now s')) <= behind l (v_root_version rp (now s)) /\
    (ir_success r = false -> behind l (v_root_version rp (now s')) < behind l (v_root_version rp (now s))).
Proof.
  intros Hd L X Ha Hb. unfold rotate_root. unfold pbind at 1. rewrite Hd, L. unfold pbind at 1, plift. rewrite X. unfold pbind at 1, pgets.
  cbv beta iota. unfold pbind at 1. rewrite V_rootver.
  set (a := v_root_version rp (now s)) in *.
  unfold pbind at 1. destruct (tell savec (URootVersion ecu rp a) s) as [s1 r1] eqn:T. destruct (now_tell _ _ _ _ T) as (N1 & U1 & ->). cbn [v_event] in N1.
  destruct ((0 <? a) && (1 <? l - a)) eqn:C.
  - apply andb_true_iff in C. destruct C as (C1 & C2). apply Z.ltb_lt in C1. apply Z.ltb_lt in C2.
    destruct (send_roots_virt rp (Z.to_nat (l - a)) (a + 1) s1 (mk_ires (num kOk) "")) as (s' & r & Y & YU & YB & YO & YS & YF).
    + congruence.
    + rewrite N1. auto.
    + rewrite N1. fold a. lia.
    + lia.
    + replace (a + 1 - 1 + Z.of_nat (Z.to_nat (l - a))) with l by lia. exact Ha.
    + reflexivity.
    + replace (a + 1 - 1 + Z.of_nat (Z.to_nat (l - a))) with l in * by lia.
      exists s', r. split; [exact Y|]. split; [congruence|]. split; [rewrite YB; symmetry; auto|]. split; [intros rp' Ne; rewrite YO by auto; rewrite N1; reflexivity|].
      unfold behind. destruct (ir_success r); [specialize (YS eq_refl); rewrite YS|specialize (YF eq_refl)]; repeat split; intros; try congruence; try lia;
      repeat match goal with |- context [0 <? ?x] => destruct (Z.ltb_spec 0 x) end; lia.
  - exists s1, (mk_ires (num kOk) ""). split; [reflexivity|]. split; [exact U1|]. rewrite N1. fold a. repeat split; auto; try lia; try discriminate.
    intros _. unfold behind. destruct (Z.ltb_spec 0 a); [|reflexivity]. destruct (Z.ltb_spec 1 (l - a)); [discriminate|]. lia.
Qed.

Lemma base_orig j b : base_init j = Ok b -> b_orig b = j.
Proof.
  unfold base_init. intros H.
  repeat match type of H with
  | bind _ _ = Ok _ => apply bind_ok in H; destruct H as (? & ? & H)
  | (if ?c then _ else _) = Ok _ => destruct c
  | match ?c with Ok _ => _ | Throw _ => _ end = Ok _ => destruct c
  | Throw _ = Ok _ => discriminate
  end. injection H as <-; reflexivity.
Qed.
Lemma deleg_base l : forall t t', parse_deleg_roles l t = Ok t' -> tg_base t' = tg_base t.
Proof.
  induction l as [|[k rj] l IH]; intros t t' H; cbn [parse_deleg_roles] in H; [injection H as <-; reflexivity|].
  repeat match type of H with bind _ _ = Ok _ => apply bind_ok in H; destruct H as (? & ? & H) end. apply IH in H. exact H.
Qed.
Lemma targets_orig j t : targets_of_json E j = Ok t -> b_orig (tg_base t) = j.
Proof.
  unfold targets_of_json, targets_init. intros H. apply bind_ok in H. destruct H as (b & B & H). apply base_orig in B. subst j.
  destruct (negb _); [discriminate|].
  repeat match type of H with
  | bind ?m _ = Ok _ => let q := fresh "Q" in apply bind_ok in H; destruct H as (? & q & H)
  | (if ?c then _ else _) = Ok _ => destruct c; [discriminate|]
  end. injection H as <-. cbn [tg_base].
  match goal with |- b_orig (tg_base ?x) = _ => assert (Z : tg_base x = b) end; [|rewrite Z; reflexivity].
  match goal with Q : (if jis_object ?dj then _ else _) = Ok ?x |- tg_base ?x = b => destruct (jis_object dj) end.
  - match goal with Q : bind (jget "keys" _) _ = Ok ?x |- _ => repeat (apply bind_ok in Q; destruct Q as (? & ? & Q)); apply deleg_base in Q; exact Q end.
  - match goal with Q : Ok _ = Ok ?x |- _ => injection Q as <-; reflexivity end.
Qed.
Lemma root_parts j rt : root_of_json E j = Ok rt -> rt_policy rt = PCheck /\ b_orig (rt_base rt) = j.
Proof.
  unfold root_of_json. intros H. apply bind_ok in H. destruct H as (b & B & H). apply base_orig in B.
  repeat match type of H with
  | bind ?m _ = Ok _ => apply bind_ok in H; destruct H as (? & ? & H)
  | (if ?c then _ else _) = Ok _ => destruct c; [discriminate|]
  end. injection H as <-. auto.
Qed.

(** putMetadata with metadata that is in order. *)
Lemma put_meta_virt ld li v : in_order E d ld li ->
  exists v', v_put_metadata E d v = (v', Ok (mk_ires (num kOk) "")) /\ v_root_version Director v' = ld /\ v_root_version Image v' = li /\
  vs_bundle v' = true /\ vs_attack v' = false.
Proof.
  intros (m & rt & dt & dt0 & ir & tm & sn & it & G & _ & _ & _ & _ & R & Rv & U & T & T0 & IR & Iv & TM & SN & IT).
  unfold v_put_metadata. rewrite G. unfold raw_to_meta. rewrite R, T0, IR, TM, SN, IT.
  set (v1 := set_root Image ir (set_dtargets (b_orig (tg_base dt0)) (set_root Director rt (set_flags true false v)))).
  exists v1. split; [|auto]. unfold verdict. replace (is_consistent E v1) with (Ok true : res bool); [reflexivity|].
  unfold is_consistent. change (vs_droot v1) with rt. change (vs_dtargets v1) with (b_orig (tg_base dt0)). rewrite (targets_orig _ _ T0).
  destruct (root_parts _ _ R) as (Pc & ->). destruct (jempty (parse E (m_droot m))); auto. rewrite R. cbn [bind]. unfold root_unpack. rewrite Pc, U. cbn [bind].
  rewrite T. cbn [bind]. destruct (jempty (parse E (m_dtargets m))); reflexivity.
Qed.

(** One transfer. *)
Lemma attempt_virt ld li t s : u_db (p_ust s) = d -> in_order E d ld li -> all_roots E d Director ld -> all_roots E d Image li ->
  (forall rp, 0 < v_root_version rp (now s) -> vs_bundle (now s) = true) ->
  let mu x := behind ld (v_root_version Director x) + behind li (v_root_version Image x) in
  exists s' r, attempt savec E W srv ecu d v0 t s = (s', Ok r) /\ u_db (p_ust s') = d /\
    (forall rp, 0 < v_root_version rp (now s') -> vs_bundle (now s') = true) /\
    (ir_success r = true -> v_root_version Director (now s') = ld /\ v_root_version Image (now s') = li) /\
    (ir_success r = false -> mu (now s') < mu (now s)).
Proof.
  intros Hd Ho Ad Ai Hb mu. unfold attempt, send_metadata_one.
  pose proof Ho as Ho'. destruct Ho' as (m & rt & dt & dt0 & ir & tm & sn & it & G & LD & LI & XD & XI & _).
  destruct (rotate_virt Director ld s (m_droot m) Hd LD XD Ad (Hb Director)) as (s1 & r1 & Y1 & U1 & B1 & O1 & P1 & N1 & S1 & M1 & F1).
  assert (O1i : vs_root Image (now s1) = vs_root Image (now s)) by (apply O1; discriminate).
  assert (V1i : v_root_version Image (now s1) = v_root_version Image (now s)) by (unfold v_root_version; rewrite O1i; reflexivity).
  assert (Hb1 : forall rp, 0 < v_root_version rp (now s1) -> vs_bundle (now s1) = true).
  { intros rp Q. rewrite B1. destruct rp; [|apply (Hb Image); rewrite <- V1i; exact Q]. apply (Hb Director). destruct (Z.lt_ge_cases 0 (v_root_version Director (now s))) as [Q'|Q']; auto. specialize (N1 Q'). lia. }
  unfold pbind at 1. rewrite Y1. destruct (ir_success r1) eqn:E1; cbn [negb].
  2:{ exists s1, r1. unfold pret. split; [reflexivity|]. split; [congruence|]. split; [exact Hb1|]. split; [congruence|]. intros _. unfold mu. rewrite V1i. specialize (F1 eq_refl). lia. }
  destruct (rotate_virt Image li s1 (m_iroot m) ltac:(congruence) LI XI Ai (Hb1 Image)) as (s2 & r2 & Y2 & U2 & B2 & O2 & P2 & N2 & S2 & M2 & F2).
  assert (O2d : vs_root Director (now s2) = vs_root Director (now s1)) by (apply O2; discriminate).
  assert (V2d : v_root_version Director (now s2) = v_root_version Director (now s1)) by (unfold v_root_version; rewrite O2d; reflexivity).
  assert (Hb2 : forall rp, 0 < v_root_version rp (now s2) -> vs_bundle (now s2) = true).
  { intros rp Q. rewrite B2. destruct rp; [apply (Hb1 Director); rewrite <- V2d; exact Q|]. apply (Hb1 Image). destruct (Z.lt_ge_cases 0 (v_root_version Image (now s1))) as [Q'|Q']; auto. specialize (N2 Q'). lia. }
  unfold pbind at 1. rewrite Y2. destruct (ir_success r2) eqn:E2; cbn [negb].
  2:{ exists s2, r2. unfold pret. split; [reflexivity|]. split; [congruence|]. split; [exact Hb2|]. split; [congruence|]. intros _. unfold mu. rewrite V2d, <- V1i. specialize (F2 eq_refl). lia. }
  unfold pbind at 1, pgets. rewrite V_putmeta.
  destruct (put_meta_virt ld li (now s2) Ho) as (v' & PM & Vd & Vi & Bv & _). rewrite PM. cbn [snd or_internal].
  unfold pbind. destruct (tell savec _ s2) as [s3 r3] eqn:T. destruct (now_tell _ _ _ _ T) as (N3 & U3 & ->).
  cbn [v_event] in N3. rewrite String.eqb_refl, PM in N3. cbn [fst] in N3.
  exists s3, (mk_ires (num kOk) ""). split; [reflexivity|]. split; [congruence|]. split; [rewrite N3; auto|]. split; [rewrite N3; auto|]. discriminate.
Qed.

Lemma retries_virt ld li t n : forall s, u_db (p_ust s) = d -> in_order E d ld li -> all_roots E d Director ld -> all_roots E d Image li ->
  (forall rp, 0 < v_root_version rp (now s) -> vs_bundle (now s) = true) ->
  behind ld (v_root_version Director (now s)) + behind li (v_root_version Image (now s)) < Z.of_nat n ->
  succeeds_within savec E W srv ecu d v0 n t s.
Proof.
  induction n as [|n IH]; intros s Hd Ho Ad Ai Hb Mu.
  - unfold behind in Mu. destruct (0 <? _), (0 <? _) in Mu; lia.
  - cbn [succeeds_within]. destruct (attempt_virt ld li t s Hd Ho Ad Ai Hb) as (s' & r & X & U & B & _ & F). exists s', r. split; [exact X|].
    destruct (ir_success r) eqn:Sr; [left; reflexivity|right]. apply IH; auto. specialize (F eq_refl). lia.
Qed.

(** ** Metadata held that every later Root accepts *)
Lemma send_roots_ok (Q : vsec -> Prop) rp n :
  (forall x, Q x -> is_consistent E x = Ok true) ->
  forall v s last, (forall x raw new w, Q x -> load_root rp w d = Ok (Some raw) -> root_of_json E (parse E raw) = Ok new -> v <= w <= v - 1 + Z.of_nat n -> Q (set_root rp new x)) ->
  u_db (p_ust s) = d -> vs_bundle (now s) = true -> v_root_version rp (now s) = v - 1 -> 0 < v ->
  all_roots E d rp (v - 1 + Z.of_nat n) -> Q (now s) -> ir_success last = true ->
  exists s' r, send_roots savec V srv n v ecu rp last s = (s', Ok r) /\ ir_success r = true /\ Q (now s').
Proof.
  intros QC. induction n as [|n IH]; intros v s last QS Hd Hb Hv Hp Ha Hq Hl.
  - cbn [send_roots]. exists s, last. unfold pret. auto.
  - destruct (Ha v) as (raw & L & RD); [lia|]. replace v with (v_root_version rp (now s) + 1) in RD by lia.
    destruct (put_next raw rp (now s) Hb RD) as (new & R & Nv & Put).
    assert (Qn : Q (set_root rp new (now s))) by (apply (QS (now s) raw new v); auto; lia).
    cbn [send_roots]. unfold pbind at 1. rewrite Hd, L. unfold pbind at 1, pgets.
    cbv beta iota. rewrite V_putroot, Put.
    unfold verdict at 1 2 3. rewrite (QC _ Qn). cbn [snd or_internal].
    unfold pbind. destruct (tell savec _ s) as [s1 r1] eqn:T. destruct (now_tell _ s s1 r1 T) as (N1 & U1 & ->).
    assert (N2 : now s1 = set_root rp new (now s)). { rewrite N1. cbn [v_event]. rewrite String.eqb_refl, Put. reflexivity. }
    change (ir_success (mk_ires (num kOk) "")) with true. cbv iota.
    apply IH.
    + intros x raw' new' w Qx Lx Rx Hw. eapply QS; eauto. lia.
    + congruence.
    + rewrite N2. destruct rp; exact Hb.
    + rewrite N2, version_set_same. lia.
    + lia.
    + replace (v + 1 - 1 + Z.of_nat n) with (v - 1 + Z.of_nat (S n)) by lia. exact Ha.
    + rewrite N2. exact Qn.
    + reflexivity.
Qed.
Lemma rotate_ok (Q : vsec -> Prop) rp l s raw : (forall x, Q x -> is_consistent E x = Ok true) ->
  (forall x raw new w, Q x -> load_root rp w d = Ok (Some raw) -> root_of_json E (parse E raw) = Ok new -> v_root_version rp (now s) < w <= l -> Q (set_root rp new x)) ->
  u_db (p_ust s) = d -> load_latest_root rp d = Ok (Some raw) -> extract_version_untrusted E raw = Ok l ->
  all_roots E d rp l -> (0 < v_root_version rp (now s) -> vs_bundle (now s) = true) -> Q (now s) ->
  exists s' r, rotate_root savec E V srv rp ecu s = (s', Ok r) /\ ir_success r = true /\ Q (now s').
Proof.
  intros QC QS Hd L X Ha Hb Hq. unfold rotate_root. unfold pbind at 1. rewrite Hd, L. unfold pbind at 1, plift. rewrite X. unfold pbind at 1, pgets.
  cbv beta iota. unfold pbind at 1. rewrite V_rootver.
  set (a := v_root_version rp (now s)) in *.
  unfold pbind at 1. destruct (tell savec (URootVersion ecu rp a) s) as [s1 r1] eqn:T. destruct (now_tell _ _ _ _ T) as (N1 & U1 & ->). cbn [v_event] in N1.
  destruct ((0 <? a) && (1 <? l - a)) eqn:C.
  - apply andb_true_iff in C. destruct C as (C1 & C2). apply Z.ltb_lt in C1. apply Z.ltb_lt in C2.
    apply (send_roots_ok Q rp (Z.to_nat (l - a)) QC (a + 1) s1); try congruence; try lia.
    + intros x raw' new w Qx Lx Rx Hw. eapply QS; eauto. lia.
    + rewrite N1. auto.
    + rewrite N1. fold a. lia.
    + replace (a + 1 - 1 + Z.of_nat (Z.to_nat (l - a))) with l by lia. exact Ha.
    + reflexivity.
  - exists s1, (mk_ires (num kOk) ""). split; [reflexivity|]. split; [reflexivity|]. rewrite N1. exact Hq.
Qed.
Lemma suits_consistent raw new x : root_of_json E (parse E raw) = Ok new -> suits E raw (vs_dtargets x) -> is_consistent E (set_root Director new x) = Ok true.
Proof.
  intros R (rt & t & R' & U & T). rewrite R in R'. injection R' as <-. destruct (root_parts _ _ R) as (Pc & O).
  unfold is_consistent. cbn [set_root vs_droot vs_dtargets]. rewrite O. destruct (jempty (parse E raw)); auto. rewrite R. cbn [bind]. unfold root_unpack. rewrite Pc, U. cbn [bind].
  destruct (jempty (vs_dtargets x)); auto. rewrite T. reflexivity.
Qed.
Lemma attempt_ok ld li t s : u_db (p_ust s) = d -> in_order E d ld li -> all_roots E d Director ld -> all_roots E d Image li ->
  (forall rp, 0 < v_root_version rp (now s) -> vs_bundle (now s) = true) ->
  is_consistent E (now s) = Ok true ->
  (forall w raw, v_root_version Director (now s) < w <= ld -> load_root Director w d = Ok (Some raw) -> suits E raw (vs_dtargets (now s))) ->
  exists s' r, attempt savec E W srv ecu d v0 t s = (s', Ok r) /\ ir_success r = true.
Proof.
  intros Hd Ho Ad Ai Hb Hc Hs. unfold attempt, send_metadata_one.
  pose proof Ho as Ho'. destruct Ho' as (m & rt & dt & dt0 & ir & tm & sn & it & G & LD & LI & XD & XI & _).
  set (Q := fun x => is_consistent E x = Ok true /\ vs_dtargets x = vs_dtargets (now s)).
  destruct (rotate_virt Director ld s (m_droot m) Hd LD XD Ad (Hb Director)) as (s1 & r1 & Y1 & U1 & B1 & O1 & P1 & N1 & _).
  destruct (rotate_ok Q Director ld s (m_droot m)) as (s1' & r1' & Y1' & S1 & Q1); auto.
  { intros x Hx. apply Hx. }
  { intros x raw new w (_ & Hx) L R Hw. split; [|exact Hx]. apply (suits_consistent raw); auto. rewrite Hx. eapply Hs; eauto. }
  { exact (Hb Director). }
  { split; auto. }
  rewrite Y1 in Y1'. injection Y1' as <- <-.
  assert (V1i : v_root_version Image (now s1) = v_root_version Image (now s)) by (unfold v_root_version; rewrite (O1 Image) by discriminate; reflexivity).
  assert (Hb1 : forall rp, 0 < v_root_version rp (now s1) -> vs_bundle (now s1) = true).
  { intros rp Q'. rewrite B1. destruct rp; [|apply (Hb Image); rewrite <- V1i; exact Q']. apply (Hb Director). destruct (Z.lt_ge_cases 0 (v_root_version Director (now s))) as [Q''|Q'']; auto. specialize (N1 Q''). lia. }
  unfold pbind at 1. rewrite Y1, S1. cbn [negb].
  destruct (rotate_virt Image li s1 (m_iroot m) ltac:(congruence) LI XI Ai (Hb1 Image)) as (s2 & r2 & Y2 & U2 & _).
  destruct (rotate_ok Q Image li s1 (m_iroot m)) as (s2' & r2' & Y2' & S2 & Q2);
    [intros x Hx; apply Hx|intros x raw new w (Hx1 & Hx) L R Hw; split; [exact Hx1|exact Hx]|congruence|exact LI|exact XI|exact Ai|exact (Hb1 Image)|exact Q1|].
  rewrite Y2 in Y2'. injection Y2' as <- <-.
  unfold pbind at 1. rewrite Y2, S2. cbn [negb].
  unfold pbind at 1, pgets. rewrite V_putmeta.
  destruct (put_meta_virt ld li (now s2) Ho) as (v' & PM & _). rewrite PM. cbn [snd or_internal].
  unfold pbind. destruct (tell savec _ s2) as [s3 r3] eqn:T. destruct (now_tell _ _ _ _ T) as (_ & _ & ->).
  exists s3, (mk_ires (num kOk) ""). auto.
Qed.
End Roots.

(** ** A Root is known only after a transfer of metadata. *)
Section Inv.
Context (E : Env).
Definition bundled (v : vsec) : Prop := forall rp, 0 < v_root_version rp v -> vs_bundle v = true.
Lemma bundled_new fw name : bundled (vs_new fw name).
Proof. intros [] H; cbn in H; lia. Qed.
Lemma put_meta_bundled d v : bundled v -> bundled (fst (v_put_metadata E d v)).
Proof.
  intros B. unfold v_put_metadata. destruct (get_metadata d) as [[m|]|]; cbn [fst]; auto.
  destruct (raw_to_meta E m (set_flags true false v)) as [v1 [u|e]] eqn:R; apply raw_to_meta_files in R; cbn [fst verdict]; intros rp _; apply R.
Qed.
Lemma put_root_bundled raw rp v : bundled v -> bundled (fst (v_put_root E raw rp v)).
Proof.
  intros B. destruct (v_put_root E raw rp v) as [v' r] eqn:H. apply put_root_cases in H. cbn [fst].
  destruct H as [(new & _ & Bv & _ & ->)|[(new & _ & Bv & _ & ->)|(-> & _)]]; auto; intros rp' _; [destruct rp; exact Bv|reflexivity].
Qed.
Lemma step_bundled o v : bundled v -> bundled (v_step E o v).
Proof.
  destruct o as [d|raw rp|n src f|]; cbn [v_step]; intros B.
  - apply put_meta_bundled; auto.
  - apply put_root_bundled; auto.
  - unfold v_install. destruct src as [c|]; [|exact B]. destruct f; try exact B; apply bundled_new.
  - apply bundled_new.
Qed.
Lemma run_bundled l : forall v, bundled v -> bundled (v_run E l v).
Proof. induction l as [|o l IH]; intros v B; [exact B|]. apply IH, step_bundled, B. Qed.
Lemma replay_bundled ecu d tr : forall v, bundled v -> bundled (v_replay E ecu d v tr).
Proof.
  induction tr as [|e tr IH]; intros v B; [exact B|]. apply IH. destruct e; cbn [v_event]; auto; destruct (String.eqb ecu _); auto.
  - apply put_root_bundled; auto.
  - apply put_meta_bundled; auto.
Qed.
End Inv.

(** What the answer to metadata says. *)
Section Exact.
Context (E : Env).
Lemma base_nonempty j b : base_init j = Ok b -> jempty j = false.
Proof. intros H. destruct j as [| | | | |[|? ?]|[|? ?]]; try reflexivity; vm_compute in H; discriminate. Qed.
Lemma root_nonempty j rt : root_of_json E j = Ok rt -> jempty j = false.
Proof. unfold root_of_json. intros H. apply bind_ok in H. destruct H as (b & B & _). eapply base_nonempty; eauto. Qed.
Lemma targets_nonempty j t : targets_of_json E j = Ok t -> jempty j = false.
Proof. unfold targets_of_json. intros H. apply bind_ok in H. destruct H as (b & B & _). eapply base_nonempty; eauto. Qed.

Lemma consistent_exact v raw j rt t : root_of_json E (parse E raw) = Ok rt -> targets_of_json E j = Ok t -> vs_droot v = rt -> vs_dtargets v = j ->
  (is_consistent E v = Ok true <-> suits E raw j) /\ (is_consistent E v = Ok false -> ~ suits E raw j).
Proof.
  intros R T Dr Dt. destruct (root_parts E _ _ R) as (Pc & O). pose proof (root_nonempty _ _ R) as N1. pose proof (targets_nonempty _ _ T) as N2.
  unfold is_consistent, suits. rewrite Dr, Dt, O, N1, N2, R. cbn [bind]. unfold root_unpack. rewrite Pc.
  destruct (unpack_signed E (rt_ks rt) role_root (parse E raw)) as [[]|e] eqn:U; cbn [bind].
  - destruct (targets_of_json_signed E (unpack_signed E (rt_ks rt)) role_targets j) as [t'|e] eqn:S; cbn [bind].
    + split; [split; [intros _; exists rt, t'; auto|reflexivity]|discriminate].
    + split; [split|].
      * destruct (is_uptane e); discriminate.
      * intros (rt' & t' & R' & _ & S'). injection R' as <-. congruence.
      * intros _ (rt' & t' & R' & _ & S'). injection R' as <-. congruence.
  - split; [split|].
    + destruct (is_uptane e); discriminate.
    + intros (rt' & t' & R' & U' & _). injection R' as <-. congruence.
    + intros _ (rt' & t' & R' & U' & _). injection R' as <-. congruence.
Qed.

Lemma put_meta_exact d v v' r : v_put_metadata E d v = (v', Ok r) ->
  (ir_success r = true <-> exists m, get_metadata d = Ok (Some m) /\ suits E (m_droot m) (parse E (m_dtargets m))) /\
  (forall m, get_metadata d = Ok (Some m) -> root_doc E (m_droot m) (v_root_version Director v') /\ root_doc E (m_iroot m) (v_root_version Image v') /\
     vs_dtargets v' = parse E (m_dtargets m)).
Proof.
  unfold v_put_metadata. destruct (get_metadata d) as [[m|]|e]; [| |discriminate].
  - unfold raw_to_meta.
    destruct (root_of_json E (parse E (m_droot m))) as [dr|] eqn:DR; [|discriminate].
    destruct (targets_of_json E (parse E (m_dtargets m))) as [dt|] eqn:DT; [|discriminate].
    destruct (root_of_json E (parse E (m_iroot m))) as [ir|] eqn:IR; [|discriminate].
    destruct (timestamp_of_json (parse E (m_itime m))); [|discriminate]. destruct (snapshot_of_json (parse E (m_isnap m))); [|discriminate].
    destruct (targets_of_json E (parse E (m_itargets m))); [|discriminate].
    unfold verdict. intros H. injection H as <- H.
    match type of H with (match is_consistent E ?x with _ => _ end) = _ => set (v1 := x) in * end.
    destruct (consistent_exact v1 (m_droot m) (parse E (m_dtargets m)) dr dt DR DT eq_refl (targets_orig E _ _ DT)) as (C1 & C2).
    split.
    + destruct (is_consistent E v1) as [[]|]; [| |discriminate]; injection H as <-; split.
      * intros _. exists m. split; auto. now apply C1.
      * reflexivity.
      * discriminate.
      * intros (m' & G & S). injection G as <-. destruct (C2 eq_refl S).
    + intros m' G. injection G as <-. split; [exists dr; auto|]. split; [exists ir; auto|]. apply (targets_orig E _ _ DT).
  - intros H. injection H as <- <-. split; [split; [discriminate|intros (m & G & _); discriminate]|intros m G; discriminate].
Qed.
End Exact.
