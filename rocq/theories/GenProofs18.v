(** The usual way to order an update, and the check of a device that follows the repositories. *)
From Verif Require Import Base Json TufModel TufSpec TufProofs MetaStore RepoModel RepoSpec RepoProofs RepoProofs4 ClientModel ClientSpec ChkSpec OrdSpec OrdProofs OrdProofs2
  GenModel GenSpec GenSpec2 GenProofs GenProofs2 GenProofs3 GenProofs4 GenProofs5 GenProofs7 GenProofs8 GenProofs10 GenProofs11 GenProofs12 GenProofs14 GenProofs15 GenProofs16 GenProofs17.
From Verif Require GenProofs13.

Section Workflow.
Context (E : Env) (keyid : pubkey -> string) (depth : nat) (fnm : string -> string -> bool) (HE : env_ok E).
Notation runs := (runs E keyid depth fnm).

Lemma runs_cons c cs k k' : runs k (c :: cs) k' -> exists I k1 l, invocation_ok E keyid I k /\ arguments_ok E keyid I c /\ run_command E keyid depth fnm I c k = (k1, l, Ok tt) /\ Forall (bounded_disk E) l /\ runs k1 cs k'.
Proof. inversion 1; subst. eauto 9. Qed.
Lemma runs_nil k k' : runs k [] k' -> k' = k. Proof. now inversion 1. Qed.
Lemma publish_side k k' rp rn v : side_of rp k = side_of rp k' -> publish k rp rn v = publish k' rp rn v.
Proof. intros H. unfold publish. now rewrite H. Qed.
Lemma same_targets cu e ts v cu' e' ts' v' d : to_sign E d (tgt_shape cu None e ts v) -> to_sign E d (tgt_shape cu' None e' ts' v') -> ts' = ts /\ v' = v.
Proof.
  intros A B. pose proof (to_sign_fun E _ _ _ A B) as e0. split.
  - pose proof (jget_tgt_targets cu None e ts v) as X. rewrite e0, jget_tgt_targets in X. congruence.
  - pose proof (jget_tgt_version cu None e ts v) as X. rewrite e0, jget_tgt_version in X. congruence.
Qed.
Lemma only_member s h (l : list (string * string)) : NoDup (map fst l) -> (forall a b, In (a, b) l <-> a = s /\ b = h) -> l = [(s, h)].
Proof.
  intros N H. destruct l as [|(a, b) l]; [exfalso; apply (proj2 (H s h)); auto|]. destruct (proj1 (H a b) ltac:(now left)) as (-> & ->).
  destruct l as [|(a, b) l]; [reflexivity|]. destruct (proj1 (H a b) ltac:(now (right; left))) as (-> & ->). cbn in N. inversion N as [|? ? X]. exfalso. apply X. now left.
Qed.

(** ** What the four commands publish *)
Theorem ordered visible k d ok k' content name hw serial url url' expires names raw rawd : follows E keyid depth fnm staged_first visible k d ok ->
  runs k [CImage (IBinary content) name hw url None; CEmptyTargets; CAddTarget name hw serial url' expires names; CSignTargets] k' ->
  publish k' Image "targets" (-1) = Ok raw -> publish k' Director "targets" (-1) = Ok rawd ->
  exists ti i td x, targets_doc E "targets" (parse E raw) ti /\ In i (tg_targets ti) /\ describes E i content name hw url /\
    targets_doc E "targets" (parse E rawd) td /\ tg_targets td = [x] /\ orders E x content name serial hw /\ t_hwids x = [] /\ t_uri x = shown_url url' /\ (1 <= String.length serial <= 64)%nat.
Proof.
  intros F H Pi Pd. apply director_core in F as (KD & KI & HD & HK & CD & CI); [|exact HE].
  apply runs_cons in H as (I1 & k1 & l1 & Iv1 & A1 & H1 & B1 & H). apply runs_cons in H as (I2 & k2 & l2 & Iv2 & A2 & H2 & B2 & H).
  apply runs_cons in H as (I3 & k3 & l3 & Iv3 & A3 & H3 & B3 & H). apply runs_cons in H as (I4 & k4 & l4 & Iv4 & A4 & H4 & B4 & H). apply runs_nil in H. subst k'.
  destruct (image_step E keyid depth fnm HE KI I1 _ k k1 l1 _ HK CI (eq_refl : is_generate (CImage (IBinary content) name hw url None) = false) Iv1 A1 H1 B1) as ((C1 & _) & _).
  assert (D1 : k_dir k1 = k_dir k) by (cbn [run_command] in H1; apply on_side_run in H1 as (s & _ & _ & -> & _); reflexivity).
  assert (CD1 : core E keyid Director KD (k_dir k1)) by now rewrite D1.
  destruct (director_step E keyid depth fnm HE KD KI I2 CEmptyTargets k1 k2 l2 _ HD CD1 C1 eq_refl Logic.I Iv2 Logic.I H2 B2) as ((CD2 & _) & _).
  assert (M2 : k_img k2 = k_img k1) by (cbn [run_command] in H2; apply on_side_run in H2 as (s & _ & _ & -> & _); reflexivity).
  assert (exists cu e v, to_sign E (k_dir k2) (tgt_shape cu None e (JObj []) v)) as (cu & e & v & T2).
  { cbn [run_command] in H2. apply on_side_run in H2 as (s & H2 & _ & -> & _). destruct (core_tfile E keyid _ _ _ CD1) as (cu & de & e & ts & v & F & G & P).
    destruct (empty_inv E HE I2 (start (k_dir k1)) s cu de e ts v H2) as (cu' & e' & T & _); try apply Iv2; try apply G; try exact F; [|eauto].
    destruct CD1 as (_ & _ & _ & _ & _ & (_ & X) & _). now apply X. }
  assert (C2 : core E keyid Image KI (k_img k2)) by now rewrite M2.
  destruct (director_step E keyid depth fnm HE KD KI I3 _ k2 k3 l3 _ HD CD2 C2 (eq_refl : is_generate (CAddTarget name hw serial url' expires names) = false) Logic.I Iv3 A3 H3 B3) as ((CD3 & _) & _).
  destruct (image_step E keyid depth fnm HE KI I3 _ k2 k3 l3 _ HK C2 (eq_refl : is_generate (CAddTarget name hw serial url' expires names) = false) Iv3 A3 H3 B3) as (_ & _ & (M3 & _)).
  assert (C3 : core E keyid Image KI (k_img k3)) by now rewrite M3.
  destruct (sign_content E keyid depth fnm HE KD KI I4 k3 k4 l4 rawd HD CD3 C3 Iv4 H4 B4 Pd) as (cu4 & e4 & ts4 & v4 & T4 & P4 & _ & G4 & _ & M4 & (td & Td) & R4). destruct (R4 _ Td) as (V4 & L4).
  assert (Pi1 : publish k1 Image "targets" (-1) = Ok raw) by (rewrite <- Pi; apply publish_side; cbn [side_of]; congruence).
  assert (Pi2 : publish k2 Image "targets" (-1) = Ok raw) by (rewrite <- Pi; apply publish_side; cbn [side_of]; congruence).
  destruct (image_content E keyid depth fnm HE KI I1 k k1 l1 (IBinary content) name hw url _ raw HK CI Iv1 A1 H1 B1 eq_refl Pi1) as (ti & c & i & Ti & _ & Hc & Yi & Ii & _).
  destruct A1 as (Im & An & (Ah & Ah2) & Au).
  pose proof (read_binary E content url hw name c i Im Ah2 Hc Yi) as De.
  destruct (add_target_content E keyid depth fnm HE KD KI I3 k2 k3 l3 name hw serial url' expires names ti i HD CD2 C2 Iv3 A3 H3) as (c3 & y & e' & cu3 & e3 & ts3 & ts' & v3 & cu2 & de2 & e2 & ts2 & v2 & Y & As & J & T3 & P3 & G3 & T' & _).
  { exists raw. auto. } { exact Ii. } { exact (de_name _ _ _ _ _ _ De). }
  destruct (same_targets _ _ _ _ _ _ _ _ _ T2 T3) as (-> & _). destruct (same_targets _ _ _ _ _ _ _ _ _ T' T4) as (-> & _).
  injection J as <-. cbn [jiter oput parse_target_list] in L4. rewrite Y in L4. cbn in L4. injection L4 as L4.
  exists ti, i, td, y. split; [exact Ti|]. split; [exact Ii|]. split; [exact De|]. split; [exact Td|]. split; [congruence|].
  assert (Ec : t_ecus y = [(serial, hw)]).
  { apply only_member; [apply As|]. intros a b. rewrite (as_ecus _ _ _ _ _ As a b), (de_ecus _ _ _ _ _ _ De). cbn. tauto. }
  split; [|split; [apply As|split; [apply As|apply A3]]].
  constructor; [rewrite (as_name _ _ _ _ _ As); apply De|rewrite (as_hashes _ _ _ _ _ As); apply De|rewrite (as_length _ _ _ _ _ As); apply De|rewrite (as_type _ _ _ _ _ As); apply De|exact Ec].
Qed.

(** ** The check of the device *)
Lemma director_nul KD k : core E keyid Director KD (k_dir k) -> forall raw, publish k Director "targets" (-1) = Ok raw -> nul_free raw.
Proof.
  intros C raw P. destruct C as (_ & _ & (cu & de & e & ts & v & _ & (text & F & T)) & _). apply (publish_get Director k) in P. change (document_path "targets" (-1)) with "targets.json" in P. cbn [side_of] in P.
  assert (raw = text) as -> by congruence. eapply GenProofs13.text_nul; eauto.
Qed.
Lemma ordered_listed x i ti content name hw serial url : describes E i content name hw url -> orders E x content name serial hw -> t_hwids x = [] -> In i (tg_targets ti) -> listed ti x.
Proof.
  intros De Or Hw Hi. exists i. split; [exact Hi|]. split; [rewrite (or_name _ _ _ _ _ _ Or); apply De|]. split; [rewrite (or_length _ _ _ _ _ _ Or); apply De|].
  rewrite (or_hashes _ _ _ _ _ _ Or), (de_hashes _ _ _ _ _ _ De). split; [|split].
  - right. left. unfold hw_covers. rewrite (de_hw _ _ _ _ _ _ De), (de_ecus _ _ _ _ _ _ De), (or_ecus _ _ _ _ _ _ Or). split; [discriminate|]. split; [reflexivity|]. split; [exact Hw|]. split; [discriminate|].
    intros a b [X|[]]. injection X as <- <-. now left.
  - eexists. split; left; reflexivity.
  - intros h1 h2 [<-|[<-|[]]] [<-|[<-|[]]]; cbn; congruence.
Qed.
Theorem offered k d ok k' d' s content name hw serial url url' expires names clkd clki now v :
  follows E keyid depth fnm staged_first (one_per_ecu E) k d ok ->
  runs k [CImage (IBinary content) name hw url None; CEmptyTargets; CAddTarget name hw serial url' expires names; CSignTargets] k' ->
  follows E keyid depth fnm staged_first (one_per_ecu E) k' d' true -> u_db s = d' -> servable E k' Director clkd -> servable E k' Image clki ->
  ecu_present v serial hw -> v_ostree v = false -> installed_answers v ->
  (forall c, v_installed v serial = Ok (Some (Some c)) -> t_filename c <> name) ->
  snapshot_collision E k' d' \/
  exists s' x y n, check_updates E fnm (publish k') clkd clki now v s = (s', Ok (UcUpdates [y] n)) /\ orders E x content name serial hw /\ t_uri x = shown_url url' /\ but_uri x y.
Proof.
  intros F0 H F <- Vd Vi Ep Os Ia New.
  pose proof (director_follow E keyid depth fnm HE _ _ _ F) as (KD & _ & HD & _ & CD & _ & RD). pose proof (image_follow E keyid depth fnm HE _ _ _ _ _ F) as (KI & HK & CI & RI & S). specialize (S eq_refl).
  destruct (GenProofs13.roots_ready E keyid HE Image KI HK k' clki CI Vi (u_db s) RI) as (li & Ri & ROi & RKi).
  destruct (GenProofs13.image_ready E keyid HE KI k' clki CI Vi S (u_db s) RI li Ri RKi) as [X|(tm & sn & ti & raw & IO & Pi & Ti)]; [now left|right].
  assert (exists rawd, publish k' Director "targets" (-1) = Ok rawd) as (rawd & Pd).
  { pose proof CD as (_ & _ & (cu & de & e & ts & w & _ & (text & Fx & T)) & _). exists text. apply (sv_small E k' Director clkd Vd). exact Fx. }
  destruct (ordered (one_per_ecu E) k d ok k' content name hw serial url url' expires names raw rawd F0 H Pi Pd) as (ti' & i & td & x & Ti' & Ii & De & Td & Lx & Or & Hw & Ux & Ls).
  assert (ti' = ti) as -> by (destruct Ti as (b1 & Z1), Ti' as (b2 & Z2); congruence).
  assert (One : one_per_ecu E k').
  { intros r t P T. rewrite Pd in P. injection P as <-. assert (t = td) as -> by (destruct T as (b1 & Z1), Td as (b2 & Z2); congruence). unfold one_target_per_ecu. rewrite Lx. cbn. rewrite (or_ecus _ _ _ _ _ _ Or). cbn. constructor; [intros []|constructor]. }
  destruct (GenProofs13.roots_ready E keyid HE Director KD HD k' clkd CD Vd (u_db s) RD) as (ld & Rd & ROd & RKd).
  destruct (director_ready E keyid HE KD k' clkd CD Vd One (u_db s) RD ld Rd RKd) as (td' & rawd' & DO & Pd' & Td'). rewrite Pd in Pd'. injection Pd' as <-.
  assert (td' = td) as -> by (destruct Td as (b1 & Z1), Td' as (b2 & Z2); congruence).
  destruct (check_finds E fnm (publish k') clkd clki now v s ld Rd td li Ri tm sn ti (director_nul KD k' CD) ROd DO) as (s' & r & CU & _ & Res); auto.
  { rewrite Lx. discriminate. }
  { intros t Ht. rewrite Lx in Ht. destruct Ht as [<-|[]]. split; [|split].
    - intros a b Hab. rewrite (or_ecus _ _ _ _ _ _ Or) in Hab. destruct Hab as [e|[]]. injection e as <- <-. exact Ep.
    - eapply ordered_listed; eauto.
    - intros a b c Hab Hc Hn. exfalso. rewrite (or_ecus _ _ _ _ _ _ Or) in Hab. destruct Hab as [e|[]]. injection e as <- <-. apply (New c Hc). now rewrite Hn, (or_name _ _ _ _ _ _ Or). }
  assert (W : wanted v x).
  { exists serial, hw. rewrite (or_ecus _ _ _ _ _ _ Or). split; [now left|]. destruct (Ia serial) as (cur & Hc). exists cur. split; [exact Hc|]. destruct cur as [c|]; [|exact Logic.I].
    assert (t_filename c <> t_filename x) by (rewrite (or_name _ _ _ _ _ _ Or); now apply New). split; [|assumption]. intros (Q & _). contradiction. }
  destruct r as [| |l n]; [contradiction|exfalso; apply (Res x); [rewrite Lx; now left|exact W]|].
  destruct Res as (l0 & Sel & _ & F2). rewrite Lx in Sel. inversion Sel as [|? ? l1 _ Sel1|? ? l1 NW _]; subst; [|contradiction]. inversion Sel1; subst. inversion F2 as [|? y ? l2 Bu F3]; subst. inversion F3; subst.
  exists s', x, y, n. auto.
Qed.
End Workflow.
