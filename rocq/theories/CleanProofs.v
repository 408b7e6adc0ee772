From Verif Require Import Base Json TufModel CodecModel CodecSpec CodecProofs InstModel InstSpec InstProofs InstProofs2 DlModel DlSpec DlProofs CleanModel CleanSpec.
From Coq Require Import Sorting.Sorted.

Section P.
Context (savec : json -> string) (Good : target -> Prop).
(** The current version is the last one that was installed. *)
Record cl (d : idb) : Prop := {
  cl_sorted : StronglySorted (fun a b => i_id a < i_id b) (il_log d);
  cl_last : forall r r', In r (il_log d) -> In r' (il_log d) -> i_cur r = true -> i_was r' = true -> i_ecu r' = i_ecu r -> i_id r' <= i_id r;
  cl_was : forall r, In r (il_log d) -> i_cur r = true -> i_was r = true }.
Lemma sorted_map f l : (forall r, i_id (f r) = i_id r) -> StronglySorted (fun a b => i_id a < i_id b) l -> StronglySorted (fun a b => i_id a < i_id b) (map f l).
Proof.
  intros H S. induction S as [|a l S IH F]; [constructor|]. cbn. constructor; [exact IH|]. rewrite Forall_forall in *. intros x Hx.
  apply in_map_iff in Hx as (y & <- & Hy). rewrite !H. auto.
Qed.
Lemma sorted_snoc l x : (forall r, In r l -> i_id r < i_id x) -> StronglySorted (fun a b => i_id a < i_id b) l -> StronglySorted (fun a b => i_id a < i_id b) (l ++ [x]).
Proof.
  intros H S. induction S as [|a l S IH F]; [repeat constructor|]. cbn. constructor.
  - apply IH. intros r Hr. apply H. now right.
  - rewrite Forall_app. split; [exact F|]. constructor; [apply H; now left|constructor].
Qed.
Lemma last_row_max s : forall l x, last_row s l = Some x -> forall r, In r l -> i_ecu r = s -> i_id r <= i_id x.
Proof.
  induction l as [|a l IH]; intros x; [discriminate|]. cbn. destruct (last_row s l) as [y|] eqn:E.
  - destruct (String.eqb_spec (i_ecu a) s) as [Ha|Ha]; cbn.
    + destruct (Z.ltb_spec (i_id y) (i_id a)); intros [= <-] r [<- | Hr] Es; try lia; specialize (IH y eq_refl r Hr Es); lia.
    + intros [= <-] r [<- | Hr] Es; [congruence|auto].
  - destruct (String.eqb_spec (i_ecu a) s) as [Ha|Ha]; intros X; inversion X; subst. intros r [<- | Hr] Es; [lia|]. exfalso.
    clear - E Hr Es. induction l as [|b l IH]; [easy|]. cbn in E. destruct (last_row _ l) eqn:F; [now destruct (String.eqb (i_ecu b) _ && _)|].
    destruct (String.eqb_spec (i_ecu b) (i_ecu x)); [discriminate|]. destruct Hr as [<- | Hr]; [congruence|auto].
Qed.
Lemma reset_was m s r : i_was (reset_flags m s r) = i_was r /\ (i_cur (reset_flags m s r) = true -> i_cur r = true /\ (m = ModeCurrent -> i_ecu r <> s)).
Proof.
  unfold reset_flags. destruct (String.eqb_spec (i_ecu r) s), m; cbn; split; try easy; intros; split; try easy; discriminate.
Qed.
Lemma update_flags m t o r : i_id r <> i_id o -> update_row m t o r = r.
Proof. intros H. unfold update_row. apply Z.eqb_neq in H. now rewrite H. Qed.
Lemma save_cl s0 t m d : cl d -> cl (save_installed savec s0 t m d).
Proof.
  intros [S L W]. set (serial := real_serial d s0).
  assert (ID : forall r, i_id (reset_flags m serial r) = i_id r) by (intros; apply reset_id).
  assert (EC : forall r, i_ecu (reset_flags m serial r) = i_ecu r) by (intros; apply reset_id).
  assert (U : forall a b, In a (il_log d) -> In b (il_log d) -> i_id a = i_id b -> a = b).
  { assert (N : NoDup (ids (il_log d))).
    { clear - S. induction S as [|a l S IH F]; [constructor|]. cbn. constructor; [|exact IH]. intros H. apply in_map_iff in H as (r & E & Hr).
      rewrite Forall_forall in F. apply F in Hr. lia. }
    intros a b Ha Hb. now apply (ids_inj (il_log d)). }
  pose proof (save_log savec s0 t m d) as SL. fold serial in SL.
  destruct (old_of serial t d) as [o|] eqn:O.
  - assert (Mx : forall r, In r (il_log d) -> i_ecu r = serial -> i_id r <= i_id o).
    { unfold old_of in O. destruct (last_row serial (il_log d)) as [x|] eqn:LR; [|discriminate]. destruct (same_version t x); inversion O; subst. now apply last_row_max. }
    destruct (old_of_in _ _ _ _ O) as (Ho & He & _ & _).
    assert (V : forall r, In r (il_log d) -> let z := update_row m t o (reset_flags m serial r) in
      i_id z = i_id r /\ i_ecu z = i_ecu r /\
      (r = o -> i_cur z = is_cur m /\ i_was z = is_cur m || i_was o) /\ (r <> o -> z = reset_flags m serial r)).
    { intros r Hr z. unfold z. destruct (update_id m t o (reset_flags m serial r)) as (E1 & E2 & _). rewrite E1, E2, ID, EC. split; [easy|]. split; [easy|]. split.
      - intros ->. unfold update_row. rewrite ID, Z.eqb_refl. easy.
      - intros NE. apply update_flags. rewrite ID. intros X. now apply NE, U. }
    constructor; rewrite SL.
    + apply sorted_map; [intros; apply update_id|]. now apply sorted_map.
    + intros z z' Hz Hz' C Wz E. rewrite map_map in Hz, Hz'. apply in_map_iff in Hz as (r & <- & Hr). apply in_map_iff in Hz' as (r' & <- & Hr').
      destruct (V r Hr) as (I1 & I2 & A & B). destruct (V r' Hr') as (I1' & I2' & A' & B'). cbn zeta in *. rewrite I1, I1'. rewrite I2, I2' in E.
      destruct (Z.eq_dec (i_id r) (i_id o)) as [X|X].
      * apply (U r o Hr Ho) in X. subst r. apply Mx; [exact Hr'|congruence].
      * assert (NE : r <> o) by congruence. rewrite (B NE) in C. destruct (reset_was m serial r) as (_ & R2). destruct (R2 C) as (C1 & C2).
        destruct (Z.eq_dec (i_id r') (i_id o)) as [Y|Y].
        -- apply (U r' o Hr' Ho) in Y. subst r'. destruct (A' eq_refl) as (_ & A2). rewrite A2 in Wz. apply orb_prop in Wz as [Wz|Wz].
           ++ destruct m; try discriminate. exfalso. apply (C2 eq_refl). congruence.
           ++ now apply L.
        -- assert (NE' : r' <> o) by congruence. rewrite (B' NE') in Wz. destruct (reset_was m serial r') as (R1 & _). rewrite R1 in Wz. now apply L.
    + intros z Hz C. rewrite map_map in Hz. apply in_map_iff in Hz as (r & <- & Hr). destruct (V r Hr) as (_ & _ & A & B). cbn zeta in *.
      destruct (Z.eq_dec (i_id r) (i_id o)) as [X|X].
      * apply (U r o Hr Ho) in X. subst r. destruct (A eq_refl) as (A1 & A2). rewrite A1 in C. rewrite A2, C. reflexivity.
      * assert (NE : r <> o) by congruence. rewrite (B NE) in *. destruct (reset_was m serial r) as (R1 & R2). rewrite R1. apply W; [exact Hr|now apply R2].
  - set (l := map (reset_flags m serial) (il_log d)) in *.
    assert (NI : forall r, In r l -> i_id r < next_id l) by (intros; now apply next_id_gt).
    constructor; rewrite SL.
    + apply sorted_snoc; [exact NI|]. now apply sorted_map.
    + intros z z' Hz Hz' C Wz E. apply in_app_iff in Hz as [Hz | [<- | []]]; apply in_app_iff in Hz' as [Hz' | [<- | []]].
      * apply in_map_iff in Hz as (r & <- & Hr). apply in_map_iff in Hz' as (r' & <- & Hr'). rewrite !ID. rewrite !EC in E.
        destruct (reset_was m serial r) as (_ & R2). destruct (reset_was m serial r') as (R1' & _). rewrite R1' in Wz. apply L; auto. now apply R2.
      * exfalso. apply in_map_iff in Hz as (r & <- & Hr). rewrite EC in E. destruct (reset_was m serial r) as (_ & R2). destruct (R2 C) as (_ & C2).
        cbn in Wz, E. destruct m; try discriminate. now apply (C2 eq_refl).
      * apply NI in Hz'. cbn. lia.
      * lia.
    + intros z Hz C. apply in_app_iff in Hz as [Hz | [<- | []]].
      * apply in_map_iff in Hz as (r & <- & Hr). destruct (reset_was m serial r) as (R1 & R2). rewrite R1. apply W; [exact Hr|now apply R2].
      * exact C.
Qed.
Lemma step_cl d o : cl d -> iop_safe Good d o -> cl (istep savec d o).
Proof.
  intros H Sf. destruct o as [s t m|l| |]; cbn [istep].
  - now apply save_cl.
  - destruct l as [|(p, hw) l]; [exact H|]. cbn [store_ecu_serials]. destruct (nodupb _); [|exact H]. cbn in Sf. destruct Sf as (Hp & Hs).
    assert (Hsame : forall a b, In a (il_log d) -> In b (il_log d) -> i_ecu (rekey p a) = i_ecu (rekey p b) -> i_ecu a = i_ecu b).
    { intros a b Ha Hb. unfold rekey. destruct (String.eqb_spec (i_ecu a) "") as [Ea|Ea], (String.eqb_spec (i_ecu b) "") as [Eb|Eb]; simpl; intros E; try congruence.
      - exfalso. destruct Hs as [Hs | Hs]; [now apply (Hs a)|now apply (Hs b)].
      - exfalso. destruct Hs as [Hs | Hs]; [now apply (Hs b)|now apply (Hs a)]. }
    assert (K : forall r, i_id (rekey p r) = i_id r /\ i_cur (rekey p r) = i_cur r /\ i_was (rekey p r) = i_was r).
    { intros r. unfold rekey. now destruct (String.eqb (i_ecu r) ""). }
    destruct H as [S L W]. constructor; cbn [il_log].
    + apply sorted_map; [intros; apply K|exact S].
    + intros r r' Hr Hr' C Ws E. apply in_map_iff in Hr as (a & <- & Ha). apply in_map_iff in Hr' as (b & <- & Hb).
      destruct (K a) as (K1 & K2 & K3). destruct (K b) as (K1' & K2' & K3'). rewrite K1, K1'. apply L; auto; congruence.
    + intros r Hr C. apply in_map_iff in Hr as (a & <- & Ha). destruct (K a) as (K1 & K2 & K3). rewrite K3. apply W; [exact Ha|congruence].
  - destruct H. now constructor.
  - constructor; cbn; try easy. constructor.
Qed.
Lemma reach_cl d : ireach savec Good d -> cl d.
Proof. induction 1 as [|d o H IH S]; [constructor; cbn; try easy; constructor|now apply step_cl]. Qed.

(** So it is the last entry of the installation log of its ECU. *)
Lemma read_none loadc d s l : (forall r, In r l -> i_ecu r = s -> i_was r = false) -> read_log loadc d s true l = Ok [].
Proof.
  induction l as [|r l IH]; intros H; [reflexivity|]. cbn. destruct (String.eqb_spec (i_ecu r) s) as [E|E]; cbn.
  - rewrite (H r (or_introl eq_refl) E). apply IH. intros x Hx. apply H. now right.
  - apply IH. intros x Hx. apply H. now right.
Qed.
Lemma log_last loadc d s r : forall l, StronglySorted (fun a b => i_id a < i_id b) l -> In r l -> i_ecu r = s -> i_was r = true ->
  (forall r', In r' l -> i_was r' = true -> i_ecu r' = s -> i_id r' <= i_id r) ->
  forall ts, read_log loadc d s true l = Ok ts -> exists k t, ts = k ++ [t] /\ read_target loadc d s r = Ok t.
Proof.
  induction l as [|a l IH]; intros S Hr E Wr M ts; [easy|]. inversion S as [|? ? S' F]; subst. rewrite Forall_forall in F. cbn. destruct Hr as [<- | Hr].
  - rewrite String.eqb_refl, Wr. cbn. rewrite (read_none loadc d (i_ecu a) l).
    + destruct (read_target loadc d (i_ecu a) a) as [t|]; cbn; try discriminate. intros [= <-]. exists [], t. now split.
    + intros x Hx Ex. destruct (i_was x) eqn:Wx; [|reflexivity]. specialize (M x (or_intror Hx) Wx Ex). apply F in Hx. lia.
  - assert (IH' : forall ts, read_log loadc d (i_ecu r) true l = Ok ts -> exists k t, ts = k ++ [t] /\ read_target loadc d (i_ecu r) r = Ok t).
    { apply IH; auto. intros x Hx. apply M. now right. }
    destruct (String.eqb (i_ecu a) (i_ecu r) && i_was a).
    + destruct (read_target loadc d (i_ecu r) a) as [t|]; cbn; try discriminate.
      destruct (read_log loadc d (i_ecu r) true l) as [k|]; cbn; try discriminate. intros [= <-].
      destruct (IH' k eq_refl) as (k' & t' & -> & R). exists (t :: k'), t'. now split.
    + apply IH'.
Qed.
End P.

Section Q.
Context (loadc : string -> option json).
Lemma last_two_snoc k t : In t (last_two (k ++ [t])).
Proof.
  unfold last_two. rewrite app_length. cbn [List.length]. rewrite skipn_app. apply in_or_app. right.
  replace (List.length k + 1 - 2 - List.length k)%nat with 0%nat by lia. now left.
Qed.
Lemma log_entry d s hw : forall ecus log, In (s, hw) ecus -> install_log loadc d ecus = Ok log -> exists x, load_log loadc s true d = Ok x /\ In x log.
Proof.
  induction ecus as [|(a, b) l IH]; intros log Hin; [easy|]. cbn. destruct (load_log loadc a true d) as [x|] eqn:E; cbn; try discriminate.
  destruct (install_log loadc d l) as [k|] eqn:F; cbn; try discriminate. intros [= <-]. destruct Hin as [[= -> ->] | Hin].
  - exists x. split; [exact E|now left].
  - destruct (IH k Hin eq_refl) as (y & Y1 & Y2). exists y. split; [exact Y1|now right].
Qed.
Lemma mem_str_in x l : mem_str x l = true <-> In x l.
Proof.
  unfold mem_str. rewrite existsb_exists. split; [intros (y & H & E); apply String.eqb_eq in E; now subst|intros H; exists x; split; [exact H|apply String.eqb_refl]].
Qed.
Lemma remove_keeps keep t : In (t_filename t) keep -> forall names s, unshared s t -> stored t (remove_all keep names s) = stored t s.
Proof.
  intros K. induction names as [|n l IH]; intros s U; [reflexivity|]. cbn [remove_all]. destruct (mem_str n keep) eqn:M; [now apply IH|].
  assert (NE : n <> t_filename t) by (intros ->; apply mem_str_in in K; congruence).
  destruct (check_file (named n) s) as [f|] eqn:C; [|reflexivity].
  assert (CN : aget n (d_names s) = Some f).
  { unfold check_file in C. change (t_filename (named n)) with n in C. destruct (aget n (d_names s)) as [g|]; [|discriminate].
    destruct (String.eqb g ""); [discriminate|]. destruct (aget g (d_files s)); [|discriminate]. congruence. }
  unfold remove_file. rewrite C. change (t_filename (named n)) with n.
  rewrite IH.
  - unfold stored, check_file. cbn [d_names d_files]. rewrite !aget_adel.
    assert (NE' : String.eqb (t_filename t) n = false) by (apply String.eqb_neq; congruence). rewrite NE'.
    destruct (aget (t_filename t) (d_names s)) as [g|] eqn:G; [|reflexivity].
    assert (GF : String.eqb g f = false).
    { apply String.eqb_neq. intros ->. apply NE. now apply (U n f). }
    destruct (String.eqb g "") eqn:GE; [reflexivity|]. rewrite aget_adel, GF. destruct (aget g (d_files s)) eqn:FF; [|reflexivity]. now rewrite aget_adel, GF.
  - intros n' f' H1 H2. cbn [d_names] in *. rewrite aget_adel in H1, H2. destruct (String.eqb n' n); [discriminate|]. destruct (String.eqb (t_filename t) n); [discriminate|].
    now apply (U n' f').
Qed.
(** The version before the current one, and the current one. *)
Lemma autoclean_keeps d s t : (forall log, install_log loadc d (il_ecus d) = Ok log -> In (t_filename t) (kept_names log)) -> unshared s t ->
  stored t (autoclean loadc d s) = stored t s.
Proof. intros H U. unfold autoclean. destruct (install_log loadc d (il_ecus d)) as [log|]; [|reflexivity]. now apply remove_keeps; [apply H|]. Qed.
Lemma kept_in log x t : In x log -> In t (last_two x) -> In (t_filename t) (kept_names log).
Proof. intros H1 H2. unfold kept_names. apply in_map, in_concat. exists (last_two x). split; [now apply in_map|exact H2]. Qed.
Theorem current_kept savec Good d s t : ireach savec Good d -> in_use loadc d t -> unshared s t -> stored t (autoclean loadc d s) = stored t s.
Proof.
  intros R (ser & hw & p & Hin & HL) U. apply autoclean_keeps; [|exact U]. intros log Hlog.
  destruct (log_entry d ser hw _ log Hin Hlog) as (x & Hx & Ix). apply (kept_in log x); [exact Ix|].
  unfold load_log in Hx. unfold load_installed in HL. set (k := real_serial d ser) in *.
  destruct (read_opt loadc d k (cur_row k (il_log d))) as [oc|] eqn:C; cbn in HL; try discriminate.
  destruct (read_opt loadc d k (pend_row k (il_log d))) as [op|]; cbn in HL; try discriminate. injection HL as -> ->.
  destruct (cur_row k (il_log d)) as [r|] eqn:CR; [|discriminate]. cbn in C.
  destruct (read_target loadc d k r) as [t'|] eqn:RT; cbn in C; try discriminate. injection C as ->.
  destruct (cur_row_spec k _ r CR) as (Hr & He & Hc). destruct (reach_cl savec Good d R) as [S L W].
  destruct (log_last loadc d k r (il_log d) S Hr He (W r Hr Hc)) with (ts := x) as (k' & t2 & -> & R2); [|exact Hx|].
  - intros r' H1 H2 H3. apply (L r r'); congruence.
  - rewrite RT in R2. injection R2 as <-. apply last_two_snoc.
Qed.
End Q.
