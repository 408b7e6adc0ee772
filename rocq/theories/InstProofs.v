(** Proofs about the log of installed versions. *)
From Verif Require Import Base Json TufModel CodecModel CodecSpec CodecProofs InstModel InstSpec.

Section P.
Context (savec : json -> string) (Good : target -> Prop).

(** ** Unique keys *)
Definition ids (l : list irow) : list Z := map i_id l.
Lemma next_id_gt : forall l r, In r l -> i_id r < next_id l.
Proof.
  unfold next_id. induction l as [|x l IH]; intros r; [intros []|]. simpl. intros [-> | H]; [lia|]. apply IH in H. lia.
Qed.
Lemma reset_id m s r : i_id (reset_flags m s r) = i_id r /\ i_ecu (reset_flags m s r) = i_ecu r /\ i_sha (reset_flags m s r) = i_sha r /\
  i_name (reset_flags m s r) = i_name r /\ i_hashes (reset_flags m s r) = i_hashes r /\ i_len (reset_flags m s r) = i_len r /\
  i_corr (reset_flags m s r) = i_corr r /\ i_custom (reset_flags m s r) = i_custom r.
Proof. unfold reset_flags. destruct (String.eqb (i_ecu r) s), m; simpl; repeat split; reflexivity. Qed.
Lemma update_id m t o r : i_id (update_row m t o r) = i_id r /\ i_ecu (update_row m t o r) = i_ecu r /\ i_sha (update_row m t o r) = i_sha r /\
  i_name (update_row m t o r) = i_name r /\ i_hashes (update_row m t o r) = i_hashes r /\ i_len (update_row m t o r) = i_len r /\
  i_custom (update_row m t o r) = i_custom r.
Proof. unfold update_row. destruct (i_id r =? i_id o); simpl; repeat split; reflexivity. Qed.
Lemma rekey_id p r : i_id (rekey p r) = i_id r /\ i_sha (rekey p r) = i_sha r /\ i_name (rekey p r) = i_name r /\
  i_hashes (rekey p r) = i_hashes r /\ i_len (rekey p r) = i_len r /\ i_custom (rekey p r) = i_custom r /\
  i_cur (rekey p r) = i_cur r /\ i_pend (rekey p r) = i_pend r.
Proof. unfold rekey. destruct (String.eqb (i_ecu r) ""); simpl; repeat split; reflexivity. Qed.
Lemma map_ids f l : (forall r, i_id (f r) = i_id r) -> ids (map f l) = ids l.
Proof. intros H. unfold ids. rewrite map_map. apply map_ext. auto. Qed.
Lemma ids_inj l a b : NoDup (ids l) -> In a l -> In b l -> i_id a = i_id b -> a = b.
Proof.
  induction l as [|x l IH]; [intros _ []|]. intros H Ha Hb E. simpl in H. inversion H as [|? ? Hn Hd]; subst.
  assert (forall y, In y l -> i_id y <> i_id x) as Hx.
  { intros y Hy Ey. apply Hn. rewrite <- Ey. apply in_map. exact Hy. }
  destruct Ha as [-> | Ha], Hb as [-> | Hb]; auto.
  - exfalso. apply (Hx b Hb). auto.
  - exfalso. apply (Hx a Ha). auto.
Qed.
Lemma last_row_in s : forall l r, last_row s l = Some r -> In r l /\ i_ecu r = s.
Proof.
  induction l as [|x l IH]; intros r; simpl; [discriminate|].
  destruct (last_row s l) as [y|].
  - destruct (IH y eq_refl) as (H1 & H2). destruct (String.eqb (i_ecu x) s && (i_id y <? i_id x)) eqn:E; intros H; inversion H; subst; auto.
    apply andb_prop in E. destruct E as (E & _). apply String.eqb_eq in E. auto.
  - destruct (String.eqb (i_ecu x) s) eqn:E; intros H; inversion H; subst. apply String.eqb_eq in E. auto.
Qed.

(** ** The invariant *)
Record wf (d : idb) : Prop := {
  wf_ids : NoDup (ids (il_log d));
  wf_cur : forall a b, In a (il_log d) -> In b (il_log d) -> i_ecu a = i_ecu b -> i_cur a = true -> i_cur b = true -> a = b;
  wf_pend : forall a b, In a (il_log d) -> In b (il_log d) -> i_ecu a = i_ecu b -> i_pend a = true -> i_pend b = true -> a = b;
  wf_rows : forall r, In r (il_log d) -> exists t, Good t /\ i_sha r = sha256_hash t /\ i_name r = t_filename t /\
    i_hashes r = encode_vector (t_hashes t) /\ i_len r = to_int64 (t_length t) /\ i_custom r = savec (t_custom t) }.

(** What a row of the new table is. *)
Definition old_of (serial : string) (t : target) (d : idb) : option irow :=
  match last_row serial (il_log d) with Some r => if same_version t r then Some r else None | None => None end.
Lemma old_of_in serial t d o : old_of serial t d = Some o -> In o (il_log d) /\ i_ecu o = serial /\ i_sha o = sha256_hash t /\ i_name o = t_filename t.
Proof.
  unfold old_of. destruct (last_row serial (il_log d)) as [r|] eqn:E; [|discriminate]. destruct (same_version t r) eqn:S; [|discriminate].
  intros H; inversion H; subst. apply last_row_in in E. unfold same_version in S. apply andb_prop in S. destruct S as (S1 & S2).
  apply String.eqb_eq in S1. apply String.eqb_eq in S2. destruct E. repeat split; assumption.
Qed.
Lemma save_log s0 t m d : il_log (save_installed savec s0 t m d) =
  match old_of (real_serial d s0) t d with
  | Some o => map (update_row m t o) (map (reset_flags m (real_serial d s0)) (il_log d))
  | None => map (reset_flags m (real_serial d s0)) (il_log d) ++
            [new_row savec m t (real_serial d s0) (next_id (map (reset_flags m (real_serial d s0)) (il_log d)))]
  end.
Proof. reflexivity. Qed.
(** Each row of the new table is a row of the old one with the flags reset, except for one row [x], the recorded one. *)
Lemma save_rows s0 t m d : wf d -> let serial := real_serial d s0 in
  exists x, In x (il_log (save_installed savec s0 t m d)) /\ i_ecu x = serial /\ i_cur x = is_cur m /\ i_pend x = is_pend m /\
    i_sha x = sha256_hash t /\ i_name x = t_filename t /\ i_corr x = t_corr t /\
    (old_of serial t d = None -> i_hashes x = encode_vector (t_hashes t) /\ i_len x = to_int64 (t_length t) /\ i_custom x = savec (t_custom t)) /\
    (forall r', In r' (il_log (save_installed savec s0 t m d)) <->
       r' = x \/ exists r, In r (il_log d) /\ r' = reset_flags m serial r /\ old_of serial t d <> Some r).
Proof.
  intros W serial. rewrite save_log. fold serial. destruct (old_of serial t d) as [o|] eqn:Eo.
  - destruct (old_of_in _ _ _ _ Eo) as (Ho & He & Hs & Hn).
    exists (update_row m t o (reset_flags m serial o)).
    destruct (reset_id m serial o) as (R1 & R2 & R3 & R4 & R5 & R6 & R7 & R8).
    assert (Hx : update_row m t o (reset_flags m serial o) = {| i_id := i_id o; i_ecu := i_ecu o; i_sha := i_sha o; i_name := i_name o;
       i_hashes := i_hashes o; i_len := i_len o; i_corr := t_corr t; i_cur := is_cur m; i_pend := is_pend m; i_was := is_cur m || i_was o; i_custom := i_custom o |}).
    { unfold update_row. rewrite R1, Z.eqb_refl. now rewrite R2, R3, R4, R5, R6, R8. }
    split; [apply in_map; apply in_map; exact Ho|]. rewrite Hx. simpl. rewrite He, Hs, Hn. repeat (split; [reflexivity|]).
    split; [discriminate|]. intros r'. rewrite map_map, in_map_iff. split.
    + intros (r & Hr & Hin). destruct (Z.eq_dec (i_id r) (i_id o)) as [E | E].
      * left. assert (r = o) by (eapply ids_inj; [apply W|assumption|assumption|assumption]). subst r. rewrite <- Hr, Hx. now rewrite He, Hs, Hn.
      * right. exists r. split; auto. destruct (reset_id m serial r) as (Q1 & _). unfold update_row in Hr. rewrite Q1 in Hr.
        rewrite (proj2 (Z.eqb_neq _ _) E) in Hr. split; [now symmetry|]. intros H. inversion H; subst. now apply E.
    + intros [-> | (r & Hin & -> & Hne)].
      * exists o. split; [|exact Ho]. now rewrite Hx, He, Hs, Hn.
      * exists r. split; [|exact Hin]. destruct (reset_id m serial r) as (Q1 & _). unfold update_row. rewrite Q1.
        destruct (Z.eqb_spec (i_id r) (i_id o)) as [E|]; auto. exfalso. apply Hne. f_equal. symmetry. eapply ids_inj; [apply W| | |]; eauto.
  - set (l := map (reset_flags m serial) (il_log d)). exists (new_row savec m t serial (next_id l)).
    split; [apply in_or_app; right; now left|]. simpl. repeat (split; [reflexivity|]). split; [auto|].
    intros r'. rewrite in_app_iff. simpl. unfold l. rewrite in_map_iff. split.
    + intros [(r & Hr & Hin) | [H | []]]; [right; exists r; repeat split; auto; discriminate|left; auto].
    + intros [H | (r & Hin & Hr & _)]; [right; now left|left; exists r; auto].
Qed.
Lemma save_ids s0 t m d : NoDup (ids (il_log d)) -> NoDup (ids (il_log (save_installed savec s0 t m d))).
Proof.
  intros H. rewrite save_log. destruct (old_of _ t d) as [o|].
  - rewrite !map_ids; auto; intros; [apply reset_id|apply update_id].
  - set (l := map _ (il_log d)). assert (Hl : ids l = ids (il_log d)) by (apply map_ids; intros; apply reset_id).
    unfold ids in *. rewrite map_app. simpl. apply NoDup_app_remove_r with (l' := []) || idtac.
    rewrite Hl. assert (Hn : ~ In (next_id l) (map i_id (il_log d))).
    { rewrite <- Hl. rewrite in_map_iff. intros (r & E & Hr). apply next_id_gt in Hr. lia. }
    clear - H Hn. induction (map i_id (il_log d)) as [|z zs IH]; simpl; [constructor; [intros []|constructor]|].
    inversion H; subst. constructor; [rewrite in_app_iff; simpl; intros [X | [X | []]]; [auto|apply Hn; left; auto]|]. apply IH; auto. intros X. apply Hn. now right.
Qed.
Lemma reset_flags_flags m s r : (i_ecu r <> s -> reset_flags m s r = r) /\
  (i_ecu r = s -> i_cur (reset_flags m s r) = (match m with ModeCurrent => false | _ => i_cur r end) /\
                  i_pend (reset_flags m s r) = (match m with ModeNone => i_pend r | _ => false end)).
Proof.
  unfold reset_flags. split.
  - intros H. apply String.eqb_neq in H. now rewrite H.
  - intros ->. rewrite String.eqb_refl. destruct m; simpl; auto.
Qed.
Lemma save_wf s0 t m d : Good t -> wf d -> wf (save_installed savec s0 t m d).
Proof.
  intros Hg W. pose proof (save_rows s0 t m d W) as (x & Hx & X1 & X2 & X3 & X4 & X5 & X6 & X7 & Hrows).
  set (serial := real_serial d s0) in *. split.
  - apply save_ids. apply W.
  - intros a b Ha Hb E Ca Cb. apply Hrows in Ha. apply Hrows in Hb.
    destruct Ha as [-> | (ra & Ha & -> & Na)], Hb as [-> | (rb & Hb & -> & Nb)]; auto.
    + exfalso. destruct (reset_id m serial rb) as (_ & R2 & _). rewrite R2, X1 in E. symmetry in E.
      destruct (proj2 (reset_flags_flags m serial rb) E) as (F1 & _). rewrite F1 in Cb. rewrite X2 in Ca. destruct m; discriminate.
    + exfalso. destruct (reset_id m serial ra) as (_ & R2 & _). rewrite R2, X1 in E.
      destruct (proj2 (reset_flags_flags m serial ra) E) as (F1 & _). rewrite F1 in Ca. rewrite X2 in Cb. destruct m; discriminate.
    + destruct (reset_id m serial ra) as (_ & R2 & _). destruct (reset_id m serial rb) as (_ & R2' & _). rewrite R2, R2' in E.
      destruct (string_dec (i_ecu ra) serial) as [Es | Es].
      * destruct (proj2 (reset_flags_flags m serial ra) Es) as (F1 & _). rewrite F1 in Ca.
        destruct (proj2 (reset_flags_flags m serial rb) (eq_trans (eq_sym E) Es)) as (F2 & _). rewrite F2 in Cb.
        destruct m; try discriminate; f_equal; eapply (wf_cur d W); eauto.
      * rewrite (proj1 (reset_flags_flags m serial ra) Es) in *. rewrite (proj1 (reset_flags_flags m serial rb)) in * by congruence.
        eapply (wf_cur d W); eauto.
  - intros a b Ha Hb E Ca Cb. apply Hrows in Ha. apply Hrows in Hb.
    destruct Ha as [-> | (ra & Ha & -> & Na)], Hb as [-> | (rb & Hb & -> & Nb)]; auto.
    + exfalso. destruct (reset_id m serial rb) as (_ & R2 & _). rewrite R2, X1 in E. symmetry in E.
      destruct (proj2 (reset_flags_flags m serial rb) E) as (_ & F1). rewrite F1 in Cb. rewrite X3 in Ca. destruct m; discriminate.
    + exfalso. destruct (reset_id m serial ra) as (_ & R2 & _). rewrite R2, X1 in E.
      destruct (proj2 (reset_flags_flags m serial ra) E) as (_ & F1). rewrite F1 in Ca. rewrite X3 in Cb. destruct m; discriminate.
    + destruct (reset_id m serial ra) as (_ & R2 & _). destruct (reset_id m serial rb) as (_ & R2' & _). rewrite R2, R2' in E.
      destruct (string_dec (i_ecu ra) serial) as [Es | Es].
      * destruct (proj2 (reset_flags_flags m serial ra) Es) as (_ & F1). rewrite F1 in Ca.
        destruct (proj2 (reset_flags_flags m serial rb) (eq_trans (eq_sym E) Es)) as (_ & F2). rewrite F2 in Cb.
        destruct m; try discriminate; f_equal; eapply (wf_pend d W); eauto.
      * rewrite (proj1 (reset_flags_flags m serial ra) Es) in *. rewrite (proj1 (reset_flags_flags m serial rb)) in * by congruence.
        eapply (wf_pend d W); eauto.
  - intros r Hr. apply Hrows in Hr. destruct Hr as [-> | (r0 & Hr & -> & _)].
    + destruct (old_of serial t d) as [o|] eqn:Eo.
      * clear X7. (* the reused row keeps the description of the old one *)
        destruct (old_of_in _ _ _ _ Eo) as (Ho & He & Hs & Hn).
        assert (Hxo : i_hashes x = i_hashes o /\ i_len x = i_len o /\ i_custom x = i_custom o).
        { rewrite save_log in Hx. fold serial in Hx. rewrite Eo in Hx. rewrite map_map, in_map_iff in Hx. destruct Hx as (r & Hrx & Hin).
          destruct (update_id m t o (reset_flags m serial r)) as (U1 & _ & U3 & U4 & U5 & U6 & U7).
          destruct (reset_id m serial r) as (Q1 & Q2 & Q3 & Q4 & Q5 & Q6 & Q7 & Q8).
          destruct (Z.eq_dec (i_id r) (i_id o)) as [E | E].
          - assert (r = o) by (eapply ids_inj; [apply W|assumption|assumption|assumption]). subst r. rewrite Hrx in *. repeat split; congruence.
          - (* x would be an unchanged row; then it equals the updated one by uniqueness of keys *)
            assert (Hin' : In (update_row m t o (reset_flags m serial o)) (il_log (save_installed savec s0 t m d))).
            { rewrite save_log. fold serial. rewrite Eo. apply in_map, in_map, Ho. }
            apply Hrows in Hin'. destruct Hin' as [Hin' | (r2 & Hr2 & E2 & N2)].
            + exfalso. apply E. rewrite <- Q1, <- U1, Hrx, <- Hin'. destruct (update_id m t o (reset_flags m serial o)) as (U1' & _). rewrite U1'. apply reset_id.
            + exfalso. apply N2. f_equal. eapply ids_inj; [apply W| | |]; auto.
              transitivity (i_id (update_row m t o (reset_flags m serial o))).
              * symmetry. destruct (update_id m t o (reset_flags m serial o)) as (U1' & _). rewrite U1'. apply reset_id.
              * rewrite E2. apply reset_id. }
        destruct Hxo as (H1 & H2 & H3). destruct (wf_rows d W o Ho) as (t0 & G & G1 & G2 & G3 & G4 & G5).
        exists t0. repeat split; try congruence; exact G.
      * destruct (X7 eq_refl) as (H1 & H2 & H3). exists t. repeat split; auto.
    + destruct (reset_id m serial r0) as (Q1 & Q2 & Q3 & Q4 & Q5 & Q6 & Q7 & Q8). destruct (wf_rows d W r0 Hr) as (t0 & G & G1 & G2 & G3 & G4 & G5).
      exists t0. repeat split; try congruence; exact G.
Qed.
Lemma rekey_wf p l d : p <> "" -> ((forall r, In r (il_log d) -> i_ecu r <> "") \/ (forall r, In r (il_log d) -> i_ecu r <> p)) -> wf d ->
  wf {| il_ecus := l; il_log := map (rekey p) (il_log d) |}.
Proof.
  intros Hp Hs W.
  assert (Hsame : forall a b, In a (il_log d) -> In b (il_log d) -> i_ecu (rekey p a) = i_ecu (rekey p b) -> i_ecu a = i_ecu b).
  { intros a b Ha Hb. unfold rekey. destruct (String.eqb_spec (i_ecu a) "") as [Ea|Ea], (String.eqb_spec (i_ecu b) "") as [Eb|Eb]; simpl; intros E; try congruence.
    - exfalso. destruct Hs as [Hs | Hs]; [now apply (Hs a)|now apply (Hs b)].
    - exfalso. destruct Hs as [Hs | Hs]; [now apply (Hs b)|now apply (Hs a)]. }
  split; simpl.
  - rewrite map_ids; [apply W|]. intros; apply rekey_id.
  - intros a b Ha Hb E Ca Cb. apply in_map_iff in Ha. apply in_map_iff in Hb. destruct Ha as (ra & <- & Ha), Hb as (rb & <- & Hb).
    destruct (rekey_id p ra) as (_ & _ & _ & _ & _ & _ & K1 & _), (rekey_id p rb) as (_ & _ & _ & _ & _ & _ & K2 & _).
    f_equal. apply (wf_cur d W); auto; congruence.
  - intros a b Ha Hb E Ca Cb. apply in_map_iff in Ha. apply in_map_iff in Hb. destruct Ha as (ra & <- & Ha), Hb as (rb & <- & Hb).
    destruct (rekey_id p ra) as (_ & _ & _ & _ & _ & _ & _ & K1), (rekey_id p rb) as (_ & _ & _ & _ & _ & _ & _ & K2).
    f_equal. apply (wf_pend d W); auto; congruence.
  - intros r Hr. apply in_map_iff in Hr. destruct Hr as (r0 & <- & Hr). destruct (wf_rows d W r0 Hr) as (t0 & G & G1 & G2 & G3 & G4 & G5).
    destruct (rekey_id p r0) as (K0 & K1 & K2 & K3 & K4 & K5 & _). exists t0. repeat split; try congruence; exact G.
Qed.
Lemma step_wf d o : wf d -> iop_safe Good d o -> wf (istep savec d o).
Proof.
  intros W S. destruct o as [s t m | l | |]; simpl in *.
  - now apply save_wf.
  - destruct l as [|(p, hw) l]; auto. simpl. destruct (_ && _); auto. destruct S. now apply rekey_wf.
  - destruct W. split; auto.
  - split; simpl; try (intros ? ? []); [constructor|intros r []].
Qed.
Lemma reach_wf d : ireach savec Good d -> wf d.
Proof. induction 1 as [|d o H IH S]; [split; simpl; try (intros ? ? []); [constructor|intros r []]|now apply step_wf]. Qed.

(** ** C18 *)
Lemma filter_le1 (P : irow -> bool) l : NoDup (ids l) -> (forall a b, In a l -> In b l -> P a = true -> P b = true -> a = b) -> (List.length (filter P l) <= 1)%nat.
Proof.
  induction l as [|x l IH]; intros Hn H; simpl; [lia|]. simpl in Hn. inversion Hn as [|? ? Hx Hn']; subst.
  assert (IHl : (List.length (filter P l) <= 1)%nat) by (apply IH; auto; intros a b Ha Hb; apply H; now right).
  destruct (P x) eqn:E; auto. simpl. destruct (filter P l) as [|y k] eqn:F; [simpl; lia|]. exfalso.
  assert (Hy : In y (filter P l)) by (rewrite F; now left). apply filter_In in Hy. destruct Hy as (Hy & Py).
  assert (x = y) by (apply H; auto; [now left|now right]). subst. apply Hx. now apply in_map.
Qed.
Theorem one_current_one_pending d serial : ireach savec Good d -> (currents d serial <= 1)%nat /\ (pendings d serial <= 1)%nat.
Proof.
  intros R. apply reach_wf in R. split; apply filter_le1; try apply R; intros a b Ha Hb Pa Pb;
    apply andb_prop in Pa; apply andb_prop in Pb; destruct Pa as (Pa & Ca), Pb as (Pb & Cb);
    apply String.eqb_eq in Pa; apply String.eqb_eq in Pb.
  - apply (wf_cur d R); auto; congruence.
  - apply (wf_pend d R); auto; congruence.
Qed.
End P.
Theorem saves_only savec ecus ops serial : (forall o, In o ops -> exists s t m, o = OpSave s t m) ->
  let d := irun savec {| il_ecus := ecus; il_log := [] |} ops in (currents d serial <= 1)%nat /\ (pendings d serial <= 1)%nat.
Proof.
  intros H d. assert (W : wf savec (fun _ => True) d).
  { assert (W0 : wf savec (fun _ => True) {| il_ecus := ecus; il_log := [] |}) by (split; simpl; try (intros ? ? []); [constructor|intros r []]).
    subst d. unfold irun. revert W0. generalize {| il_ecus := ecus; il_log := [] |}. induction ops as [|o ops IH]; intros d0 W0; simpl; auto.
    apply IH; [intros; apply H; now right|]. apply step_wf; auto. destruct (H o (or_introl eq_refl)) as (s & t & m & ->). exact I. }
  split; apply filter_le1; try apply W; intros a b Ha Hb Pa Pb;
    apply andb_prop in Pa; apply andb_prop in Pb; destruct Pa as (Pa & Ca), Pb as (Pb & Cb);
    apply String.eqb_eq in Pa; apply String.eqb_eq in Pb.
  - apply (wf_cur _ _ d W); auto; congruence.
  - apply (wf_pend _ _ d W); auto; congruence.
Qed.
