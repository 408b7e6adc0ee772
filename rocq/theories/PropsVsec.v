(** C169: the keys and the serial of a virtual Secondary stay the same over all starts, wherever the process is killed.
    C170: the file that lists the Secondaries gives back what was put in. *)
From Verif Require Import Base Json TufProofs IpsModel VsecModel.

(** ** Specification *)

(** The files of a Secondary, with the temporary ones. *)
Definition private_file (c : vconf) : string := append (vc_dir c) (append "/" (vc_priv c)).
Definition public_file (c : vconf) : string := append (vc_dir c) (append "/" (vc_pub c)).
Definition own_files (c : vconf) : list string :=
  [private_file c; append (private_file c) ".new"; public_file c; append (public_file c) ".new"].
(** No two files of the Secondaries have the same path. *)
Definition apart (cs : list vconf) : Prop := NoDup (List.concat (map own_files cs)).
(** There is no public key yet. *)
Definition fresh (cs : list vconf) (f : files) : Prop := forall c, In c cs -> fget (public_file c) f = None.

(** ** Files *)
Lemma fget_aset_same : forall p v f, fget p (aset p v f) = v.
Proof. intros. unfold fget, aset. cbn. rewrite String.eqb_refl. reflexivity. Qed.
Lemma fget_aset_other : forall p q v f, p <> q -> fget p (aset q v f) = fget p f.
Proof. intros p q v f H. unfold fget, aset. cbn. destruct (String.eqb_spec p q); [contradiction | reflexivity]. Qed.

Lemma own_distinct : forall c, NoDup (own_files c) ->
  priv_path c <> tmp (priv_path c) /\ priv_path c <> pub_path c /\ priv_path c <> tmp (pub_path c) /\
  pub_path c <> tmp (priv_path c) /\ pub_path c <> tmp (pub_path c).
Proof.
  unfold own_files. intros c H. inversion_clear H as [|? ? N1 H1]. inversion_clear H1 as [|? ? N2 H2].
  inversion_clear H2 as [|? ? N3 H3].
  split; [|split; [|split; [|split]]]; intros X.
  - apply N1. left. exact (eq_sym X).
  - apply N1. right; left. exact (eq_sym X).
  - apply N1. right; right; left. exact (eq_sym X).
  - apply N2. left. exact X.
  - apply N3. left. exact (eq_sym X).
Qed.

Lemma write_frame : forall cut left p v f h f' q, write_file cut left p v f = (h, f') -> q <> p -> q <> tmp p -> fget q f' = fget q f.
Proof.
  intros cut left p v f h f' q H N1 N2. unfold write_file in H.
  destruct left as [[|[|n]]|]; injection H as _ <-; rewrite ?fget_aset_other by assumption; reflexivity.
Qed.
Lemma write_self : forall cut left p v f h f', write_file cut left p v f = (h, f') -> p <> tmp p ->
  match h with Goes _ => fget p f' = Some v | _ => fget p f' = fget p f end.
Proof.
  intros cut left p v f h f' H N. unfold write_file in H.
  destruct left as [[|[|n]]|]; injection H as <- <-; rewrite ?fget_aset_same, ?fget_aset_other by assumption; reflexivity.
Qed.
Lemma write_not_thrown : forall cut left p v f f', write_file cut left p v f <> (Thrown, f').
Proof. intros cut left p v f f'. unfold write_file. destruct left as [[|[|n]]|]; discriminate. Qed.

Lemma store_frame : forall r left c k p f h f' q, store_keys r left c k p f = (h, f') -> ~ In q (own_files c) -> fget q f' = fget q f.
Proof.
  intros r left c k p f h f' q H N. unfold store_keys in H.
  assert (N1 : q <> priv_path c) by (intros ->; apply N; left; reflexivity).
  assert (N2 : q <> tmp (priv_path c)) by (intros ->; apply N; right; left; reflexivity).
  assert (N3 : q <> pub_path c) by (intros ->; apply N; right; right; left; reflexivity).
  assert (N4 : q <> tmp (pub_path c)) by (intros ->; apply N; right; right; right; left; reflexivity).
  destruct (write_file (rn_cut r) left (priv_path c) k f) as [h1 f1] eqn:W1.
  pose proof (write_frame _ _ _ _ _ _ _ q W1 N1 N2) as F1.
  destruct h1 as [left1| |].
  - rewrite <- F1. exact (write_frame _ _ _ _ _ _ _ q H N3 N4).
  - injection H as _ <-. exact F1.
  - injection H as _ <-. exact F1.
Qed.

(** Storing: done, both keys are there; not done, the public key is as before and the private key is as before or the new one. *)
Lemma store_effect : forall r left c k p f h f', NoDup (own_files c) -> store_keys r left c k p f = (h, f') ->
  match h with
  | Goes _ => fget (priv_path c) f' = Some k /\ fget (pub_path c) f' = Some p
  | _ => fget (pub_path c) f' = fget (pub_path c) f /\
         (fget (priv_path c) f' = fget (priv_path c) f \/ fget (priv_path c) f' = Some k)
  end.
Proof.
  intros r left c k p f h f' Hn H. unfold store_keys in H.
  destruct (own_distinct c Hn) as [D1 [D2 [D3 [D4 D5]]]].
  destruct (write_file (rn_cut r) left (priv_path c) k f) as [h1 f1] eqn:W1.
  pose proof (write_self _ _ _ _ _ _ _ W1 D1) as S1.
  pose proof (write_frame _ _ _ _ _ _ _ (pub_path c) W1 (fun X => D2 (eq_sym X)) D4) as F1.
  destruct h1 as [left1| |].
  - pose proof (write_self _ _ _ _ _ _ _ H D5) as S2.
    pose proof (write_frame _ _ _ _ _ _ _ (priv_path c) H D2 D3) as F2.
    destruct h.
    + split; [rewrite F2; exact S1 | exact S2].
    + split; [rewrite S2; exact F1 | right; rewrite F2; exact S1].
    + split; [rewrite S2; exact F1 | right; rewrite F2; exact S1].
  - injection H as <- <-. split; [exact F1 | left; exact S1].
  - exfalso. exact (write_not_thrown _ _ _ _ _ _ W1).
Qed.

(** ** The invariant *)
Section Inv.
Context (rsa : string -> bool) (keyid : string -> string).

Definition serial_of (c : vconf) (p : string) : string := if String.eqb (vc_serial c) "" then keyid p else vc_serial c.

Definition kept (past : list run) (outs : list made) (i : nat) (c : vconf) (f : files) : Prop :=
  (fget (pub_path c) f = None /\ forall m, In m outs -> md_n m <> i) \/
  (exists k p r, In r past /\ rn_gen r i = Some (k, p) /\ fget (priv_path c) f = Some k /\ fget (pub_path c) f = Some p /\
     forall m, In m outs -> md_n m = i -> md_priv m = k /\ md_pub m = p /\ md_serial m = serial_of c p).
Definition all_kept past outs (cs : list vconf) f : Prop := forall i c, nth_error cs i = Some c -> kept past outs i c f.

Lemma NoDup_app_remove_r : forall (A : Type) (l1 l2 : list A), NoDup (l1 ++ l2) -> NoDup l1.
Proof.
  induction l1 as [|a l1 IH]; intros l2 H; [constructor|]. inversion_clear H as [|? ? N H']. constructor; [|exact (IH l2 H')].
  intros X. apply N, in_or_app. left; exact X.
Qed.
Lemma NoDup_app_remove_l : forall (A : Type) (l1 l2 : list A), NoDup (l1 ++ l2) -> NoDup l2.
Proof. induction l1 as [|a l1 IH]; intros l2 H; [exact H|]. inversion_clear H as [|? ? N H']. exact (IH l2 H'). Qed.
Lemma apart_own : forall cs i c, apart cs -> nth_error cs i = Some c -> NoDup (own_files c).
Proof.
  unfold apart. induction cs as [|a cs IH]; intros i c H Hi; destruct i; cbn in Hi; try discriminate.
  - injection Hi as ->. cbn [map List.concat] in H. eapply NoDup_app_remove_r. exact H.
  - cbn [map List.concat] in H. apply (IH i c); [|exact Hi]. eapply NoDup_app_remove_l. exact H.
Qed.
Lemma NoDup_app_disj : forall (A : Type) (l1 l2 : list A) x, NoDup (l1 ++ l2) -> In x l1 -> In x l2 -> False.
Proof.
  induction l1 as [|a l1 IH]; intros l2 x H H1 H2; [destruct H1|]. inversion_clear H as [|? ? N H'].
  destruct H1 as [ -> | H1]; [apply N, in_or_app; right; exact H2 | exact (IH l2 x H' H1 H2)].
Qed.
Lemma own_in_all : forall cs i c q, nth_error cs i = Some c -> In q (own_files c) -> In q (List.concat (map own_files cs)).
Proof. intros cs i c q Hi Hq. apply in_concat. exists (own_files c). split; [apply in_map; exact (nth_error_In _ _ Hi) | exact Hq]. Qed.
Lemma apart_other : forall cs i j c d q, apart cs -> nth_error cs i = Some c -> nth_error cs j = Some d -> i <> j ->
  In q (own_files c) -> ~ In q (own_files d).
Proof.
  unfold apart. induction cs as [|a cs IH]; intros i j c d q H Hi Hj Hij Hc Hd; destruct i, j; cbn [nth_error] in Hi, Hj; try discriminate;
    cbn [map List.concat] in H.
  - congruence.
  - injection Hi as ->. exact (NoDup_app_disj _ _ _ q H Hc (own_in_all _ _ _ _ Hj Hd)).
  - injection Hj as ->. exact (NoDup_app_disj _ _ _ q H Hd (own_in_all _ _ _ _ Hi Hc)).
  - apply (IH i j c d q); try assumption; [eapply NoDup_app_remove_l; exact H | congruence].
Qed.

Definition olist {A} (o : option A) : list A := match o with Some x => [x] | None => [] end.

Lemma construct_kept : forall cs past outs r n c left f h f' o, apart cs -> In r past -> nth_error cs n = Some c ->
  all_kept past outs cs f -> construct rsa keyid r n c left f = (h, f', o) -> all_kept past (outs ++ olist o) cs f'.
Proof.
  intros cs past outs r n c left f h f' o Hap Hr Hn HI H i ci Hi.
  pose proof (HI i ci Hi) as Hk.
  assert (Hsame : f' = f -> o = None -> kept past (outs ++ olist o) i ci f').
  { intros -> ->. cbn [olist]. rewrite List.app_nil_r. exact Hk. }
  unfold construct in H.
  destruct (match load_keys c f with Some x => Some x | None => rn_gen r n end) as [[k p]|] eqn:El;
    [|injection H as _ <- <-; apply Hsame; reflexivity].
  destruct (negb (rsa p)); [injection H as _ <- <-; apply Hsame; reflexivity|].
  destruct (negb (rn_dirs r n)); [injection H as _ <- <-; apply Hsame; reflexivity|].
  destruct (store_keys r left c k p f) as [h1 f1] eqn:Es.
  pose proof (apart_own _ _ _ Hap Hn) as Hown.
  assert (Hf1 : f' = f1 /\ forall m, In m (olist o) -> md_n m = n /\ md_priv m = k /\ md_pub m = p /\ md_serial m = serial_of c p /\ exists l, h1 = Goes l).
  { destruct h1; injection H as _ <- <-; (split; [reflexivity|]); cbn [olist]; intros m Hm; try destruct Hm as [ <- | [] ]; try destruct Hm.
    cbn. repeat (split; [reflexivity|]). exists left0. reflexivity. }
  clear H. destruct Hf1 as [-> Ho].
  destruct (Nat.eq_dec i n) as [->|Hne].
  - assert (ci = c) by congruence. subst ci.
    pose proof (store_effect _ _ _ _ _ _ _ _ Hown Es) as He.
    destruct Hk as [[Hpub Houts] | [k0 [p0 [r0 [Hr0 [Hg [Hpk [Hpp Houts]]]]]]]].
    + assert (Hgen : rn_gen r n = Some (k, p)). { unfold load_keys in El. rewrite Hpub in El. exact El. }
      destruct h1 as [l1| |].
      * destruct He as [E1 E2]. right. exists k, p, r. split; [exact Hr|]. split; [exact Hgen|]. split; [exact E1|]. split; [exact E2|].
        intros m Hm Hmn. apply in_app_or in Hm. destruct Hm as [Hm|Hm]; [elim (Houts m Hm Hmn)|].
        destruct (Ho m Hm) as [_ [A [B [C _]]]]. split; [exact A|]. split; [exact B | exact C].
      * left. split; [rewrite (proj1 He); exact Hpub|]. intros m Hm. apply in_app_or in Hm. destruct Hm as [Hm|Hm]; [exact (Houts m Hm)|].
        destruct (Ho m Hm) as [_ [_ [_ [_ [l X]]]]]. discriminate X.
      * left. split; [rewrite (proj1 He); exact Hpub|]. intros m Hm. apply in_app_or in Hm. destruct Hm as [Hm|Hm]; [exact (Houts m Hm)|].
        destruct (Ho m Hm) as [_ [_ [_ [_ [l X]]]]]. discriminate X.
    + unfold load_keys in El. rewrite Hpp, Hpk in El. injection El as -> ->.
      right. exists k, p, r0. split; [exact Hr0|]. split; [exact Hg|].
      assert (Hboth : fget (priv_path c) f1 = Some k /\ fget (pub_path c) f1 = Some p).
      { destruct h1; [exact He| |]; destruct He as [E1 E2]; rewrite E1, Hpp; (split; [|reflexivity]);
          destruct E2 as [ -> | -> ]; congruence. }
      split; [exact (proj1 Hboth)|]. split; [exact (proj2 Hboth)|].
      intros m Hm Hmn. apply in_app_or in Hm. destruct Hm as [Hm|Hm]; [exact (Houts m Hm Hmn)|].
      destruct (Ho m Hm) as [_ [A [B [C _]]]]. split; [exact A|]. split; [exact B | exact C].
  - assert (Fpub : fget (pub_path ci) f1 = fget (pub_path ci) f).
    { apply (store_frame _ _ _ _ _ _ _ _ _ Es). apply (apart_other cs i n ci c); try assumption. right; right; left; reflexivity. }
    assert (Fpriv : fget (priv_path ci) f1 = fget (priv_path ci) f).
    { apply (store_frame _ _ _ _ _ _ _ _ _ Es). apply (apart_other cs i n ci c); try assumption. left; reflexivity. }
    destruct Hk as [[Hpub Houts] | [k0 [p0 [r0 [Hr0 [Hg [Hpk [Hpp Houts]]]]]]]].
    + left. split; [rewrite Fpub; exact Hpub|]. intros m Hm. apply in_app_or in Hm. destruct Hm as [Hm|Hm]; [exact (Houts m Hm)|].
      destruct (Ho m Hm) as [E _]. congruence.
    + right. exists k0, p0, r0. rewrite Fpub, Fpriv. repeat (split; [assumption|]).
      intros m Hm Hmn. apply in_app_or in Hm. destruct Hm as [Hm|Hm]; [exact (Houts m Hm Hmn)|].
      destruct (Ho m Hm) as [E _]. congruence.
Qed.

Lemma start_from_kept : forall r past cs rest n left outs f ms f', apart cs -> In r past ->
  (forall j c, nth_error rest j = Some c -> nth_error cs (n + j) = Some c) ->
  all_kept past outs cs f -> start_from rsa keyid r n rest left f = (ms, f') -> all_kept past (outs ++ ms) cs f'.
Proof.
  intros r past cs rest. induction rest as [|c rest IH]; intros n left outs f ms f' Hap Hr Hsub HI H.
  - injection H as <- <-. rewrite List.app_nil_r. exact HI.
  - cbn [start_from] in H.
    assert (Hn : nth_error cs n = Some c). { rewrite <- (Nat.add_0_r n). apply Hsub. reflexivity. }
    destruct (construct rsa keyid r n c left f) as [[h1 f1] o] eqn:Ec.
    pose proof (construct_kept _ _ _ _ _ _ _ _ _ _ _ Hap Hr Hn HI Ec) as HI1.
    assert (Hdrop : all_kept past (outs ++ []) cs f1).
    { rewrite List.app_nil_r. intros i ci Hi. destruct (HI1 i ci Hi) as [[A B]|[k [p [r0 [A [B [C [D E]]]]]]]].
      - left. split; [exact A|]. intros m Hm. apply B, in_or_app. left; exact Hm.
      - right. exists k, p, r0. repeat (split; [assumption|]). intros m Hm. apply E, in_or_app. left; exact Hm. }
    destruct h1 as [l1| |]; destruct o as [m|]; try (injection H as <- <-; exact Hdrop).
    destruct (start_from rsa keyid r (S n) rest l1 f1) as [ms1 f2] eqn:Er. injection H as <- <-.
    replace (outs ++ m :: ms1) with ((outs ++ [m]) ++ ms1) by (rewrite <- List.app_assoc; reflexivity).
    apply (IH (S n) l1 (outs ++ [m]) f1 ms1 f2); try assumption.
    intros j d Hj. replace (S n + j)%nat with (n + S j)%nat by lia. apply Hsub. exact Hj.
Qed.

Lemma all_kept_more : forall past r outs cs f, all_kept past outs cs f -> all_kept (past ++ [r]) outs cs f.
Proof.
  intros past r outs cs f H i c Hi. destruct (H i c Hi) as [X|[k [p [r0 [A X]]]]]; [left; exact X|].
  right. exists k, p, r0. split; [apply in_or_app; left; exact A | exact X].
Qed.

Lemma starts_kept : forall cs, apart cs -> forall rs past outs f, all_kept past outs cs f ->
  exists f', all_kept (past ++ rs) (outs ++ starts rsa keyid rs cs f) cs f'.
Proof.
  intros cs Hap. induction rs as [|r rs IH]; intros past outs f HI; cbn [starts].
  - exists f. rewrite !List.app_nil_r. exact HI.
  - destruct (start rsa keyid r cs f) as [ms f1] eqn:Es.
    assert (HI1 : all_kept (past ++ [r]) (outs ++ ms) cs f1).
    { apply (start_from_kept r (past ++ [r]) cs cs 0 (rn_kill r) outs f ms f1); try assumption.
      - apply in_or_app. right; left; reflexivity.
      - intros j c Hj. exact Hj.
      - apply all_kept_more. exact HI. }
    destruct (IH (past ++ [r]) (outs ++ ms) f1 HI1) as [f2 H2]. exists f2. rewrite <- !List.app_assoc in H2. exact H2.
Qed.

(** Every Secondary that is made has a place in the list. *)
Lemma start_from_place : forall r rest n left f ms f' m, start_from rsa keyid r n rest left f = (ms, f') -> In m ms ->
  exists c, nth_error rest (md_n m - n) = Some c /\ (n <= md_n m)%nat.
Proof.
  induction rest as [|c rest IH]; intros n left f ms f' m H Hm.
  - injection H as <- <-. destruct Hm.
  - cbn [start_from] in H. destruct (construct rsa keyid r n c left f) as [[h1 f1] o] eqn:Ec.
    destruct h1 as [l1| |]; destruct o as [m1|]; try (injection H as <- <-; destruct Hm; fail).
    destruct (start_from rsa keyid r (S n) rest l1 f1) as [ms1 f2] eqn:Er. injection H as <- <-.
    destruct Hm as [<-|Hm].
    + exists c. assert (md_n m1 = n) as ->.
      { unfold construct in Ec. destruct (match load_keys c f with Some x => Some x | None => rn_gen r n end) as [[k p]|]; [|discriminate Ec].
        destruct (negb (rsa p)); [discriminate Ec|]. destruct (negb (rn_dirs r n)); [discriminate Ec|].
        destruct (store_keys r left c k p f) as [h2 f3]. destruct h2; try discriminate Ec. injection Ec as _ _ <-. reflexivity. }
      rewrite Nat.sub_diag. split; [reflexivity | lia].
    + destruct (IH (S n) l1 f1 ms1 f2 m Er Hm) as [d [Hd Hle]]. exists d. split; [|lia].
      replace (md_n m - n)%nat with (S (md_n m - S n)) by lia. exact Hd.
Qed.
Lemma starts_place : forall cs rs f m, In m (starts rsa keyid rs cs f) -> exists c, nth_error cs (md_n m) = Some c.
Proof.
  intros cs. induction rs as [|r rs IH]; intros f m Hm; cbn [starts] in Hm; [destruct Hm|].
  destruct (start rsa keyid r cs f) as [ms f1] eqn:Es. apply in_app_or in Hm. destruct Hm as [Hm|Hm]; [|exact (IH f1 m Hm)].
  destruct (start_from_place _ _ _ _ _ _ _ m Es Hm) as [c [Hc _]]. rewrite Nat.sub_0_r in Hc. exists c. exact Hc.
Qed.
End Inv.

(** ** C169 *)

Definition C169_statement (cond : list vconf -> Prop) : Prop :=
  forall rsa keyid cs rs f, cond cs -> fresh cs f ->
  let all := starts rsa keyid rs cs f in
  (* one Secondary, whenever it is made, has the same keys and serial *)
  (forall a b, In a all -> In b all -> md_n a = md_n b ->
     md_priv a = md_priv b /\ md_pub a = md_pub b /\ md_serial a = md_serial b) /\
  (* they are a pair that was generated for it *)
  (forall a, In a all -> exists r, In r rs /\ rn_gen r (md_n a) = Some (md_priv a, md_pub a)) /\
  (* its serial is the configured one, or belongs to the key *)
  (forall a, In a all -> exists c, nth_error cs (md_n a) = Some c /\
     (vc_serial c <> "" -> md_serial a = vc_serial c) /\ (vc_serial c = "" -> md_serial a = keyid (md_pub a))).

Theorem C169_partial : C169_statement apart.
Proof.
  intros rsa keyid cs rs f Hap Hfr all.
  assert (H0 : all_kept keyid [] [] cs f).
  { intros i c Hi. left. split; [apply Hfr; exact (nth_error_In _ _ Hi) | intros m []]. }
  destruct (starts_kept rsa keyid cs Hap rs [] [] f H0) as [f' HI]. change ([] ++ rs) with rs in HI.
  change ([] ++ starts rsa keyid rs cs f) with all in HI.
  assert (Hget : forall a, In a all -> exists c k p r, nth_error cs (md_n a) = Some c /\ In r rs /\ rn_gen r (md_n a) = Some (k, p) /\
     forall m, In m all -> md_n m = md_n a -> md_priv m = k /\ md_pub m = p /\ md_serial m = serial_of keyid c p).
  { intros a Ha. destruct (starts_place rsa keyid cs rs f a Ha) as [c Hc]. destruct (HI _ _ Hc) as [[_ X]|[k [p [r [Hr [Hg [_ [_ X]]]]]]]].
    - elim (X a Ha eq_refl).
    - exists c, k, p, r. split; [exact Hc|]. split; [exact Hr|]. split; [exact Hg | exact X]. }
  split; [|split].
  - intros a b Ha Hb Hab. destruct (Hget a Ha) as [c [k [p [r [_ [_ [_ X]]]]]]].
    destruct (X a Ha eq_refl) as [A1 [A2 A3]]. destruct (X b Hb (eq_sym Hab)) as [B1 [B2 B3]].
    rewrite A1, A2, A3, B1, B2, B3. split; [|split]; reflexivity.
  - intros a Ha. destruct (Hget a Ha) as [c [k [p [r [_ [Hr [Hg X]]]]]]]. destruct (X a Ha eq_refl) as [A1 [A2 _]].
    exists r. rewrite A1, A2. split; [exact Hr | exact Hg].
  - intros a Ha. destruct (Hget a Ha) as [c [k [p [r [Hc [_ [_ X]]]]]]]. destruct (X a Ha eq_refl) as [_ [A2 A3]].
    exists c. split; [exact Hc|]. rewrite A3, A2. unfold serial_of. split; intros S0.
    + destruct (String.eqb_spec (vc_serial c) ""); [contradiction | reflexivity].
    + rewrite S0. reflexivity.
Qed.

(** A start that is not interrupted, whose directories can be used and whose key generation works, makes every Secondary. *)
Lemma start_from_makes : forall rsa keyid r, rn_kill r = None -> (forall n, rn_dirs r n = true) ->
  (forall n, exists k p, rn_gen r n = Some (k, p)) -> (forall p, rsa p = true) ->
  forall cs n f, exists ms f', start_from rsa keyid r n cs None f = (ms, f') /\ map md_n ms = seq n (List.length cs).
Proof.
  intros rsa keyid r Hk Hd Hg Hr. induction cs as [|c cs IH]; intros n f; cbn [start_from].
  - exists [], f. split; reflexivity.
  - assert (Hc : exists m f1, construct rsa keyid r n c None f = (Goes None, f1, Some m) /\ md_n m = n).
    { unfold construct. destruct (Hg n) as [k0 [p0 G]].
      assert (exists k p, match load_keys c f with Some x => Some x | None => rn_gen r n end = Some (k, p)) as [k [p ->]].
      { destruct (load_keys c f) as [[k p]|]; [exists k, p; reflexivity | exists k0, p0; exact G]. }
      rewrite Hr, Hd. cbn [negb store_keys write_file]. eexists. eexists. split; reflexivity. }
    destruct Hc as [m [f1 [-> Hm]]]. destruct (IH (S n) f1) as [ms [f2 [-> Hms]]].
    exists (m :: ms), f2. split; [reflexivity|]. cbn [map List.length seq]. rewrite Hm, Hms. reflexivity.
Qed.
Theorem C169_all_made : forall rsa keyid r cs f, rn_kill r = None -> (forall n, rn_dirs r n = true) ->
  (forall n, exists k p, rn_gen r n = Some (k, p)) -> (forall p, rsa p = true) ->
  map md_n (fst (start rsa keyid r cs f)) = seq 0 (List.length cs).
Proof.
  intros rsa keyid r cs f Hk Hd Hg Hr. unfold start. rewrite Hk.
  destruct (start_from_makes rsa keyid r Hk Hd Hg Hr cs 0%nat f) as [ms [f' [-> H]]]. exact H.
Qed.

(** Two Secondaries never have the same keys, when generation never gives the same pair twice. *)
Theorem C169_own : forall rsa keyid cs rs f, apart cs -> fresh cs f ->
  (forall r1 r2 i j x, In r1 rs -> In r2 rs -> rn_gen r1 i = Some x -> rn_gen r2 j = Some x -> i = j) ->
  forall a b, In a (starts rsa keyid rs cs f) -> In b (starts rsa keyid rs cs f) -> md_n a <> md_n b ->
  (md_priv a, md_pub a) <> (md_priv b, md_pub b).
Proof.
  intros rsa keyid cs rs f Hap Hfr Hinj a b Ha Hb Hn E.
  destruct (C169_partial rsa keyid cs rs f Hap Hfr) as [_ [G _]].
  destruct (G a Ha) as [r1 [R1 G1]]. destruct (G b Hb) as [r2 [R2 G2]]. rewrite E in G1. exact (Hn (Hinj r1 r2 _ _ _ R1 R2 G1 G2)).
Qed.

(** Without that condition it fails: one name for both keys. The second start uses the public key as the private one. *)
Definition toy_conf (serial dir priv pub : string) : vconf :=
  {| vc_partial := false; vc_serial := serial; vc_hw := "hw"; vc_dir := dir; vc_priv := priv; vc_pub := pub; vc_fw := "/fw"; vc_name := "/n"; vc_meta := "/m" |}.
Definition toy_run (k : option nat) (a b : string) : run :=
  {| rn_gen := fun n => match n with O => Some (append "priv0" a, append "pub0" a) | _ => Some (append "priv1" b, append "pub1" b) end;
     rn_dirs := fun _ => true; rn_kill := k; rn_cut := fun s => "" |}.
Theorem C169_refuted : ~ C169_statement (fun _ => True).
Proof.
  intros H.
  destruct (H (fun _ => true) (fun s => s) [toy_conf "" "/c" "key" "key"] [toy_run None "" ""; toy_run None "" ""] [] I
              (fun c Hc => match Hc with or_introl E => match E in _ = y return fget (pub_path y) [] = None with eq_refl => eq_refl end
                                        | or_intror F => match F with end end)) as [A _].
  specialize (A {| md_n := 0; md_priv := "priv0"; md_pub := "pub0"; md_serial := "pub0" |}
                {| md_n := 0; md_priv := "pub0"; md_pub := "pub0"; md_serial := "pub0" |}).
  assert (E : starts (fun _ => true) (fun s => s) [toy_run None "" ""; toy_run None "" ""] [toy_conf "" "/c" "key" "key"] [] =
    [{| md_n := 0; md_priv := "priv0"; md_pub := "pub0"; md_serial := "pub0" |};
     {| md_n := 0; md_priv := "pub0"; md_pub := "pub0"; md_serial := "pub0" |}]) by (vm_compute; reflexivity).
  rewrite E in A. destruct (A (or_introl eq_refl) (or_intror (or_introl eq_refl)) eq_refl) as [X _]. discriminate X.
Qed.

(** A concrete case: two Secondaries, killed after the first has stored one key, killed while the second stores one, then two starts. *)
Definition two : list vconf := [toy_conf "" "/a" "k" "p"; toy_conf "s2" "/b" "k" "p"].
Example C169_example : apart two /\
  starts (fun _ => true) (fun s => s) [toy_run (Some 3%nat) "a" "a"; toy_run (Some 6%nat) "b" "b"; toy_run None "c" "c"; toy_run None "d" "d"] two [] =
  [{| md_n := 0; md_priv := "priv0b"; md_pub := "pub0b"; md_serial := "pub0b" |};
   {| md_n := 0; md_priv := "priv0b"; md_pub := "pub0b"; md_serial := "pub0b" |};
   {| md_n := 1; md_priv := "priv1c"; md_pub := "pub1c"; md_serial := "s2" |};
   {| md_n := 0; md_priv := "priv0b"; md_pub := "pub0b"; md_serial := "pub0b" |};
   {| md_n := 1; md_priv := "priv1c"; md_pub := "pub1c"; md_serial := "s2" |}].
Proof.
  split; [|vm_compute; reflexivity]. unfold apart. vm_compute.
  repeat (constructor; [intros X; repeat (destruct X as [X|X]; [discriminate X|]); exact X|]). constructor.
Qed.

(** ** C170 *)

Lemma vconf_round : forall c, vconf_of_json (json_of_vconf c) = Ok c.
Proof. intros []. reflexivity. Qed.

(** An object as JsonCpp keeps it. *)
Fixpoint in_order (l : list (string * json)) : Prop :=
  match l with [] => True | (k, _) :: l' => (forall k' v', In (k', v') l' -> String.ltb k k' = true) /\ in_order l' end.
Definition virtuals (l : list sconf) : list vconf :=
  List.concat (map (fun s => match s with SVirtual c => [c] | _ => [] end) l).
Definition ips (l : list sconf) : list (list (string * Z)) :=
  List.concat (map (fun s => match s with SIp c => [c] | _ => [] end) l).

Lemma virtuals_app : forall a b, virtuals (a ++ b) = virtuals a ++ virtuals b.
Proof. intros. unfold virtuals. rewrite map_app, concat_app. reflexivity. Qed.
Lemma ips_app : forall a b, ips (a ++ b) = ips a ++ ips b.
Proof. intros. unfold ips. rewrite map_app, concat_app. reflexivity. Qed.
Lemma virtuals_map : forall l, virtuals (map SVirtual l) = l.
Proof. induction l as [|c l IH]; [reflexivity|]. unfold virtuals in *. cbn. rewrite IH. reflexivity. Qed.
Lemma ips_map : forall l, ips (map SVirtual l) = [].
Proof. induction l as [|c l IH]; [reflexivity|]. unfold ips in *. cbn. exact IH. Qed.

Lemma vconfs_app : forall a b x, vconfs_of a = Ok x -> forall y, vconfs_of b = Ok y -> vconfs_of (a ++ b) = Ok (x ++ y).
Proof.
  induction a as [|[k j] a IH]; intros b x Ha y Hb.
  - injection Ha as <-. exact Hb.
  - cbn [vconfs_of List.app] in *. apply bind_ok in Ha. destruct Ha as [c [Hc Ha]]. apply bind_ok in Ha. destruct Ha as [r [Hr Ha]]. injection Ha as <-.
    rewrite Hc. cbn [bind]. rewrite (IH b r Hr y Hb). reflexivity.
Qed.
Lemma index_app : forall l i x, index_from i (l ++ [x]) = index_from i l ++ [(to_dec (i + Z.of_nat (List.length l)), x)].
Proof.
  induction l as [|a l IH]; intros i x; cbn [index_from List.app List.length].
  - rewrite Z.add_0_r. reflexivity.
  - rewrite IH. replace (i + Z.of_nat (S (List.length l))) with (i + 1 + Z.of_nat (List.length l)) by lia. reflexivity.
Qed.

(** Reading after a member is set: what the other members give stays. *)
Definition here_of (k : string) (j : json) : res (list sconf) :=
  if String.eqb k "IP" then do x <- parse_ip_config j; Ok [SIp x]
  else if String.eqb k "virtual" then do x <- vconfs_of (jiter j); Ok (map SVirtual x) else Ok [].
Lemma parse_members_cons : forall k j l, parse_members ((k, j) :: l) = (do here <- here_of k j; do r <- parse_members l; Ok (here ++ r)).
Proof. reflexivity. Qed.

Lemma no_virtual : forall l x, (forall v, ~ In ("virtual", v) l) -> parse_members l = Ok x -> virtuals x = [].
Proof.
  induction l as [|[k j] l IH]; intros x Hno H.
  - injection H as <-. reflexivity.
  - rewrite parse_members_cons in H. apply bind_ok in H. destruct H as [h [Hh H]]. apply bind_ok in H. destruct H as [r [Hr H]]. injection H as <-.
    rewrite virtuals_app, (IH r (fun v X => Hno v (or_intror X)) Hr), List.app_nil_r.
    unfold here_of in Hh. destruct (String.eqb k "IP").
    + apply bind_ok in Hh. destruct Hh as [y [_ Hh]]. injection Hh as <-. reflexivity.
    + destruct (String.eqb_spec k "virtual") as [ -> |]; [elim (Hno j (or_introl eq_refl))|]. injection Hh as <-. reflexivity.
Qed.

Lemma ltb_irrefl : forall s, String.ltb s s = false.
Proof. intros s. unfold String.ltb. pose proof (String.compare_antisym s s) as H. destruct (String.compare s s); cbn in *; congruence. Qed.

Lemma oset_parse : forall l x c v a, in_order l -> parse_members l = Ok x ->
  jget "virtual" (JObj l) = Ok v -> jappend (json_of_vconf c) v = Ok a ->
  exists y, parse_members (oset "virtual" a l) = Ok y /\ virtuals y = virtuals x ++ [c] /\ ips y = ips x.
Proof.
  induction l as [|[k j] l IH]; intros x c v a Hord Hx Hv Ha.
  - injection Hx as <-. cbn in Hv. injection Hv as <-. cbn [jappend] in Ha. injection Ha as <-.
    exists [SVirtual c]. cbn [oset]. rewrite parse_members_cons. unfold here_of.
    change (String.eqb "virtual" "IP") with false. change (String.eqb "virtual" "virtual") with true. cbn [jiter index_from vconfs_of].
    rewrite vconf_round. cbn. split; [reflexivity|]. split; reflexivity.
  - destruct Hord as [Hlt Hord]. rewrite parse_members_cons in Hx. apply bind_ok in Hx. destruct Hx as [h [Hh Hx]].
    apply bind_ok in Hx. destruct Hx as [r [Hr Hx]]. injection Hx as <-.
    cbn [oset]. unfold jget in Hv. cbn [aget] in Hv. destruct (String.eqb_spec "virtual" k) as [ <- |Hne].
    + injection Hv as <-. unfold here_of in Hh. change (String.eqb "virtual" "IP") with false in Hh. change (String.eqb "virtual" "virtual") with true in Hh.
      cbn iota in Hh. apply bind_ok in Hh. destruct Hh as [y [Hy Hh]]. injection Hh as <-.
      assert (Hnew : vconfs_of (jiter a) = Ok (y ++ [c])).
      { destruct j as [| | | | |lj|]; try discriminate Ha; cbn [jappend] in Ha; injection Ha as <-; cbn [jiter] in *.
        - cbn in Hy. injection Hy as <-. cbn [index_from vconfs_of]. rewrite vconf_round. reflexivity.
        - rewrite index_app. apply vconfs_app; [exact Hy|]. cbn [vconfs_of]. rewrite vconf_round. reflexivity. }
      exists (map SVirtual (y ++ [c]) ++ r). rewrite parse_members_cons. unfold here_of.
      change (String.eqb "virtual" "IP") with false. change (String.eqb "virtual" "virtual") with true. cbn iota.
      rewrite Hnew. cbn [bind]. rewrite Hr. cbn [bind]. split; [reflexivity|].
      assert (Hnv : virtuals r = []).
      { apply (no_virtual l r); [|exact Hr]. intros v0 X. specialize (Hlt _ _ X). rewrite ltb_irrefl in Hlt. discriminate Hlt. }
      rewrite !virtuals_app, !ips_app, !virtuals_map, !ips_map, Hnv, !List.app_nil_r. split; reflexivity.
    + destruct (String.ltb "virtual" k) eqn:Elt.
      * assert (Hnone : aget "virtual" l = None).
        { destruct (aget "virtual" l) as [w|] eqn:Ea; [|reflexivity]. exfalso.
          assert (Hin : In ("virtual", w) l).
          { clear - Ea. induction l as [|[k' v'] l IHl]; [discriminate Ea|]. cbn [aget] in Ea. destruct (String.eqb_spec "virtual" k') as [<-|].
            - injection Ea as ->. left; reflexivity.
            - right. exact (IHl Ea). }
          specialize (Hlt _ _ Hin).
          unfold String.ltb in *. rewrite String.compare_antisym in Hlt. destruct (String.compare "virtual" k); cbn in Hlt; discriminate. }
        rewrite Hnone in Hv. injection Hv as <-. cbn [jappend] in Ha. injection Ha as <-.
        exists (SVirtual c :: h ++ r). rewrite parse_members_cons. unfold here_of at 1.
        change (String.eqb "virtual" "IP") with false. change (String.eqb "virtual" "virtual") with true. cbn [jiter index_from vconfs_of].
        rewrite vconf_round. cbn [bind]. rewrite parse_members_cons, Hh. cbn [bind]. rewrite Hr. cbn [bind map List.app].
        split; [reflexivity|].
        assert (Hnv : virtuals (h ++ r) = []).
        { apply (no_virtual ((k, j) :: l)); [|rewrite parse_members_cons, Hh; cbn [bind]; rewrite Hr; reflexivity].
          intros v0 [X|X]; [injection X as -> _; contradiction|].
          specialize (Hlt _ _ X). unfold String.ltb in *. rewrite String.compare_antisym in Hlt. destruct (String.compare "virtual" k); cbn in Hlt; discriminate. }
        change (SVirtual c :: h ++ r) with ([SVirtual c] ++ (h ++ r)). rewrite virtuals_app, ips_app, Hnv. split; reflexivity.
      * destruct (IH r c v a Hord Hr Hv Ha) as [y [Hy [Hyv Hyi]]].
        exists (h ++ y). rewrite parse_members_cons, Hh. cbn [bind]. rewrite Hy. cbn [bind].
        assert (Hhv : virtuals h = []).
        { unfold here_of in Hh. destruct (String.eqb k "IP").
          - apply bind_ok in Hh. destruct Hh as [z [_ Hh]]. injection Hh as <-. reflexivity.
          - destruct (String.eqb_spec k "virtual") as [ -> |]; [contradiction|]. injection Hh as <-. reflexivity. }
        rewrite !virtuals_app, !ips_app, Hyv, Hyi, Hhv. split; [reflexivity|]. split; reflexivity.
Qed.

(** The file as something wrote it: absent, or an object in order. *)
Definition proper (f : cfile) : Prop := match f with CAbsent => True | CValue (JObj l) => in_order l | _ => False end.
Definition listed (f : cfile) : res (list sconf) := match f with CAbsent => Ok [] | _ => parse_config_file ".json" f end.

(** Adding a Secondary to the file adds it to what is read, behind the virtual ones that are there, and changes nothing else. *)
Definition C170_statement (kills : bool) : Prop :=
  forall f x c f' b, (b = true -> kills = true) -> proper f -> listed f = Ok x -> dump b c f = Ok f' ->
  if b then (exists y, listed f' = Ok y /\ virtuals y = virtuals x /\ ips y = ips x)
  else exists y, listed f' = Ok y /\ virtuals y = virtuals x ++ [c] /\ ips y = ips x.

Theorem C170_partial : C170_statement false.
Proof.
  intros f x c f' b Hb Hp Hx Hd. destruct b; [discriminate (Hb eq_refl)|].
  unfold dump in Hd. apply bind_ok in Hd. destruct Hd as [v [Hv Hd]]. apply bind_ok in Hd. destruct Hd as [a [Ha Hd]]. injection Hd as <-.
  destruct f as [|j|]; [| |destruct Hp].
  - cbn in Hx. injection Hx as <-. cbn [listed parse_config_file]. change (String.eqb ".json" ".json") with true. cbn iota.
    apply (oset_parse [] [] c v a); try assumption; try reflexivity.
  - destruct j; try (destruct Hp; fail). cbn [listed parse_config_file] in *. change (String.eqb ".json" ".json") with true in *. cbn iota in *.
    exact (oset_parse l x c v a Hp Hx Hv Ha).
Qed.

(** Killed while the file is written, every Secondary in it is gone. *)
Theorem C170_refuted : ~ C170_statement true.
Proof.
  intros H. pose (c := toy_conf "s" "/a" "k" "p").
  destruct (H (CValue (JObj [("virtual", JArr [json_of_vconf c])])) [SVirtual c] c CBroken true (fun _ => eq_refl)
              (conj (fun k v (X : In (k, v) []) => match X with end) Logic.I) eq_refl eq_refl) as [y [Hy _]]. discriminate Hy.
Qed.

(** A file written from nothing gives back exactly the Secondaries, in order, to both readers. *)
Lemma dump_all_value : forall cs done, exists items,
  dump_all cs (CValue (JObj [("virtual", JArr done)])) = Ok (CValue (JObj [("virtual", JArr (done ++ items))])) /\ items = map json_of_vconf cs.
Proof.
  induction cs as [|c cs IH]; intros done.
  - exists []. rewrite List.app_nil_r. split; reflexivity.
  - destruct (IH (done ++ [json_of_vconf c])) as [items [H1 H2]]. exists (json_of_vconf c :: items). split.
    + cbn [dump_all dump bind jget aget]. change (String.eqb "virtual" "virtual") with true. cbn [jappend bind oset].
      change (String.eqb "virtual" "virtual") with true. cbn iota. rewrite H1. rewrite <- List.app_assoc. reflexivity.
    + rewrite H2. reflexivity.
Qed.
Lemma vconfs_map : forall cs i, vconfs_of (index_from i (map json_of_vconf cs)) = Ok cs.
Proof. induction cs as [|c cs IH]; intros i; [reflexivity|]. cbn [map index_from vconfs_of]. rewrite vconf_round. cbn [bind]. rewrite IH. reflexivity. Qed.

Theorem C170_round_trip : forall cs f, cs <> [] -> dump_all cs CAbsent = Ok f ->
  create_from_file f = Ok cs /\ parse_config_file ".json" f = Ok (map SVirtual cs).
Proof.
  intros [|c cs] f Hne H; [congruence|]. cbn [dump_all dump bind jget jappend oset] in H.
  destruct (dump_all_value cs [json_of_vconf c]) as [items [H1 H2]]. rewrite H1 in H.
  assert (f = CValue (JObj [("virtual", JArr (map json_of_vconf (c :: cs)))])) as -> by (injection H as <-; rewrite H2; reflexivity).
  clear H H1 H2. generalize (c :: cs). clear. intros cs.
  unfold create_from_file, parse_config_file, parse. cbn [jget aget].
  change (String.eqb "virtual" "virtual") with true. cbn [bind jiter]. rewrite vconfs_map. split; [reflexivity|].
  change (String.eqb ".json" ".json") with true. cbn iota. rewrite parse_members_cons. unfold here_of.
  change (String.eqb "virtual" "IP") with false. change (String.eqb "virtual" "virtual") with true. cbn [jiter]. rewrite vconfs_map.
  cbn [bind parse_members]. rewrite List.app_nil_r. reflexivity.
Qed.
(** Writing from nothing never fails. *)
Theorem C170_writes : forall cs, exists f, dump_all cs CAbsent = Ok f.
Proof.
  intros [|c cs]; [exists CAbsent; reflexivity|]. cbn [dump_all dump bind jget jappend oset].
  destruct (dump_all_value cs [json_of_vconf c]) as [items [H1 _]]. exists (CValue (JObj [("virtual", JArr ([json_of_vconf c] ++ items))])). exact H1.
Qed.

Example C170_example :
  let f0 := CValue (JObj [("IP", JObj [("secondaries", JArr [JObj [("addr", JStr "10.0.0.1:9030")]]); ("secondaries_wait_port", JInt 9040)]); ("zeta", JNull)]) in
  proper f0 /\ match dump false (toy_conf "s" "/a" "k" "p") f0 with
               | Ok f1 => listed f1 = Ok [SIp [("10.0.0.1", 9030)]; SVirtual (toy_conf "s" "/a" "k" "p")]
               | _ => False end.
Proof.
  split; [|vm_compute; reflexivity]. split; [|split; [intros k v []|exact Logic.I]].
  intros k v [X|[]]. injection X as <- _. reflexivity.
Qed.

Print Assumptions C169_partial.
Print Assumptions C169_all_made.
Print Assumptions C169_own.
Print Assumptions C169_refuted.
Print Assumptions C170_partial.
Print Assumptions C170_refuted.
Print Assumptions C170_round_trip.
Print Assumptions C170_writes.
