From Verif Require Import Base Json TufModel TufSpec TufProofs TufProofs2 MetaStore RepoModel RepoSpec RepoProofs RepoProofs2 RepoProofs3 RepoProofs4 RepoProofs5 RepoProofs6 RepoProofs7 RepoProofs8
  ClientModel ClientSpec ClientProofs ClientProofs2 ChkProofs IterProofs2 RechkSpec RechkProofs RechkProofs2.

(** ** Delegations that a search used are stored, and a search without the server uses them the same way *)
Definition held (E : Env) (sn : snapshot) (d : db) (n raw : string) : Prop :=
  load_delegation n d = Ok (Some raw) /\ raw <> "" /\ extract_version_untrusted E raw = Ok (role_version sn n).
Lemma held_store E sn d n raw name r : n <> name -> held E sn d n raw -> held E sn (store_delegation r name d) n raw.
Proof.
  intros N (A & B). split; [|exact B]. unfold load_delegation in *. cbn [store_delegation d_deleg]. rewrite aget_app, aget_del.
  destruct (String.eqb_spec n name); [contradiction|]. destruct (aget n (d_deleg d)); [exact A|discriminate].
Qed.
Lemma held_delete E sn d n raw name : n <> name -> held E sn d n raw -> held E sn (delete_delegation name d) n raw.
Proof.
  intros N (A & B). split; [|exact B]. unfold load_delegation in *. cbn [delete_delegation d_deleg]. rewrite aget_del.
  destruct (String.eqb_spec n name); [contradiction|]. exact A.
Qed.

Section S.
Context (E : Env) (srv : server).
Hypothesis Hcl : clean_server srv.
Hypothesis Hv : versioned_server E srv.

Lemma trusted_held off name parent s s' t : get_trusted_delegation E srv off name parent s = (s', Ok t) ->
  exists raw, held E (u_isnap s) (u_db s') name raw /\ verify_role_hashes E (u_isnap s) raw name = Ok tt /\
    targets_of_json_signed E (unpack_signed E (tg_ks parent)) {| r_kind := RDelegation; r_name := name |} (parse E raw) = Ok t.
Proof.
  unfold get_trusted_delegation. intros H. apply gets_inv in H. apply gets_inv in H.
  apply lift_inv in H. destruct H as [(stored & Hst & H) | (e & _ & _ & H)]; [|discriminate].
  apply mbind_inv in H. destruct H as [(s1 & local & Hl & H) | (e & _ & H)]; [|discriminate].
  apply mbind_inv in H. destruct H as [(s2 & raw & Hr & H) | (e & _ & H)]; [|discriminate].
  apply mbind_inv in H. destruct H as [(s3 & u & Hh & H) | (e & _ & H)]; [|discriminate].
  apply lift_inv in H. destruct H as [(t' & Ht & H) | (e & _ & _ & H)]; [|discriminate].
  apply mbind_inv in H. destruct H as [(s4 & u' & Hg & H) | (e & _ & H)]; [|discriminate].
  injection H as <- <-. exists raw.
  assert (HH : verify_role_hashes E (u_isnap s) raw name = Ok tt /\ s3 = s2).
  { destruct (verify_role_hashes E (u_isnap s) raw name) as [[]|]; [injection Hh as <-; auto|discriminate]. }
  destruct HH as (HH & ->). split; [|split; [exact HH|exact Ht]].
  destruct (String.eqb_spec local "") as [Q|Q].
  - destruct off; [discriminate|]. destruct (srv Image (append "delegations/" name) (-1)) as [x|] eqn:Sv; [|discriminate]. injection Hr as <- <-.
    apply mbind_inv in Hg. destruct Hg as [(s5 & u2 & Hg & Hw) | (e & _ & Hg)]; [|discriminate].
    unfold guard in Hg. destruct (Z.eqb_spec (tg_version t') (role_version (u_isnap s) name)) as [V|V]; cbn [negb] in Hg; [|discriminate]. injection Hg as <-.
    apply write_spec in Hw. destruct Hw as (_ & D & _). rewrite D. destruct (Hv _ _ _ Sv) as (v & X & L). pose proof (Hcl _ _ _ _ Sv) as NF.
    apply targets_signed_ok in Ht; [|right; reflexivity]. destruct Ht as (_ & (Hb & _)). pose proof (extract_base _ _ _ _ X Hb L) as EV.
    split; [|split; [apply NF|]].
    + unfold load_delegation. cbn [store_delegation d_deleg]. rewrite aget_app, aget_del, String.eqb_refl. cbn [aget]. rewrite String.eqb_refl. cbn [bind]. now rewrite (nul_free_blob _ NF).
    + rewrite X. unfold tg_version in V. congruence.
  - destruct stored as [sraw|]; [|injection Hl as <- <-; contradiction].
    apply lift_inv in Hl. destruct Hl as [(ver & Hver & Hl) | (e & _ & _ & Hl)]; [|discriminate].
    destruct (Z.ltb_spec (role_version (u_isnap s) name) ver) as [L1|L1]; [discriminate|].
    destruct (Z.ltb_spec ver (role_version (u_isnap s) name)) as [L2|L2].
    { apply mbind_inv in Hl. destruct Hl as [(s5 & u2 & _ & Hl) | (e & _ & Hl)]; [|discriminate]. injection Hl as <- <-. contradiction. }
    injection Hl as <- <-. injection Hr as <- <-. injection Hg as <-.
    split; [exact Hst|]. split; [exact Q|]. rewrite Hver. f_equal. lia.
Qed.
Lemma trusted_keeps name parent s s' r n raw : get_trusted_delegation E srv false name parent s = (s', r) ->
  held E (u_isnap s) (u_db s) n raw -> held E (u_isnap s) (u_db s') n raw.
Proof.
  intros H Hn. unfold get_trusted_delegation in H. apply gets_inv in H. apply gets_inv in H.
  destruct (String.eqb_spec n name) as [->|N].
  - assert (Hn' := Hn). destruct Hn as (A & B & C). rewrite A in H. apply lift_inv in H. destruct H as [(st & Q & H) | (e & Q & _ & _)]; [|discriminate]. injection Q as <-.
    apply mbind_inv in H.
    assert (X : (let* ver := lift (extract_version_untrusted E raw) in
         if role_version (u_isnap s) name <? ver then throw USecurity
         else if ver <? role_version (u_isnap s) name then (write (delete_delegation name) ;; ret "") else ret raw) s = (s, Ok raw)).
    { unfold mbind, lift. rewrite C. rewrite Z.ltb_irrefl. reflexivity. }
    rewrite X in H. destruct H as [(s1 & local & Q & H) | (e & Q & _)]; [|discriminate]. injection Q as <- <-.
    destruct (String.eqb_spec raw "") as [|_]; [contradiction|].
    unfold mbind, ret in H. destruct (verify_role_hashes _ _ _ _); [|injection H as <- _; exact Hn'].
    unfold lift in H. destruct (targets_of_json_signed _ _ _ _); injection H as <- _; exact Hn'.
  - apply lift_inv in H. destruct H as [(st & Q & H) | (e & _ & -> & _)]; [|exact Hn].
    apply mbind_inv in H.
    assert (K : forall s1 x, (match st with
      | None => ret ""
      | Some raw0 => let* ver := lift (extract_version_untrusted E raw0) in
         if role_version (u_isnap s) name <? ver then throw USecurity
         else if ver <? role_version (u_isnap s) name then (write (delete_delegation name) ;; ret "") else ret raw0 end) s = (s1, x) -> held E (u_isnap s) (u_db s1) n raw).
    { intros s1 x K. destruct st as [raw0|]; [|injection K as <- _; exact Hn].
      apply lift_inv in K. destruct K as [(ver & _ & K) | (e & _ & -> & _)]; [|exact Hn].
      destruct (_ <? _); [injection K as <- _; exact Hn|]. destruct (_ <? _); [|injection K as <- _; exact Hn].
      apply mbind_inv in K. destruct K as [(s5 & [] & K & K2) | (e & K & _)].
      - injection K2 as <- _. apply write_spec in K. destruct K as (_ & -> & _). now apply held_delete.
      - apply write_spec in K. destruct K as (K & _). discriminate. }
    destruct H as [(s1 & local & H1 & H) | (e & H1 & _)]; [|eapply K; eauto]. apply K in H1. clear K.
    apply mbind_inv in H.
    assert (K : forall s2 x, (if String.eqb local "" then match srv Image (append "delegations/" name) (-1) with Ok raw => ret raw | Throw _ => throw UDelegationMissing end else ret local) s1 = (s2, x) -> s2 = s1).
    { intros s2 x K. destruct (String.eqb local ""); [destruct (srv _ _ _)|]; injection K as <- _; reflexivity. }
    destruct H as [(s2 & raw2 & H2 & H) | (e & H2 & _)]; apply K in H2; subst s2 || subst s'; [|exact H1]. clear K.
    apply mbind_inv in H.
    assert (K : forall s2 x, match verify_role_hashes E (u_isnap s) raw2 name with Ok _ => ret tt | Throw _ => throw UDelegationHashMismatch end s1 = (s2, x) -> s2 = s1).
    { intros s2 x K. destruct (verify_role_hashes _ _ _ _); injection K as <- _; reflexivity. }
    destruct H as [(s2 & u & H2 & H) | (e & H2 & _)]; apply K in H2; subst s2 || subst s'; [|exact H1]. clear K.
    apply lift_inv in H. destruct H as [(t & _ & H) | (e & _ & -> & _)]; [|exact H1].
    apply mbind_inv in H.
    assert (K : forall s2 (x : res unit), (if String.eqb local "" then guard (negb (tg_version t =? role_version (u_isnap s) name)) UVersionMismatch ;; write (store_delegation raw2 name) else ret tt) s1 = (s2, x) -> held E (u_isnap s) (u_db s2) n raw).
    { intros s2 x K. destruct (String.eqb local ""); [|injection K as <- _; exact H1].
      apply mbind_inv in K. destruct K as [(s5 & [] & K & K2) | (e & K & _)].
      - apply guard_ok in K. destruct K as (-> & _). apply write_spec in K2. destruct K2 as (_ & -> & _). now apply held_store.
      - apply guard_ok in K. destruct K as (-> & _). exact H1. }
    destruct H as [(s2 & u2 & H2 & H) | (e & H2 & _)]; apply K in H2; [|exact H2]. injection H as <- _. exact H2.
Qed.
Lemma trusted_again name parent s s2 t raw : held E (u_isnap s) (u_db s2) name raw -> u_isnap s2 = u_isnap s ->
  verify_role_hashes E (u_isnap s) raw name = Ok tt ->
  targets_of_json_signed E (unpack_signed E (tg_ks parent)) {| r_kind := RDelegation; r_name := name |} (parse E raw) = Ok t ->
  get_trusted_delegation E srv true name parent s2 = (s2, Ok t).
Proof.
  intros (A & B & C) Q HH HT. unfold get_trusted_delegation, mbind, gets, lift. rewrite Q, A. cbv beta iota zeta. rewrite C. cbv beta iota zeta. rewrite Z.ltb_irrefl. unfold ret.
  destruct (String.eqb_spec raw "") as [|_]; [contradiction|]. rewrite HH, HT. reflexivity.
Qed.

Context (fnm : string -> string -> bool) (now : string -> string).


(** The inner loop of the search, on its own. *)
Fixpoint dloop (off : bool) (q : target) (rec : bool -> targets -> M (option target)) (cur : targets) (names : list string) : M (option target) :=
  match names with
  | [] => ret None
  | name :: rest =>
      let* r := lift (role_delegation name) in
      match aget (r_name r) (tg_paths cur) with
      | None => dloop off q rec cur rest
      | Some patterns =>
          if existsb (fun p => fnm p (t_filename q)) patterns then
            let* d := get_trusted_delegation E srv off (r_name r) cur in
            if is_expired (tg_base d) (now (r_name r)) then dloop off q rec cur rest else
            match aget (r_name r) (tg_term cur) with
            | None => throw UBase
            | Some term =>
                let* found := rec term d in
                match found with Some t => ret (Some t) | None => dloop off q rec cur rest end
            end
          else dloop off q rec cur rest
      end
  end.
Lemma helper_dloop off q fuel term cur : find_target_helper E fnm srv now off q (S fuel) term cur =
  match find (fun t => match_target t q) (tg_targets cur) with
  | Some t => ret (Some t)
  | None => if term then ret None else dloop off q (find_target_helper E fnm srv now off q fuel) cur (tg_deleg cur)
  end.
Proof.
  cbn [find_target_helper]. destruct (find _ _); [reflexivity|]. destruct term; [reflexivity|].
  generalize (tg_deleg cur) as names. induction names as [|name rest IH]; [reflexivity|]. cbn [dloop]. rewrite <- IH. reflexivity.
Qed.

Definition keeps_held (s s' : ust) : Prop := u_isnap s' = u_isnap s /\
  forall n raw, held E (u_isnap s) (u_db s) n raw -> held E (u_isnap s) (u_db s') n raw.
Lemma kh_refl s : keeps_held s s.
Proof. split; auto. Qed.
Lemma kh_trans a b c : keeps_held a b -> keeps_held b c -> keeps_held a c.
Proof. intros (A & B) (C & D). split; [congruence|]. intros n raw H. rewrite <- A. apply D. rewrite A. now apply B. Qed.
Lemma trusted_kh name parent s s' r : get_trusted_delegation E srv false name parent s = (s', r) -> keeps_held s s'.
Proof.
  intros H. split; [|intros n raw; eapply trusted_keeps; eauto]. apply od_trusted in H. apply H.
Qed.
Lemma dloop_kh q rec cur : (forall term d s s' r, rec term d s = (s', r) -> keeps_held s s') ->
  forall names s s' r, dloop false q rec cur names s = (s', r) -> keeps_held s s'.
Proof.
  intros HR. induction names as [|name rest IH]; intros s s' r H; cbn [dloop] in H; [injection H as <- _; apply kh_refl|].
  apply lift_inv in H. destruct H as [(rl & Hrl & H) | (e & _ & -> & ->)]; [|apply kh_refl].
  destruct (aget (r_name rl) (tg_paths cur)) as [ps|]; [|eapply IH; eauto]. destruct (existsb _ ps); [|eapply IH; eauto].
  apply mbind_inv in H. destruct H as [(s1 & d & Hd & H) | (e & Hd & ->)]; [|eapply trusted_kh; eauto]. apply trusted_kh in Hd.
  destruct (is_expired _ _); [eapply kh_trans; [exact Hd|eapply IH; eauto]|].
  destruct (aget (r_name rl) (tg_term cur)) as [tm|]; [|injection H as <- _; exact Hd].
  apply mbind_inv in H. destruct H as [(s2 & fo & Hf2 & H) | (e & Hf2 & ->)]; apply HR in Hf2; [|eapply kh_trans; eauto].
  destruct fo; [injection H as <- _; eapply kh_trans; eauto|]. eapply kh_trans; [eapply kh_trans; [exact Hd|exact Hf2]|eapply IH; eauto].
Qed.
Lemma helper_kh q : forall fuel term cur s s' r, find_target_helper E fnm srv now false q fuel term cur s = (s', r) -> keeps_held s s'.
Proof.
  induction fuel as [|fuel IH]; intros term cur s s' r H.
  - cbn [find_target_helper] in H. destruct (find _ _); [|destruct term]; injection H as <- _; apply kh_refl.
  - rewrite helper_dloop in H. destruct (find _ _); [injection H as <- _; apply kh_refl|]. destruct term; [injection H as <- _; apply kh_refl|].
    eapply dloop_kh; [|exact H]. exact IH.
Qed.

(** A search that ran with the server gives the same result without it, in any state that holds the delegations that are
    stored after it. *)
Definition same_query (q q' : target) : Prop := t_filename q = t_filename q' /\ forall t, match_target t q = match_target t q'.
Lemma dloop_again q q' rec rec2 cur : same_query q q' ->
  (forall term d s s' r, rec term d s = (s', r) -> keeps_held s s') ->
  (forall term d s s' o, rec term d s = (s', Ok o) -> forall s2, keeps_held s' s2 -> rec2 term d s2 = (s2, Ok o)) ->
  forall names s s' o, dloop false q rec cur names s = (s', Ok o) -> forall s2, keeps_held s' s2 -> dloop true q' rec2 cur names s2 = (s2, Ok o).
Proof.
  intros (SQ & _) HK HR. induction names as [|name rest IH]; intros s s' o H s2 K; [cbn [dloop] in *; injection H as _ <-; reflexivity|].
  assert (KL := dloop_kh q rec cur HK rest).
  cbn [dloop] in H |- *. rewrite <- SQ.
  apply lift_inv in H. destruct H as [(rl & Hrl & H) | (e & _ & _ & H)]; [|discriminate].
  unfold lift at 1, mbind at 1. rewrite Hrl.
  destruct (aget (r_name rl) (tg_paths cur)) as [ps|]; [|eapply IH; eauto]. destruct (existsb _ ps); [|eapply IH; eauto].
  apply mbind_inv in H. destruct H as [(s1 & d & Hd & H) | (e & _ & H)]; [|discriminate].
  assert (AG : keeps_held s1 s2 -> get_trusted_delegation E srv true (r_name rl) cur s2 = (s2, Ok d)).
  { intros (K1 & K2). destruct (trusted_held _ _ _ _ _ _ Hd) as (raw & R1 & R2 & R3). apply trusted_kh in Hd. destruct Hd as (D1 & D2).
    eapply (trusted_again _ _ s); [|congruence|exact R2|exact R3]. rewrite <- D1. apply K2. rewrite D1. exact R1. }
  unfold mbind at 1.
  destruct (is_expired (tg_base d) (now (r_name rl))) eqn:EX.
  { rewrite (AG (kh_trans _ _ _ (KL _ _ _ H) K)), EX. eapply IH; eauto. }
  destruct (aget (r_name rl) (tg_term cur)) as [tm|]; [|discriminate].
  apply mbind_inv in H. destruct H as [(s3 & fo & Hf & H) | (e & _ & H)]; [|discriminate].
  destruct fo as [t|].
  - injection H as <- <-. rewrite (AG (kh_trans _ _ _ (HK _ _ _ _ _ Hf) K)), EX. unfold mbind. rewrite (HR _ _ _ _ _ Hf _ K). reflexivity.
  - assert (K3 := kh_trans _ _ _ (KL _ _ _ H) K). rewrite (AG (kh_trans _ _ _ (HK _ _ _ _ _ Hf) K3)), EX. unfold mbind. rewrite (HR _ _ _ _ _ Hf _ K3). eapply IH; eauto.
Qed.
Lemma helper_again q q' : same_query q q' -> forall fuel term cur s s' o, find_target_helper E fnm srv now false q fuel term cur s = (s', Ok o) ->
  forall s2, keeps_held s' s2 -> find_target_helper E fnm srv now true q' fuel term cur s2 = (s2, Ok o).
Proof.
  intros SQ. assert (FE : forall l, find (fun t => match_target t q') l = find (fun t => match_target t q) l).
  { induction l as [|x l IH]; [reflexivity|]. cbn [find]. rewrite (proj2 SQ), IH. reflexivity. }
  induction fuel as [|fuel IH]; intros term cur s s' o H s2 K.
  - cbn [find_target_helper] in H |- *. rewrite FE. destruct (find _ _); [|destruct term]; injection H as _ <-; reflexivity.
  - rewrite helper_dloop in H |- *. rewrite FE. destruct (find _ _); [injection H as _ <-; reflexivity|]. destruct term; [injection H as _ <-; reflexivity|].
    eapply dloop_again; [exact SQ| |exact IH|exact H|exact K]. apply helper_kh.
Qed.
Lemma tree_again q q' s s' o : same_query q q' -> find_target_in_tree E fnm srv now false q s = (s', Ok o) ->
  forall s2, keeps_held s' s2 -> u_itargets s2 = u_itargets s -> find_target_in_tree E fnm srv now true q' s2 = (s2, Ok o).
Proof.
  unfold find_target_in_tree. intros SQ H s2 K Q. apply gets_inv in H. unfold mbind, gets. rewrite Q. destruct (u_itargets s) as [t|].
  - eapply helper_again; eauto.
  - injection H as _ <-. reflexivity.
Qed.
Lemma tree_kh q s s' r : find_target_in_tree E fnm srv now false q s = (s', r) -> keeps_held s s' /\ u_itargets s' = u_itargets s.
Proof.
  unfold find_target_in_tree. intros H. apply gets_inv in H. destruct (u_itargets s) as [t|] eqn:Q; [|injection H as <- _; split; [apply kh_refl|exact Q]].
  split; [eapply helper_kh; eauto|]. apply helper_spec in H. destruct H as (H & _). rewrite <- Q. apply H.
Qed.

Lemma same_query_uri t t' : but_uri t t' -> same_query t t'.
Proof.
  intros (A1 & A2 & A3 & A4 & A5 & A6 & A7 & A8 & A9). split; [exact A2|]. intros x. unfold match_target, match_hw. now rewrite A2, A4, A5, A6, A8.
Qed.
Lemma confirm_kh : forall l s s' r, confirm_with_image E fnm srv now l s = (s', r) -> keeps_held s s' /\ u_itargets s' = u_itargets s.
Proof.
  induction l as [|t l IH]; intros s s' r H; cbn [confirm_with_image] in H; [injection H as <- _; split; [apply kh_refl|reflexivity]|].
  apply mbind_inv in H. destruct H as [(s1 & it & H1 & H) | (e & H1 & ->)]; apply tree_kh in H1; [|exact H1]. destruct H1 as (K1 & T1).
  destruct it as [i|]; [|injection H as <- _; auto].
  apply mbind_inv in H. destruct H as [(s2 & rest & H2 & H) | (e & H2 & ->)]; apply IH in H2; destruct H2 as (K2 & T2); [injection H as <- _|]; (split; [eapply kh_trans; eauto|congruence]).
Qed.
Lemma confirm_again dts : forall l s s' l', confirm_with_image E fnm srv now l s = (s', Ok l') ->
  (forall t t', In t l -> but_uri t t' -> (exists top i, u_itargets s = Some top /\ vouched E fnm now (u_isnap s) top t i) -> existsb (fun d => match_target d t') dts = true) ->
  forall s2, keeps_held s' s2 -> u_itargets s2 = u_itargets s -> forall srv2, confirm_offline E fnm srv2 now dts l' s2 = (s2, Ok tt).
Proof.
  induction l as [|t l IH]; intros s s' l' H HD s2 K Q srv2; [cbn [confirm_with_image] in H; injection H as _ <-; reflexivity|].
  assert (HC := H). apply confirm_spec in HC. destruct HC as (_ & HC). specialize (HC _ eq_refl). cbn [confirm_with_image] in H.
  apply mbind_inv in H. destruct H as [(s1 & it & H1 & H) | (e & _ & H)]; [|discriminate]. destruct it as [i|]; [|discriminate].
  apply mbind_inv in H. destruct H as [(s3 & rest & H2 & H) | (e & _ & H)]; [|discriminate]. injection H as <- <-.
  inversion HC as [|? ? ? ? (B & V) HC']; subst. cbn [confirm_offline].
  rewrite (HD _ _ (or_introl eq_refl) B V).
  assert (K1 := confirm_kh _ _ _ _ H2). destruct K1 as (K1 & T1). assert (TK := tree_kh _ _ _ _ H1). destruct TK as (K0 & T0).
  unfold mbind. rewrite (tree_offline E fnm srv2 srv).
  assert (TA := tree_again _ _ _ _ _ (same_query_uri _ _ B) H1 s2 (kh_trans _ _ _ K1 K) Q). rewrite TA.
  eapply IH; [exact H2| |exact K|congruence]. intros x x' Hx Bx (top & j & T & Vx). apply (HD x x'); [right; exact Hx|exact Bx|]. exists top, j. rewrite <- T0. destruct K0 as (K0 & _). rewrite <- K0. auto.
Qed.
End S.

(** ** The whole recheck *)
Lemma self_match t t' : but_uri t t' -> hashes_agree t -> t_hashes t <> [] -> match_target t t' = true.
Proof.
  intros (A1 & A2 & A3 & A4 & A5 & A6 & A7 & A8 & A9) HA HN. apply match_target_iff. split; [exact A2|]. split; [exact A8|]. split.
  - left. split; [exact A6|]. intros e. now rewrite A4.
  - rewrite <- A5. split; [|exact HA]. destruct (t_hashes t) as [|h l]; [contradiction|]. exists h. split; now left.
Qed.
Lemma rows_store_root rp rp' raw v d w : rp <> rp' -> w_repo w = rp -> In w (d_meta (store_root raw rp' v d)) -> In w (d_meta d).
Proof.
  intros N Q H. cbn [store_root d_meta] in H. apply in_app_or in H. destruct H as [H|[H|[]]]; [now apply filter_In in H|]. subst w. cbn in Q. congruence.
Qed.
Lemma rows_chain rp rp' w : rp <> rp' -> w_repo w = rp -> forall l d, In w (d_meta (chain_db rp' l d)) -> In w (d_meta d).
Proof.
  intros N Q. induction l as [|(v, raw) l IH]; intros d H; cbn [chain_db] in H; [exact H|]. apply IH in H. cbn [clear_nonroot d_meta] in H. apply filter_In in H. destruct H as (H & _).
  eapply rows_store_root; eauto.
Qed.
Lemma rows_stores rp rp' w : rp <> rp' -> w_repo w = rp -> forall l d, In w (d_meta (stores rp' l d)) -> In w (d_meta d).
Proof.
  intros N Q. induction l as [|(v, raw) l IH]; intros d H; cbn [stores] in H; [exact H|]. apply IH in H. cbn [store_nonroot d_meta] in H. apply in_app_or in H.
  destruct H as [H|[H|[]]]; [now apply filter_In in H|]. subst w. cbn in Q. congruence.
Qed.
(** The Director's update leaves what is stored of the Image repository. *)
Lemma director_update_image E srv clk s s' r : director_update E srv clk s = (s', r) ->
  (forall w, w_repo w = Image -> In w (d_meta (u_db s')) -> In w (d_meta (u_db s))) /\
  (forall ty, latest_row Image ty (u_db s') = latest_row Image ty (u_db s)).
Proof.
  intros H. apply director_update_phases in H. destruct H as (s0 & s1 & x & D0 & L0 & Hu & T1 & _ & Hc).
  assert (N : Image <> Director) by discriminate.
  assert (A : (forall w, w_repo w = Image -> In w (d_meta (u_db s1)) -> In w (d_meta (u_db s))) /\ (forall ty, latest_row Image ty (u_db s1) = latest_row Image ty (u_db s))).
  { split.
    - intros w Q Hw. apply update_root_spec in Hu. destruct Hu as (o & l & Ro & _ & D & _). rewrite D in Hw. apply (rows_chain Image) in Hw; auto.
      rewrite D0 in Hw. destruct o; cbn [first_db] in Hw; [eapply (rows_store_root Image); eauto|exact Hw].
    - intros ty. rewrite (update_root_other _ _ _ Image _ _ _ _ ty Hu N), D0. reflexivity. }
  destruct Hc as [(e & _ & -> & _) | (_ & Hb)]; [exact A|].
  assert (W : exists l, wrote Director l s1 s').
  { apply director_block_spec in Hb; [|rewrite T1; reflexivity]. destruct Hb as (_ & _ & [(Hw & _) | Hb]); [eauto|].
    destruct Hb as (raw & remote & local & _ & _ & _ & _ & _ & [(_ & Hw) | (_ & Hw)] & _); eauto. }
  destruct W as (l & W & _). rewrite W. destruct A as (A1 & A2). split.
  - intros w Q Hw. apply A1; auto. eapply (rows_stores Image); eauto.
  - intros ty. rewrite stores_other by auto. apply A2.
Qed.
Lemma check_updates_stored E fnm srv clkd clki now v s s' l n : check_updates E fnm srv clkd clki now v s = (s', Ok (UcUpdates l n)) ->
  load_nonroot Director RTargets (u_db s') <> Ok None.
Proof.
  unfold check_updates. intros H. apply mbind_inv in H. destruct H as [(s1 & it & _ & H) | (e & _ & H)]; [|discriminate].
  destruct it as [(updates, count)|]; [|discriminate].
  apply gets_inv in H. apply lift_inv in H. destruct H as [(st & L & H) | (e & _ & _ & H)]; [|discriminate].
  destruct st as [st|]; [|discriminate]. destruct (nilb updates); [discriminate|].
  apply catch_inv in H. destruct H as [H | (sx & e & _ & _ & H)]; [|discriminate].
  apply mbind_inv in H. destruct H as [(s2 & l2 & Hcf & H) | (e & _ & H)]; [|discriminate]. injection H as <- _ _.
  apply confirm_spec in Hcf. destruct Hcf as ((O1 & _) & _). unfold load_nonroot, latest_row in *. rewrite O1, L. discriminate.
Qed.

(** What is in memory and in storage, but for the log. *)
Definition same_meta (a b : ust) : Prop :=
  u_db b = u_db a /\ u_droot b = u_droot a /\ u_dtargets b = u_dtargets a /\ u_iroot b = u_iroot a /\ u_itime b = u_itime a /\ u_isnap b = u_isnap a /\ u_itargets b = u_itargets a.
Lemma same_meta_refl a : same_meta a a. Proof. repeat split. Qed.
Lemma same_meta_trans a b c : same_meta a b -> same_meta b c -> same_meta a c.
Proof. intros (A1 & A2 & A3 & A4 & A5 & A6 & A7) (B1 & B2 & B3 & B4 & B5 & B6 & B7). unfold same_meta. repeat split; congruence. Qed.
Notation serials := (flat_map (fun x => map fst (t_ecus x))).
Lemma nodup_filtered (a b c : list string) : NoDup (a ++ b ++ c) -> NoDup (a ++ c).
Proof. intros H. induction b as [|x b IH]; [exact H|]. apply IH. cbn in H. now apply NoDup_remove_1 in H. Qed.
Lemma new_targets_nodup v : forall ts acc c l c', get_new_targets v ts acc c = Ok (l, c') -> NoDup (serials acc ++ serials ts) -> NoDup (serials l).
Proof.
  induction ts as [|t ts IH]; intros acc c l c' H N; cbn [get_new_targets] in H.
  - injection H as <- _. cbn in N. now rewrite app_nil_r in N.
  - apply bind_ok in H. destruct H as ((b, c1) & _ & H). cbn [fst snd] in H. apply IH in H; [exact H|]. cbn [flat_map] in N. destruct b.
    + rewrite flat_map_app. cbn [flat_map]. rewrite app_nil_r, <- app_assoc. exact N.
    + eapply nodup_filtered; exact N.
Qed.
Lemma but_uri_serials (R : target -> target -> Prop) : (forall a b, R a b -> but_uri a b) -> forall l l', Forall2 R l l' -> serials l' = serials l.
Proof. intros HR. induction 1 as [|a b l l' H _ IH]; [reflexivity|]. cbn [flat_map]. rewrite IH. destruct (HR _ _ H) as (_ & _ & _ & Q & _). now rewrite Q. Qed.

Theorem recheck_repeats E fnm srv srv2 clkd clki now v s s' l n :
  check_updates E fnm srv clkd clki now v s = (s', Ok (UcUpdates l n)) -> v_pending v = false ->
  clean_server srv -> versioned_server E srv ->
  roots_numbered E srv Director (u_db s) -> roots_numbered E srv Image (u_db s) ->
  no_equivocation E srv Director "targets" RTargets (u_db s) -> no_equivocation E srv Image "timestamp" RTimestamp (u_db s) ->
  director_lists_targets E srv -> Forall hashes_agree l ->
  director_in_force E s' /\ image_in_force E s' /\ NoDup (serials l) /\
  forall sx, same_meta s' sx -> exists s2, check_updates_offline E fnm srv2 clkd clki now v l sx = (s2, Ok OcAvailable) /\ same_meta s' s2.
Proof.
  intros H HP Hcl Hv RD RI ND NI DL HA. assert (ST := check_updates_stored _ _ _ _ _ _ _ _ _ _ _ H).
  apply check_updates_inv in H; [|discriminate].
  destruct H as (s1 & us & c & Hd & Hn & Ht & [(_ & H & _) | (Hne & l1 & s3 & Hi & H & Hc)]); [discriminate|]. injection H as <- <-.
  destruct (director_update_image _ _ _ _ _ _ Hd) as (RW & LR).
  assert (RI' : roots_numbered E srv Image (u_db s1)).
  { destruct RI as (R1 & R2). split; [|exact R2]. intros w raw R Hw Q. apply (R1 w raw R); auto. }
  assert (NI' : no_equivocation E srv Image "timestamp" RTimestamp (u_db s1)).
  { intros raw sraw A B. apply NI; [exact A|]. unfold load_nonroot in *. now rewrite <- LR. }
  destruct (image_update_in_force _ _ _ _ _ Hi Hcl Hv RI' NI') as (IF & X1 & X2 & X3 & X4 & (KD1 & KD2 & KD3) & KL).
  assert (HC := Hc). apply confirm_spec in HC. destruct HC as ((O1 & O2 & O3 & O4 & O5 & O6 & O7 & O8) & HC). specialize (HC _ eq_refl).
  assert (LT : forall rp ty, latest_row rp ty (u_db s') = latest_row rp ty (u_db s3)) by (intros rp ty; unfold latest_row; now rewrite O1).
  assert (ST1 : load_nonroot Director RTargets (u_db s1) <> Ok None).
  { unfold load_nonroot in *. now rewrite LT, KL in ST. }
  destruct (director_update_in_force _ _ _ _ _ Hd Hcl RD ND DL ST1) as (DF & Y1 & Y2 & Y3 & Y4 & Y5).
  assert (DF' : director_in_force E s').
  { destruct DF as (a & b & D1 & D2 & D3 & D4 & D5). exists a, b. unfold load_latest_root, load_nonroot in *. rewrite !LT, !KL, O2, O3, KD1, KD2. auto 6. }
  assert (IF' : image_in_force E s').
  { destruct IF as (a1 & a2 & a3 & a4 & t & D). exists a1, a2, a3, a4, t. unfold load_latest_root, load_nonroot in *. rewrite !LT, O5, O6, O7, O8. exact D. }
  split; [exact DF'|]. split; [exact IF'|]. split.
  { rewrite (but_uri_serials _ (fun a b H => proj1 H) _ _ HC). eapply new_targets_nodup; [exact Hn|]. exact Y5. }
  intros sx SM. unfold check_updates_offline. rewrite HP.
  assert (NL : nilb l = false). { inversion HC; subst; [contradiction|reflexivity]. } rewrite NL. unfold uptane_offline_iteration.
  assert (EQD : u_dtargets s' = u_dtargets s1) by congruence. assert (EQR : u_droot s' = u_droot s1) by congruence.
  destruct SM as (SM1 & SM2 & SM3 & SM4 & SM5 & SM6 & SM7).
  assert (DFx : director_in_force E sx). { destruct DF' as (a & b & D). exists a, b. rewrite SM1, SM2, SM3. exact D. }
  rewrite <- EQR, <- SM2 in Y1. rewrite <- EQD, <- SM3 in Y3, Y4, Y5.
  destruct (director_offline_complete E clkd sx DFx Y1 Y3 Y4 Y5) as (sa & A1 & A2 & A3 & A4 & (A5 & A6 & A7) & A8).
  rewrite <- O5, <- SM4 in X1. rewrite <- O6, <- SM5 in X2. rewrite <- O7, <- SM6 in X3.
  assert (IFa : image_in_force E sa).
  { destruct IF' as (a1 & a2 & a3 & a4 & t & D). exists a1, a2, a3, a4, t. rewrite A2, A4, A5, A6, A7, SM1, SM4, SM5, SM6, SM7. exact D. }
  rewrite <- A4 in X1. rewrite <- A5 in X2. rewrite <- A6 in X3.
  destruct (image_offline_complete E clki sa IFa X1 X2 X3) as (sb & B1 & B2 & B3 & B4 & B5 & B6 & B7 & B8).
  { intros t Q. apply X4. rewrite <- O8, <- SM7, <- A7. exact Q. }
  assert (CF : confirm_offline E fnm srv2 now us l sb = (sb, Ok tt)).
  { eapply (confirm_again E srv Hcl Hv); [exact Hc| | |congruence].
    - intros t t' Hin Bu (top & i & _ & V). apply existsb_exists. exists t. split; [exact Hin|].
      assert (AG : hashes_agree t).
      { clear -HC HA Hin. revert HA. induction HC as [|a b la lb (Q & _) HC IH]; [destruct Hin|]. intros HA. inversion HA; subst.
        destruct Hin as [-> | Hin]; [|auto]. destruct Q as (_ & _ & _ & _ & Q & _). unfold hashes_agree in *. now rewrite Q. }
      apply self_match; [exact Bu|exact AG|]. destruct V as (m & role & _ & _ & _ & V). destruct V as (_ & _ & _ & (h & _ & Hh) & _). destruct (t_hashes t); [destruct Hh|discriminate].
    - split; [congruence|]. intros m raw. now rewrite B2, A2, SM1. }
  exists sb. split; [|unfold same_meta; repeat split; congruence].
  destruct us as [|u us]; [contradiction|].
  unfold mbind at 1. unfold mbind at 1. rewrite A1. unfold mbind at 1, gets. unfold mbind at 1, lift. rewrite A3, SM3, EQD, Hn. cbn [fst nilb].
  unfold check_image_meta_offline, catch, mbind at 1. rewrite B1. unfold ret at 1. cbn [fst nilb]. unfold mbind. rewrite CF. reflexivity.
Qed.

Theorem recheck_confirms E fnm srv srv2 clkd clki now v s s' l n :
  check_updates E fnm srv clkd clki now v s = (s', Ok (UcUpdates l n)) -> v_pending v = false ->
  clean_server srv -> versioned_server E srv ->
  roots_numbered E srv Director (u_db s) -> roots_numbered E srv Image (u_db s) ->
  no_equivocation E srv Director "targets" RTargets (u_db s) -> no_equivocation E srv Image "timestamp" RTimestamp (u_db s) ->
  director_lists_targets E srv -> Forall hashes_agree l ->
  exists s2, check_updates_offline E fnm srv2 clkd clki now v l s' = (s2, Ok OcAvailable) /\ u_db s2 = u_db s'.
Proof.
  intros H1 H2 H3 H4 H5 H6 H7 H8 H9 H10. destruct (recheck_repeats E fnm srv srv2 clkd clki now v s s' l n H1 H2 H3 H4 H5 H6 H7 H8 H9 H10) as (_ & _ & _ & R).
  destruct (R s' (same_meta_refl s')) as (s2 & R1 & R2 & _). eauto.
Qed.
