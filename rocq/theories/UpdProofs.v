(** Proofs about the installation of an update: what the events of a run look like. *)
From Verif Require Import Base Json TufModel MetaStore RepoModel CodecModel InstModel InstSpec DevModel DevSpec DevProofs ClientModel UpdModel UpdSpec.

Section U.
Context (savec : json -> string) (loadc : string -> option json) (E : Env) (fnm : string -> string -> bool).
Context (P : primary) (W : world) (srv : server).
Notation ev_idb := (ev_idb savec).
(** [evs] happened between [s] and [s']. *)
Definition adv (s s' : pst) (evs : list uev) : Prop :=
  p_tr s' = p_tr s ++ evs /\ p_idb s' = fold_left ev_idb evs (p_idb s) /\ p_dev s' = fold_left ev_dev evs (p_dev s) /\ p_ust s' = p_ust s.
Lemma adv_refl s : adv s s [].
Proof. unfold adv. rewrite app_nil_r. auto. Qed.
Lemma adv_trans a b c e1 e2 : adv a b e1 -> adv b c e2 -> adv a c (e1 ++ e2).
Proof. intros (A1 & A2 & A3 & A4) (B1 & B2 & B3 & B4). unfold adv. rewrite !fold_left_app, <- A2, <- A3, B1, A1, app_assoc. repeat split; congruence. Qed.
Lemma adv_tell e s s' r : tell savec e s = (s', r) -> adv s s' [e] /\ r = Ok tt.
Proof. unfold tell. intros [= <- <-]. split; [repeat split|reflexivity]. Qed.
Lemma pbind_inv {A B} (m : PM A) (k : A -> PM B) s s' r : pbind m k s = (s', r) ->
  (exists a s1, m s = (s1, Ok a) /\ k a s1 = (s', r)) \/ exists e, m s = (s', Throw e) /\ r = Throw e.
Proof. unfold pbind. destruct (m s) as [s1 [a|e]] eqn:H; intros Hk; [left; eauto|right]. injection Hk as <- <-. eauto. Qed.
Lemma tell_bind {A} e (k : unit -> PM A) s s' r : pbind (tell savec e) k s = (s', r) -> exists s1, adv s s1 [e] /\ k tt s1 = (s', r).
Proof.
  intros H. apply pbind_inv in H. destruct H as [(a & s1 & H & K)|(x & H & _)]; apply adv_tell in H; destruct H as (Hv & R).
  - injection R as ->. eauto.
  - discriminate.
Qed.
Lemma lift_bind {A B} (x : res A) (k : A -> PM B) s s' r : pbind (plift x) k s = (s', r) ->
  (exists a, x = Ok a /\ k a s = (s', r)) \/ exists e, x = Throw e /\ s' = s /\ r = Throw e.
Proof.
  intros H. apply pbind_inv in H. unfold plift in H. destruct H as [(a & s1 & H & K)|(e & H & R)]; injection H as H1 H2; subst; eauto.
Qed.
Lemma read_bind {A B} (f : pst -> res A) (k : A -> PM B) s s' r : pbind (fun s => (s, f s)) k s = (s', r) ->
  (exists a, f s = Ok a /\ k a s = (s', r)) \/ exists e, f s = Throw e /\ s' = s /\ r = Throw e.
Proof. intros H. apply pbind_inv in H. destruct H as [(a & s1 & H & K)|(e & H & R)]; injection H as H1 H2; subst; eauto. Qed.
Lemma gets_bind {A B} (f : pst -> A) (k : A -> PM B) s s' r : pbind (pgets f) k s = (s', r) -> k (f s) s = (s', r).
Proof. unfold pbind, pgets. auto. Qed.

Lemma tell_all_spec l : forall s s' r, tell_all savec l s = (s', r) -> adv s s' l /\ r = Ok tt.
Proof.
  induction l as [|e l IH]; cbn [tell_all]; intros s s' r H; [injection H as <- <-; split; [apply adv_refl|reflexivity]|].
  apply tell_bind in H. destruct H as (s1 & A & H). apply IH in H. destruct H as (B & ->). split; [|reflexivity]. exact (adv_trans _ _ _ [e] l A B).
Qed.

(** ** Images and pings *)
Lemma recheck_spec ts : forall s s' r, recheck_images P W ts s = (s', r) -> s' = s /\
  (r = Ok true -> forall t, In t ts -> for_ecu t (pr_serial P) || negb (is_ostree t) = true -> e_verify W t = Ok true).
Proof.
  induction ts as [|t ts IH]; cbn [recheck_images]; intros s s' r H.
  - injection H as <- <-. split; [reflexivity|]. intros _ t [].
  - destruct (for_ecu t (pr_serial P) || negb (is_ostree t)) eqn:C.
    + apply lift_bind in H. destruct H as [(g & V & H)|(e & V & -> & ->)]; [|split; [reflexivity|discriminate]].
      destruct g; [|injection H as <- <-; split; [reflexivity|discriminate]].
      apply IH in H. destruct H as (-> & H). split; [reflexivity|]. intros R x [<-|Hx]; auto.
    + apply IH in H. destruct H as (-> & H). split; [reflexivity|]. intros R x [<-|Hx] Hc; [congruence|auto].
Qed.
Definition is_ping (e : uev) : Prop := match e with UPing _ => True | _ => False end.
Lemma wait_rounds_spec rounds : forall left s s' r, wait_rounds savec rounds left s = (s', r) -> exists evs, adv s s' evs /\ Forall is_ping evs /\
  exists b, r = Ok b /\ (b = true -> forall e, In e left -> In (UPing e) evs).
Proof.
  induction rounds as [|up rounds IH]; cbn [wait_rounds]; intros left s s' r H.
  - injection H as <- <-. exists []. split; [apply adv_refl|]. split; [constructor|]. exists false. split; [reflexivity|discriminate].
  - destruct left as [|x left].
    + injection H as <- <-. exists []. split; [apply adv_refl|]. split; [constructor|]. exists true. split; [reflexivity|]. intros _ e [].
    + set (l := x :: left) in *. apply pbind_inv in H. destruct H as [(u & s1 & H & K)|(e & H & _)]; apply tell_all_spec in H; destruct H as (A & R); [|discriminate].
      apply IH in K. destruct K as (evs & B & F & b & -> & C). exists (map UPing (filter up l) ++ evs). split; [exact (adv_trans _ _ _ _ _ A B)|].
      split; [apply Forall_app; split; [apply Forall_forall; intros y Hy; apply in_map_iff in Hy; destruct Hy as (z & <- & _); exact I|exact F]|].
      exists b. split; [reflexivity|]. intros Hb e He. apply in_or_app. destruct (up e) eqn:U.
      * left. apply in_map, filter_In. auto.
      * right. apply C; [exact Hb|]. apply filter_In. rewrite U. auto.
Qed.
Lemma wait_spec ts s s' r : wait_reachable savec P W ts s = (s', r) -> exists evs, adv s s' evs /\ Forall is_ping evs /\
  exists b, r = Ok b /\ (b = true -> forall e, In e (targeted P ts) -> In (UPing e) evs).
Proof.
  unfold wait_reachable. destruct (targeted P ts) as [|x l] eqn:T; intros H.
  - injection H as <- <-. exists []. split; [apply adv_refl|]. split; [constructor|]. exists true. split; [reflexivity|]. intros _ e [].
  - exact (wait_rounds_spec _ _ _ _ _ H).
Qed.

(** ** Roots and metadata *)
Lemma send_roots_spec ecu rp n : forall v lastr s s' r, send_roots savec W srv n v ecu rp lastr s = (s', r) ->
  exists evs, adv s s' evs /\
    (* every Root follows an accepted one *)
    (forall pre ecu' rp' w root ok post, evs = pre ++ UPutRoot ecu' rp' w root ok :: post ->
       ecu' = ecu /\ rp' = rp /\ root_at (u_db (p_ust s)) srv rp w root /\
       (pre = [] /\ w = v \/ exists pre' root', pre = pre' ++ [UPutRoot ecu rp (w - 1) root' true])) /\
    Forall (fun e => match e with UPutRoot _ _ _ _ _ => True | _ => False end) evs /\
    (forall x, r = Ok x -> ir_success lastr = true -> ir_success x = true -> climbs ecu rp (v - 1) (v - 1 + Z.of_nat n) evs).
Proof.
  induction n as [|n IH]; cbn [send_roots]; intros v lastr s s' r H.
  - injection H as <- <-. exists []. split; [apply adv_refl|]. split; [intros pre ? ? ? ? ? ? X; destruct pre; discriminate|]. split; [constructor|].
    intros x [= <-] _ _. replace (v - 1 + Z.of_nat 0) with (v - 1) by lia. constructor.
  - apply read_bind in H. destruct H as [(st & L & H)|(e & L & -> & ->)].
    2:{ exists []. split; [apply adv_refl|]. split; [intros pre ? ? ? ? ? ? X; destruct pre; discriminate|]. split; [constructor|]. discriminate. }
    destruct (match st with Some r0 => Some r0 | None => match srv rp "root" v with Ok r0 => Some r0 | Throw _ => None end end) as [root|] eqn:O.
    + assert (RA : root_at (u_db (p_ust s)) srv rp v root).
      { destruct st as [x|]; [injection O as ->; left; exact L|]. right. split; [exact L|]. destruct (srv rp "root" v); [congruence|discriminate]. }
      apply gets_bind in H. set (ans := or_internal (e_putroot W (p_tr s) ecu rp root)) in *. apply tell_bind in H. destruct H as (s1 & A & H).
      destruct (ir_success ans) eqn:OK.
      * apply IH in H. destruct H as (evs & B & C & F & G). exists (UPutRoot ecu rp v root true :: evs).
        split; [exact (adv_trans _ _ _ [_] evs A B)|]. assert (Hu : p_ust s1 = p_ust s) by apply A. split; [|split; [constructor; auto|]].
        { intros pre ecu' rp' w root0 ok post X. destruct pre as [|y pre].
          - injection X as <- <- <- <- <- <-. split; [reflexivity|]. split; [reflexivity|]. split; [exact RA|]. left. auto.
          - injection X as <- X. destruct (C pre ecu' rp' w root0 ok post X) as (-> & -> & RA' & D). split; [reflexivity|]. split; [reflexivity|].
            split; [rewrite <- Hu; exact RA'|]. right. destruct D as [(-> & ->)|(pre' & root' & ->)].
            + exists [], root. replace (v + 1 - 1) with v by lia. reflexivity.
            + exists (UPutRoot ecu rp v root true :: pre'), root'. reflexivity. }
        { intros x Hx _ Hs. assert (Cl := G x Hx OK Hs). replace (v + 1 - 1) with v in Cl by lia.
          replace (v - 1 + Z.of_nat (Datatypes.S n)) with (v + Z.of_nat n) by lia. 
          assert (St := climbs_step ecu rp (v - 1) (v + Z.of_nat n) root evs). replace (v - 1 + 1) with v in St by lia. exact (St Cl). }
      * injection H as <- <-. exists [UPutRoot ecu rp v root false]. split; [exact A|]. split; [|split; [constructor; auto|]].
        { intros pre ecu' rp' w root0 ok post X. destruct pre as [|y pre]; [|injection X as _ X; destruct pre; discriminate].
          injection X as <- <- <- <- <- <-. split; [reflexivity|]. split; [reflexivity|]. split; [exact RA|]. left. auto. }
        { intros x [= <-] _ Hs. rewrite OK in Hs. discriminate. }
    + injection H as <- <-. exists []. split; [apply adv_refl|]. split; [intros pre ? ? ? ? ? ? X; destruct pre; discriminate|]. split; [constructor|].
      intros x [= <-] _ Hs. discriminate.
Qed.

Notation roots_ok := (roots_ok srv).
Lemma app_cons_split {A} (l1 l2 pre : list A) e post : l1 ++ l2 = pre ++ e :: post ->
  (exists p, l1 = pre ++ e :: p /\ post = p ++ l2) \/ (exists p, pre = l1 ++ p /\ l2 = p ++ e :: post).
Proof.
  revert pre. induction l1 as [|x l1 IH]; intros pre H; cbn in *; [right; exists pre; auto|].
  destruct pre as [|y pre]; cbn in H; injection H as <- H.
  - left. exists l1. auto.
  - destruct (IH pre H) as [(p & -> & ->)|(p & -> & ->)]; [left; exists p; auto|right; exists p; auto].
Qed.
Lemma roots_app d l1 l2 : roots_ok d l1 -> roots_ok d l2 -> roots_ok d (l1 ++ l2).
Proof.
  intros A B pre ecu rp v root ok post H. destruct (app_cons_split _ _ _ _ _ H) as [(p & H1 & _)|(p & -> & H2)]; [exact (A _ _ _ _ _ _ _ H1)|].
  destruct (B _ _ _ _ _ _ _ H2) as (R & pre' & x & -> & X). split; [exact R|]. exists (l1 ++ pre'), x. rewrite app_assoc. auto.
Qed.
Definition no_root (e : uev) : Prop := match e with UPutRoot _ _ _ _ _ => False | _ => True end.
Lemma roots_none d l : Forall no_root l -> roots_ok d l.
Proof. intros F pre ecu rp v root ok post ->. apply Forall_app in F. destruct F as (_ & F). apply Forall_inv in F. destruct F. Qed.
Lemma rotate_spec rp ecu s s' r : rotate_root savec E W srv rp ecu s = (s', r) -> exists evs, adv s s' evs /\ roots_ok (u_db (p_ust s)) evs /\
  Forall (fun e => match e with URootVersion _ _ _ | UPutRoot _ _ _ _ _ => True | _ => False end) evs /\
  (forall x, r = Ok x -> ir_success x = true -> exists sv l, evs = URootVersion ecu rp sv :: l /\ caught_up E (u_db (p_ust s)) ecu rp sv l).
Proof.
  unfold rotate_root. intros H.
  assert (NIL : forall y : res ires, (s', r) = (s, y) -> (forall x, y = Ok x -> ir_success x = false) -> exists evs, adv s s' evs /\ roots_ok (u_db (p_ust s)) evs /\
    Forall (fun e => match e with URootVersion _ _ _ | UPutRoot _ _ _ _ _ => True | _ => False end) evs /\
    (forall x, r = Ok x -> ir_success x = true -> exists sv l, evs = URootVersion ecu rp sv :: l /\ caught_up E (u_db (p_ust s)) ecu rp sv l)).
  { intros y [= -> ->] Hy. exists []. split; [apply adv_refl|]. split; [apply roots_none; constructor|]. split; [constructor|]. intros x Hx Hs. rewrite (Hy x Hx) in Hs. discriminate. }
  apply read_bind in H. destruct H as [(st & L & H)|(e & L & -> & ->)]; [|apply (NIL (Throw e)); [reflexivity|discriminate]].
  destruct st as [raw|]; [|injection H as <- <-; eapply NIL; [reflexivity|intros x [= <-]; reflexivity]].
  apply lift_bind in H. destruct H as [(last & X & H)|(e & X & -> & ->)]; [|apply (NIL (Throw e)); [reflexivity|discriminate]].
  apply gets_bind in H. apply lift_bind in H. destruct H as [(sv & V & H)|(e & V & -> & ->)]; [|apply (NIL (Throw e)); [reflexivity|discriminate]].
  apply tell_bind in H. destruct H as (s1 & A & H). assert (Hu : p_ust s1 = p_ust s) by apply A.
  assert (NR : newest_root E (u_db (p_ust s)) rp last) by (exists raw; auto).
  destruct ((0 <? sv) && (1 <? last - sv)) eqn:C.
  - apply andb_prop in C. destruct C as [C1 C2]. apply Z.ltb_lt in C1, C2.
    apply send_roots_spec in H. destruct H as (evs & B & D & F & G). exists (URootVersion ecu rp sv :: evs).
    split; [exact (adv_trans _ _ _ [_] evs A B)|]. rewrite Hu in D. split; [|split].
    + intros pre ecu' rp' w root ok post X'. destruct pre as [|y pre]; [discriminate|]. injection X' as <- X'.
      destruct (D pre ecu' rp' w root ok post X') as (-> & -> & RA & [(-> & ->)|(pre' & root' & ->)]); (split; [exact RA|]).
      * exists [], (URootVersion ecu rp sv). split; [reflexivity|]. left. f_equal. lia.
      * exists (URootVersion ecu rp sv :: pre'), (UPutRoot ecu rp (w - 1) root' true). split; [reflexivity|]. right. eauto.
    + constructor; [exact I|]. eapply Forall_impl; [|exact F]. intros []; auto.
    + intros x Hx Hs. exists sv, evs. split; [reflexivity|]. exists last. split; [exact NR|]. right. split; [exact C1|]. split; [exact C2|].
      assert (Cl := G x Hx eq_refl Hs). replace (sv + 1 - 1) with sv in Cl by lia. rewrite Z2Nat.id in Cl by lia. replace (sv + (last - sv)) with last in Cl by lia. exact Cl.
  - injection H as <- <-. exists [URootVersion ecu rp sv]. split; [exact A|]. split; [apply roots_none; repeat constructor|]. split; [repeat constructor|].
    intros x _ _. exists sv, []. split; [reflexivity|]. exists last. split; [exact NR|]. left. split; [|reflexivity].
    apply Bool.andb_false_iff in C. destruct C as [C|C]; apply Z.ltb_ge in C; lia.
Qed.

Notation metas_ok := (metas_ok E).
Lemma metas_app d l1 l2 : metas_ok d l1 -> metas_ok d l2 -> metas_ok d (l1 ++ l2).
Proof.
  intros A B pre ecu t ok post H. destruct (app_cons_split _ _ _ _ _ H) as [(p & H1 & _)|(p & -> & H2)]; [exact (A _ _ _ _ _ H1)|].
  destruct (B _ _ _ _ _ H2) as (pre0 & sd & ld & si & li & -> & C). exists (l1 ++ pre0), sd, ld, si, li. rewrite app_assoc. auto.
Qed.
Definition no_meta (e : uev) : Prop := match e with UPutMeta _ _ _ => False | _ => True end.
Lemma metas_none d l : Forall no_meta l -> metas_ok d l.
Proof. intros F pre ecu t ok post ->. apply Forall_app in F. destruct F as (_ & F). apply Forall_inv in F. destruct F. Qed.
Definition meta_ev (e : uev) : Prop := match e with URootVersion _ _ _ | UPutRoot _ _ _ _ _ | UPutMeta _ _ _ => True | _ => False end.
Lemma root_evs_meta l : Forall (fun e => match e with URootVersion _ _ _ | UPutRoot _ _ _ _ _ => True | _ => False end) l -> Forall meta_ev l /\ Forall no_meta l.
Proof. intros F. split; eapply Forall_impl; try exact F; intros []; cbn; auto. Qed.

Lemma meta_one_spec t ecu s s' r : send_metadata_one savec E W srv t ecu s = (s', r) -> exists evs, adv s s' evs /\ roots_ok (u_db (p_ust s)) evs /\
  metas_ok (u_db (p_ust s)) evs /\ Forall meta_ev evs /\ (forall ecu' t' ok, In (UPutMeta ecu' t' ok) evs -> ecu' = ecu /\ t' = t) /\
  (forall x, r = Ok x -> ir_success x = true -> In (UPutMeta ecu t true) evs).
Proof.
  unfold send_metadata_one. intros H. apply pbind_inv in H.
  assert (BASE : forall evs, Forall no_meta evs -> forall ecu' t' ok, In (UPutMeta ecu' t' ok) evs -> ecu' = ecu /\ t' = t).
  { intros evs F ecu' t' ok Hi. rewrite Forall_forall in F. destruct (F _ Hi). }
  destruct H as [(r1 & s1 & R1 & H)|(e & R1 & ->)]; apply rotate_spec in R1; destruct R1 as (e1 & A1 & Q1 & F1 & C1); destruct (root_evs_meta _ F1) as [M1 N1].
  2:{ exists e1. split; [exact A1|]. split; [exact Q1|]. split; [now apply metas_none|]. split; [exact M1|]. split; [now apply BASE|]. discriminate. }
  destruct (ir_success r1) eqn:S1; cbn [negb] in H.
  2:{ injection H as <- <-. exists e1. split; [exact A1|]. split; [exact Q1|]. split; [now apply metas_none|]. split; [exact M1|]. split; [now apply BASE|].
      intros x [= <-] X. rewrite S1 in X. discriminate. }
  assert (U1 : p_ust s1 = p_ust s) by apply A1. apply pbind_inv in H.
  destruct H as [(r2 & s2 & R2 & H)|(e & R2 & ->)]; apply rotate_spec in R2; rewrite U1 in R2; destruct R2 as (e2 & A2 & Q2 & F2 & C2); destruct (root_evs_meta _ F2) as [M2 N2].
  2:{ exists (e1 ++ e2). split; [exact (adv_trans _ _ _ _ _ A1 A2)|]. split; [now apply roots_app|]. split; [apply metas_none, Forall_app; auto|]. split; [apply Forall_app; auto|].
      split; [apply BASE, Forall_app; auto|]. discriminate. }
  destruct (ir_success r2) eqn:S2; cbn [negb] in H.
  2:{ injection H as <- <-. exists (e1 ++ e2). split; [exact (adv_trans _ _ _ _ _ A1 A2)|]. split; [now apply roots_app|]. split; [apply metas_none, Forall_app; auto|]. split; [apply Forall_app; auto|].
      split; [apply BASE, Forall_app; auto|]. intros x [= <-] X. rewrite S2 in X. discriminate. }
  apply gets_bind in H. set (ans := or_internal (e_putmeta W (p_tr s2) ecu t)) in *. apply tell_bind in H. destruct H as (s3 & A3 & H). injection H as <- <-.
  destruct (C1 r1 eq_refl S1) as (sd & ld & -> & CU1). destruct (C2 r2 eq_refl S2) as (si & li & -> & CU2).
  exists (((URootVersion ecu Director sd :: ld) ++ URootVersion ecu Image si :: li) ++ [UPutMeta ecu t (ir_success ans)]).
  split; [exact (adv_trans _ _ _ _ _ (adv_trans _ _ _ _ _ A1 A2) A3)|].
  split; [apply roots_app; [now apply roots_app|apply roots_none; repeat constructor]|]. split; [|split; [|split]].
  - intros pre ecu' t' ok post X. destruct (app_cons_split _ _ _ _ _ X) as [(p & H1 & _)|(p & -> & H2)].
    + exfalso. assert (F : Forall no_meta ((URootVersion ecu Director sd :: ld) ++ URootVersion ecu Image si :: li)) by (apply Forall_app; auto).
      rewrite H1 in F. apply Forall_app in F. destruct F as (_ & F). apply Forall_inv in F. destruct F.
    + destruct p as [|y p]; [|destruct p; discriminate]. injection H2 as <- <- <- <-. exists [], sd, ld, si, li. rewrite app_nil_r. auto.
  - apply Forall_app; split; [apply Forall_app; auto|repeat constructor].
  - intros ecu' t' ok Hi. apply in_app_or in Hi. destruct Hi as [Hi|[Hi|[]]].
    + apply (BASE ((URootVersion ecu Director sd :: ld) ++ URootVersion ecu Image si :: li)) with (ok := ok); [apply Forall_app; auto|exact Hi].
    + injection Hi as <- <- _. auto.
  - intros x [= <-] ->. apply in_or_app. right. left. reflexivity.
Qed.

Lemma join_nonempty acc hw c : join_err acc (append hw (String ":" c)) <> "".
Proof. unfold join_err. intros X. apply append_nil_iff in X. destruct X as (_ & X). apply append_nil_iff in X. destruct X as (_ & X). now apply item_nonempty in X. Qed.
Lemma meta_spec l : forall err s s' r, send_metadata savec E P W srv l err s = (s', r) -> exists evs, adv s s' evs /\ roots_ok (u_db (p_ust s)) evs /\
  metas_ok (u_db (p_ust s)) evs /\ Forall meta_ev evs /\
  (forall ecu t ok, In (UPutMeta ecu t ok) evs -> exists hw, In (t, (ecu, hw)) l /\ is_sec P ecu = true) /\
  (r = Ok "" -> err = "" /\ forall t ecu hw, In (t, (ecu, hw)) l -> is_sec P ecu = true -> In (UPutMeta ecu t true) evs).
Proof.
  induction l as [|(t, (ecu, hw)) l IH]; cbn [send_metadata]; intros err s s' r H.
  - injection H as <- <-. exists []. split; [apply adv_refl|]. split; [apply roots_none; constructor|]. split; [apply metas_none; constructor|]. split; [constructor|].
    split; [intros ? ? ? []|]. intros [= ->]. split; [reflexivity|]. intros ? ? ? [].
  - destruct (is_sec P ecu) eqn:S.
    + apply pbind_inv in H. destruct H as [(x & s1 & O & H)|(e & O & ->)]; apply meta_one_spec in O; destruct O as (e1 & A1 & Q1 & T1 & M1 & I1 & C1).
      2:{ exists e1. split; [exact A1|]. split; [exact Q1|]. split; [exact T1|]. split; [exact M1|]. split; [|discriminate].
          intros ecu' t' ok Hi. destruct (I1 _ _ _ Hi) as (-> & ->). exists hw. split; [left; reflexivity|exact S]. }
      assert (U1 : p_ust s1 = p_ust s) by apply A1.
      assert (CONT : forall err', send_metadata savec E P W srv l err' s1 = (s', r) -> exists evs, adv s s' evs /\ roots_ok (u_db (p_ust s)) evs /\
        metas_ok (u_db (p_ust s)) evs /\ Forall meta_ev evs /\ (forall ecu0 t0 ok, In (UPutMeta ecu0 t0 ok) evs -> exists hw0, In (t0, (ecu0, hw0)) ((t, (ecu, hw)) :: l) /\ is_sec P ecu0 = true) /\
        (r = Ok "" -> err' = "" /\ (In (UPutMeta ecu t true) e1 -> forall t0 ecu0 hw0, In (t0, (ecu0, hw0)) ((t, (ecu, hw)) :: l) -> is_sec P ecu0 = true -> In (UPutMeta ecu0 t0 true) evs))).
      { intros err' K. apply IH in K. rewrite U1 in K. destruct K as (e2 & A2 & Q2 & T2 & M2 & I2 & C2). exists (e1 ++ e2).
        split; [exact (adv_trans _ _ _ _ _ A1 A2)|]. split; [now apply roots_app|]. split; [now apply metas_app|]. split; [apply Forall_app; auto|]. split.
        - intros ecu0 t0 ok Hi. apply in_app_or in Hi. destruct Hi as [Hi|Hi].
          + destruct (I1 _ _ _ Hi) as (-> & ->). exists hw. split; [left; reflexivity|exact S].
          + destruct (I2 _ _ _ Hi) as (h & Hh & Hs). exists h. split; [right; exact Hh|exact Hs].
        - intros R. destruct (C2 R) as (-> & D). split; [reflexivity|]. intros He t0 ecu0 hw0 [X|X] Hs; apply in_or_app.
          + injection X as <- <- <-. left. exact He.
          + right. eapply D; eauto. }
      destruct (ir_success x) eqn:OK.
      * destruct (CONT err H) as (evs & B1 & B2 & B3 & B4 & B5 & B6). exists evs. repeat (split; [assumption|]). intros R. destruct (B6 R) as (-> & D). split; [reflexivity|].
        apply D. exact (C1 x eq_refl OK).
      * apply lift_bind in H. destruct H as [(c & RC & H)|(e & RC & -> & ->)].
        -- destruct (CONT _ H) as (evs & B1 & B2 & B3 & B4 & B5 & B6). exists evs. repeat (split; [assumption|]). intros R. destruct (B6 R) as (X & _). destruct (join_nonempty _ _ _ X).
        -- exists e1. split; [exact A1|]. split; [exact Q1|]. split; [exact T1|]. split; [exact M1|]. split; [|discriminate].
           intros ecu' t' ok Hi. destruct (I1 _ _ _ Hi) as (-> & ->). exists hw. split; [left; reflexivity|exact S].
    + apply IH in H. destruct H as (e2 & A2 & Q2 & T2 & M2 & I2 & C2). exists e2. repeat (split; [assumption|]). split.
      * intros ecu0 t0 ok Hi. destruct (I2 _ _ _ Hi) as (h & Hh & Hs). exists h. split; [right; exact Hh|exact Hs].
      * intros R. destruct (C2 R) as (-> & D). split; [reflexivity|]. intros t0 ecu0 hw0 [X|X] Hs; [injection X as <- <- <-; congruence|]. eapply D; eauto.
Qed.
End U.
