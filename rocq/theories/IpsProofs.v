From Verif Require Import Base Json CodecModel CodecProofs IpsModel IpsSpec.

(** ** Configuration *)
Lemma stoul_dec n : 0 <= n <= max_uint64 -> stoul (to_dec n) = Ok n.
Proof.
  intros [H1 H2]. unfold stoul, to_dec. rewrite (proj2 (Z.ltb_ge n 0) H1).
  pose proof (scan_number_dec n H1) as Hs. destruct (dec_nonneg_head n H1) as (d & s & Hd & Eq).
  rewrite Eq in *. destruct (digit_plain d Hd) as (P1 & P2 & P3). cbn [skip_space]. rewrite P1.
  set (c := digit_ascii d) in *. clearbody c.
  assert (E : match scan_number (String c s) with
              | Some z => if z <=? max_uint64 then Ok z else Throw EStd
              | None => Throw EStd end = Ok n).
  { rewrite Hs. rewrite (proj2 (Z.leb_le _ _) H2). reflexivity. }
  destruct c as [[] [] [] [] [] [] [] []]; try exact E; congruence.
Qed.

Lemma split_colon ip r : split_first ":" ip = None -> split_first ":" (append ip (String ":" r)) = Some (ip, r).
Proof.
  induction ip as [|c ip IH]; [reflexivity|]. cbn [split_first append].
  destruct (Ascii.eqb _ _) eqn:E; [discriminate|].
  destruct (split_first ":" ip) as [[x y]|]; [discriminate|]. intros _. now rewrite IH.
Qed.

Lemma ip_and_port_text c : split_first ":" (fst c) = None -> 0 <= snd c < 65536 -> ip_and_port (addr_text c) = Ok c.
Proof.
  destruct c as [ip port]. cbn [fst snd]. intros H1 H2. unfold ip_and_port, addr_text. cbn [fst snd].
  rewrite split_colon by exact H1. rewrite stoul_dec by (unfold max_uint64; lia). cbn [bind].
  now rewrite Z.mod_small by lia.
Qed.

Lemma ip_list_text l : forall z, Forall (fun c => split_first ":" (fst c) = None /\ 0 <= snd c < 65536) l ->
  ip_list (index_from z (map (fun a => JObj [("addr", JStr a)]) (map addr_text l))) = Ok l.
Proof.
  induction l as [|c l IH]; intros z H; [reflexivity|]. inversion H as [|x y [H1 H2] H3]; subst.
  cbn [map index_from ip_list]. change (jget "addr" (JObj [("addr", JStr (addr_text c))])) with (Ok (JStr (addr_text c))).
  cbn [bind jas_string]. rewrite ip_and_port_text by assumption. cbn [bind]. rewrite IH by exact H3. reflexivity.
Qed.

Lemma parse_lists m addrs : lists m addrs ->
  parse_ip_config (JObj m) = ip_list (index_from 0 (map (fun a => JObj [("addr", JStr a)]) addrs)).
Proof.
  intros (H1 & (p & H2 & Hp) & (t & H3 & Ht)). unfold parse_ip_config. cbn [jget bind]. rewrite H2. cbn [jas_range].
  assert (E1 : Json.in_range 0 4294967295 p = true) by (unfold Json.in_range; apply andb_true_iff; split; apply Z.leb_le; lia).
  rewrite E1. cbn [bind]. rewrite H3. unfold jas_int. cbn [jas_range].
  assert (E2 : Json.in_range min_int max_int t = true).
  { unfold Json.in_range. apply andb_true_iff. split; apply Z.leb_le; unfold min_int in *; lia. }
  rewrite E2. cbn [bind]. rewrite H1. reflexivity.
Qed.

(** ** Starting *)
Lemma create_fits ip port a : fits a -> exists s, create ip port a = Ok s.
Proof.
  destruct a as [| |s h k]; cbn [fits create]; [eauto|eauto|]. intros [H1 H2].
  assert (E1 : serial_fits s = true).
  { unfold serial_fits. apply andb_true_iff. split; apply Z.leb_le; lia. }
  assert (E2 : hw_fits h = true) by (unfold hw_fits; apply Z.leb_le; lia).
  rewrite E1, E2. cbn [andb]. eauto.
Qed.
Lemma create_addr ip port a s : create ip port a = Ok s -> at_addr s = (ip, port).
Proof.
  destruct a as [| |x h k]; cbn [create]; [intros [= <-]; reflexivity|intros [= <-]; reflexivity|].
  destruct (_ && _)%bool; [intros [= <-]; reflexivity|discriminate].
Qed.
Lemma check_addr ip port s h k a x : connect_and_check ip port s h k a = Some x -> at_addr x = (ip, port).
Proof.
  unfold connect_and_check. destruct (connect_and_create ip port a) as [[y|]|] eqn:E.
  - destruct (is_key y); [|discriminate]. intros [= <-]. unfold connect_and_create in E.
    destruct a; try discriminate; cbn [bind] in E.
    + injection E as <-. reflexivity.
    + destruct (create ip port (Reply serial hw key)) as [z|] eqn:Z; [|discriminate]. cbn [bind] in E. injection E as <-.
      eapply create_addr; exact Z.
  - intros [= <-]. reflexivity.
  - intros [= <-]. reflexivity.
Qed.

(** The possible outcomes for one configured Secondary. *)
Inductive outcome (net : string -> Z -> answer) (infos : list info) (one : bool) (ip : string) (port : Z) (res : list ipsec)
  (wt : list string) (st : store) : list ipsec * list string * store -> Prop :=
| oc_stored i s : In i infos -> in_extra i = XAddr ip port ->
    connect_and_check ip port (in_serial i) (in_hw i) (in_key i) (net ip port) = Some s ->
    outcome net infos one ip port res wt st (res ++ [s], wt, st)
| oc_migrated i s : one = true -> In i infos -> in_extra i = XNone ->
    connect_and_check ip port (in_serial i) (in_hw i) (in_key i) (net ip port) = Some s ->
    outcome net infos one ip port res wt st (res ++ [s], wt, save_data (in_serial i) (XAddr ip port) st)
| oc_wait : net ip port = NoConnect ->
    outcome net infos one ip port res wt st (res, wkey ip port :: wt, st)
| oc_new s : create ip port (net ip port) = Ok s ->
    outcome net infos one ip port res wt st (res ++ [s], wt, save_data (is_serial s) (XAddr ip port) st).

Lemma extra_is_spec ip port x : extra_is ip port x = true <-> x = XAddr ip port.
Proof.
  destruct x as [|i p|]; cbn [extra_is]; try (split; discriminate). rewrite andb_true_iff, String.eqb_eq, Z.eqb_eq.
  split; [intros [-> ->]; reflexivity|intros [= -> ->]; auto].
Qed.

Lemma create_one_outcome net infos one ip port res wt st acc :
  create_one net infos one (ip, port) (res, wt, st) = Ok acc -> outcome net infos one ip port res wt st acc.
Proof.
  unfold create_one. destruct (find _ infos) as [i|] eqn:F.
  - apply find_some in F as [F1 F2]. apply extra_is_spec in F2.
    destruct (connect_and_check _ _ _ _ _ _) as [s|] eqn:C; [|discriminate]. intros [= <-]. eapply oc_stored; eauto.
  - assert (New : (do c <- connect_and_create ip port (net ip port);
      match c with
      | Some s => Ok (res ++ [s], wt, save_data (is_serial s) (XAddr ip port) st)
      | None => Ok (res, wkey ip port :: wt, st)
      end) = Ok acc -> outcome net infos one ip port res wt st acc).
    { unfold connect_and_create. destruct (net ip port) as [| |s h k] eqn:N.
      - cbn [bind]. intros [= <-]. apply oc_wait. exact N.
      - cbn [bind create]. intros [= <-]. apply oc_new. rewrite N. reflexivity.
      - destruct (create ip port (Reply s h k)) as [x|] eqn:C; cbn [bind]; [|discriminate]. intros [= <-].
        apply oc_new. rewrite N. exact C. }
    destruct one; [|exact New]. destruct infos as [|[s h k x] infos]; [exact New|]. destruct x; try exact New.
    destruct (connect_and_check _ _ _ _ _ _) as [y|] eqn:C; [|discriminate]. intros [= <-].
    exact (oc_migrated net ({| in_serial := s; in_hw := h; in_key := k; in_extra := XNone |} :: infos) true ip port res wt st
             {| in_serial := s; in_hw := h; in_key := k; in_extra := XNone |} y
             eq_refl (or_introl eq_refl) eq_refl C).
Qed.

(** *** Every configured one is there, or waited for *)
Lemma loop_covers net infos one cfgs : forall res wt st res' wt' st',
  create_loop net infos one cfgs (res, wt, st) = Ok (res', wt', st') ->
  (exists more, res' = res ++ more /\ forall s, In s more -> In (at_addr s) cfgs) /\
  (exists more, wt' = more ++ wt /\ forall k, In k more -> exists c, In c cfgs /\ k = wkey (fst c) (snd c)) /\
  (forall c, In c cfgs -> (exists s, In s res' /\ at_addr s = c) \/ In (wkey (fst c) (snd c)) wt').
Proof.
  induction cfgs as [|[ip port] cfgs IH]; intros res wt st res' wt' st' H.
  - cbn [create_loop] in H. injection H as <- <- <-.
    split; [exists []; split; [now rewrite List.app_nil_r|intros s []]|].
    split; [exists []; split; [reflexivity|intros k []]|]. intros c [].
  - cbn [create_loop] in H. destruct (create_one net infos one (ip, port) (res, wt, st)) as [[[r w] t]|] eqn:C; [|discriminate].
    cbn [bind] in H. destruct (IH _ _ _ _ _ _ H) as ((m1 & E1 & A1) & (m2 & E2 & A2) & A3).
    apply create_one_outcome in C.
    assert (P : (exists s, r = res ++ [s] /\ w = wt /\ at_addr s = (ip, port)) \/ (r = res /\ w = wkey ip port :: wt)).
    { inversion C; subst; try (left; eexists; split; [reflexivity|]; split; [reflexivity|]).
      - eapply check_addr; eassumption.
      - eapply check_addr; eassumption.
      - right. auto.
      - eapply create_addr; eassumption. }
    destruct P as [(s & -> & -> & Es)|[-> ->]].
    + split; [|split].
      * exists (s :: m1). split; [rewrite E1, <- app_assoc; reflexivity|].
        intros x [<-|Hx]; [rewrite Es; now left|right; now apply A1].
      * exists m2. split; [exact E2|]. intros k Hk. destruct (A2 k Hk) as (c & Hc & ->). exists c. split; [now right|reflexivity].
      * intros c [<-|Hc]; [|now apply A3]. left. exists s. split; [|exact Es]. rewrite E1. apply in_or_app. left.
        apply in_or_app. right. now left.
    + split; [|split].
      * exists m1. split; [exact E1|]. intros x Hx. right. now apply A1.
      * exists (m2 ++ [wkey ip port]). split; [rewrite E2, <- app_assoc; reflexivity|].
        intros k Hk. apply in_app_or in Hk as [Hk|[<-|[]]].
        -- destruct (A2 k Hk) as (c & Hc & ->). exists c. split; [now right|reflexivity].
        -- exists (ip, port). split; [now left|reflexivity].
      * intros c [<-|Hc]; [|now apply A3]. right. rewrite E2. apply in_or_app. right. now left.
Qed.

Lemma wait_covers evs : forall res wt st res' st',
  wait evs (res, wt, st) = Ok (res', st') ->
  exists more, res' = res ++ more /\
    (forall s, In s more -> exists a, In (Conn (is_ip s) (is_port s) a) evs) /\
    (forall k, In k wt -> exists ip port a, In (Conn ip port a) evs /\ k = wkey ip port /\
       (fits a -> exists s, In s more /\ at_addr s = (ip, port))).
Proof.
  induction evs as [|e evs IH]; intros res wt st res' st' H.
  - destruct wt; cbn [wait] in H; [|discriminate]. injection H as <- <-. exists []. rewrite List.app_nil_r.
    split; [reflexivity|]. split; [intros s []|intros k []].
  - destruct wt as [|w wt]; [cbn [wait] in H; injection H as <- <-; exists []; rewrite List.app_nil_r;
      split; [reflexivity|]; split; [intros s []|intros k []]|].
    cbn [wait] in H. destruct e as [ip port a|]; [|discriminate].
    destruct (create ip port a) as [s|] eqn:C.
    + destruct (IH _ _ _ _ _ H) as (m & E & A & B). exists (s :: m). split; [rewrite E, <- app_assoc; reflexivity|].
      apply create_addr in C. split.
      * intros x [<-|Hx]; [exists a; left; unfold at_addr in C; injection C as -> ->; reflexivity|].
        destruct (A x Hx) as (b & Hb). exists b. now right.
      * intros k Hk. destruct (String.eqb k (wkey ip port)) eqn:K.
        -- apply String.eqb_eq in K. exists ip, port, a. split; [now left|]. split; [exact K|].
           intros _. exists s. split; [now left|exact C].
        -- destruct (B k) as (i & p & b & H1 & H2 & H3).
           { apply filter_In. split; [exact Hk|]. now rewrite K. }
           exists i, p, b. split; [now right|]. split; [exact H2|]. intros F. destruct (H3 F) as (x & Hx & Ex).
           exists x. split; [now right|exact Ex].
    + destruct (IH _ _ _ _ _ H) as (m & E & A & B). exists m. split; [exact E|]. split.
      * intros x Hx. destruct (A x Hx) as (b & Hb). exists b. now right.
      * intros k Hk. destruct (String.eqb k (wkey ip port)) eqn:K.
        -- apply String.eqb_eq in K. exists ip, port, a. split; [now left|]. split; [exact K|].
           intros F. destruct (create_fits ip port a F) as [y Hy]. rewrite Hy in C. discriminate.
        -- destruct (B k) as (i & p & b & H1 & H2 & H3).
           { apply filter_In. split; [exact Hk|]. now rewrite K. }
           exists i, p, b. split; [now right|]. auto.
Qed.

Lemma create_ip_split net evs cfgs st l st' : create_ip net evs cfgs st = Ok (l, st') ->
  exists one res wt st1, create_loop net (load_infos st) one cfgs ([], [], st) = Ok (res, wt, st1) /\
    wait evs (res, wt, st1) = Ok (l, st') /\
    one = (Nat.eqb (List.length cfgs) 1 && Nat.eqb (List.length (load_infos st)) 1)%bool.
Proof.
  unfold create_ip. destruct (create_loop _ _ _ _ _) as [[[r w] s]|] eqn:E; [|discriminate]. cbn [bind]. intros H.
  do 4 eexists. split; [exact E|]. split; [exact H|reflexivity].
Qed.

Lemma all_there net evs cfgs st l st' : create_ip net evs cfgs st = Ok (l, st') ->
  tell_apart cfgs -> own_connections cfgs evs ->
  (forall c, In c cfgs -> exists s, In s l /\ at_addr s = c) /\ (forall s, In s l -> In (at_addr s) cfgs).
Proof.
  intros H T O. destruct (create_ip_split _ _ _ _ _ _ H) as (one & res & wt & st1 & L & W & _).
  destruct (loop_covers _ _ _ _ _ _ _ _ _ _ L) as ((m1 & E1 & A1) & (m2 & E2 & A2) & A3).
  rewrite List.app_nil_r in E2. subst m2. cbn [app] in E1. subst m1.
  destruct (wait_covers _ _ _ _ _ _ W) as (m & -> & B1 & B2). split.
  - intros c Hc. destruct (A3 c Hc) as [(s & Hs & Es)|Hw].
    + exists s. split; [apply in_or_app; now left|exact Es].
    + destruct (B2 _ Hw) as (ip & port & a & Ha & K & Hf). destruct (O ip port a Ha) as [Hi Hfit].
      destruct (Hf Hfit) as (s & Hs & Es). exists s. split; [apply in_or_app; now right|].
      rewrite Es. symmetry. apply T; auto.
  - intros s Hs. apply in_app_or in Hs as [Hs|Hs]; [now apply A1|].
    destruct (B1 s Hs) as (a & Ha). apply (O _ _ _ Ha).
Qed.

(** *** Stored Secondaries *)
Definition well_behaved (a : answer) : Prop := match a with Silent => False | Reply _ _ None => False | _ => True end.

Lemma check_well_behaved ip port s h k a : well_behaved a -> exists x, connect_and_check ip port s h k a = Some x.
Proof.
  unfold connect_and_check, connect_and_create. destruct a as [| |s' h' [k'|]]; cbn [well_behaved]; try contradiction; intros _; eauto.
  unfold create. destruct (_ && _)%bool; cbn [bind is_key]; eauto.
Qed.

Lemma find_stored infos ip port : (exists i, In i infos /\ in_extra i = XAddr ip port) ->
  exists i, find (fun i => extra_is ip port (in_extra i)) infos = Some i /\ In i infos /\ in_extra i = XAddr ip port.
Proof.
  intros (i & Hi & Ei). destruct (find (fun i => extra_is ip port (in_extra i)) infos) as [j|] eqn:F.
  - exists j. split; [reflexivity|]. apply find_some in F as [F1 F2]. apply extra_is_spec in F2. auto.
  - exfalso. pose proof (find_none _ _ F i Hi) as K. cbn beta in K. rewrite Ei in K.
    rewrite (proj2 (extra_is_spec ip port _) eq_refl) in K. discriminate.
Qed.

Lemma stored_loop net infos one cfgs : forall res wt st,
  (forall c, In c cfgs -> (exists i, In i infos /\ in_extra i = XAddr (fst c) (snd c)) /\ well_behaved (net (fst c) (snd c))) ->
  exists more, create_loop net infos one cfgs (res, wt, st) = Ok (res ++ more, wt, st) /\
    Forall2 (fun c s => exists i, In i infos /\ in_extra i = XAddr (fst c) (snd c) /\
      connect_and_check (fst c) (snd c) (in_serial i) (in_hw i) (in_key i) (net (fst c) (snd c)) = Some s) cfgs more.
Proof.
  induction cfgs as [|[ip port] cfgs IH]; intros res wt st H.
  - exists []. split; [now rewrite List.app_nil_r|constructor].
  - destruct (H (ip, port) (or_introl eq_refl)) as [Hs Hw]. cbn [fst snd] in *.
    destruct (find_stored _ _ _ Hs) as (i & F & Hi & Ei).
    destruct (check_well_behaved ip port (in_serial i) (in_hw i) (in_key i) _ Hw) as (s & Cs).
    assert (C1 : create_one net infos one (ip, port) (res, wt, st) = Ok (res ++ [s], wt, st)).
    { unfold create_one. rewrite F, Cs. reflexivity. }
    destruct (IH (res ++ [s]) wt st) as (m & Em & Fm); [intros c Hc; apply H; now right|].
    exists (s :: m). split.
    + cbn [create_loop]. rewrite C1. cbn [bind]. rewrite Em, <- app_assoc. reflexivity.
    + constructor; [|exact Fm]. exists i. cbn [fst snd]. auto.
Qed.

(** *** The next start *)
Definition extra_of (st : store) (serial : string) : extra :=
  match aget serial (st_rows st) with Some r => rw_extra r | None => XNone end.
Lemma extra_save s x st t : extra_of (save_data s x st) t = if String.eqb t s then x else extra_of st t.
Proof.
  unfold extra_of, save_data, aset. cbn [st_rows aget]. destruct (String.eqb t s) eqn:E; [|reflexivity]. reflexivity.
Qed.

Lemma info_extra st i : In i (load_infos st) -> in_extra i = extra_of st (in_serial i).
Proof.
  unfold load_infos, extra_of. intros H. apply in_map_iff in H as ((s & h) & E & _). cbn [fst snd] in E.
  destruct (aget s (st_rows st)) as [r|] eqn:A; subst i; cbn [in_extra in_serial]; now rewrite A.
Qed.

(** [own]: the Secondaries in the list have their own address stored; others are as at the beginning. *)
Definition own (st0 st : store) (l : list ipsec) : Prop :=
  (forall s, In s l -> extra_of st (is_serial s) = XAddr (is_ip s) (is_port s)) /\
  (forall t, ~ In t (map is_serial l) -> extra_of st t = extra_of st0 t).

Lemma own_push st0 st l s st' : own st0 st l -> NoDup (map is_serial (l ++ [s])) ->
  extra_of st' (is_serial s) = XAddr (is_ip s) (is_port s) ->
  (forall t, t <> is_serial s -> extra_of st' t = extra_of st t) -> own st0 st' (l ++ [s]).
Proof.
  intros [O1 O2] ND E1 E2. rewrite map_app in ND. cbn [map] in ND.
  assert (Hn : ~ In (is_serial s) (map is_serial l)).
  { apply NoDup_remove_2 in ND. now rewrite List.app_nil_r in ND. }
  split.
  - intros x Hx. apply in_app_or in Hx as [Hx|[<-|[]]]; [|exact E1].
    rewrite E2; [now apply O1|]. intros K. apply Hn. rewrite <- K. now apply in_map.
  - intros t Ht. rewrite map_app in Ht. cbn [map] in Ht.
    rewrite E2; [apply O2|]; intros K; apply Ht; apply in_or_app; [now left|right; left; now rewrite K].
Qed.

Lemma nodup_prefix {A} (a b : list A) : NoDup (a ++ b) -> NoDup a.
Proof.
  induction a as [|x a IH]; intros H; [constructor|]. cbn [app] in H. inversion H as [|y z H1 H2]; subst.
  constructor; [|now apply IH]. intros K. apply H1. apply in_or_app. now left.
Qed.

Lemma check_serial net ip port i s : (forall s' h' k', net ip port = Reply s' h' k' -> s' = in_serial i) ->
  connect_and_check ip port (in_serial i) (in_hw i) (in_key i) (net ip port) = Some s -> is_serial s = in_serial i.
Proof.
  intros H. unfold connect_and_check, connect_and_create. destruct (net ip port) as [| |s' h' k'] eqn:N.
  - intros [= <-]. reflexivity.
  - cbn [bind create is_key]. discriminate.
  - unfold create. destruct (_ && _)%bool; cbn [bind is_key].
    + destruct k'; [|discriminate]. intros [= <-]. cbn [is_serial]. now apply (H s' h' (Some s0)).
    + intros [= <-]. reflexivity.
Qed.

Lemma loop_own net st0 one cfgs all : unreplaced net all st0 -> (one = true -> List.length all = 1%nat /\ List.length (load_infos st0) = 1%nat) ->
  (forall c, In c cfgs -> In c all) ->
  forall res wt st res' wt' st', create_loop net (load_infos st0) one cfgs (res, wt, st) = Ok (res', wt', st') ->
  NoDup (map is_serial res') -> own st0 st res -> own st0 st' res'.
Proof.
  intros U One. induction cfgs as [|[ip port] cfgs IH]; intros Hall res wt st res' wt' st' H ND O.
  - cbn [create_loop] in H. injection H as <- <- <-. exact O.
  - cbn [create_loop] in H. destruct (create_one net (load_infos st0) one (ip, port) (res, wt, st)) as [[[r w] t]|] eqn:C; [|discriminate].
    cbn [bind] in H.
    destruct (loop_covers _ _ _ _ _ _ _ _ _ _ H) as ((m & Em & _) & _).
    assert (NDr : NoDup (map is_serial r)) by (rewrite Em, map_app in ND; exact (nodup_prefix _ _ ND)).
    apply (IH (fun c Hc => Hall c (or_intror Hc)) _ _ _ _ _ _ H ND). clear IH H Em ND.
    assert (Hin : In (ip, port) all) by (apply Hall; now left).
    apply create_one_outcome in C. inversion C as [i s Hi Ei Cs|i s O1 Hi Ei Cs|N|s Cs]; subst.
    + pose proof (check_addr _ _ _ _ _ _ _ Cs) as As. injection As as A1 A2.
      pose proof (check_serial net ip port i s (fun s' h' k' => U ip port i s' h' k' Hin Hi (or_introl Ei)) Cs) as Ss.
      apply (own_push st0 t res s t O NDr); [|reflexivity]. rewrite A1, A2, Ss.
      destruct O as [_ O2]. rewrite O2.
      * rewrite <- (info_extra st0 i Hi). exact Ei.
      * rewrite map_app in NDr. apply NoDup_remove_2 in NDr. rewrite List.app_nil_r, Ss in NDr. exact NDr.
    + pose proof (check_addr _ _ _ _ _ _ _ Cs) as As. injection As as A1 A2.
      pose proof (check_serial net ip port i s (fun s' h' k' => U ip port i s' h' k' Hin Hi (or_intror (conj Ei (One eq_refl)))) Cs) as Ss.
      apply (own_push st0 st res s _ O NDr); rewrite Ss.
      * rewrite extra_save, String.eqb_refl, A1, A2. reflexivity.
      * intros x Hx. rewrite extra_save, (proj2 (String.eqb_neq _ _) Hx). reflexivity.
    + exact O.
    + pose proof (create_addr _ _ _ _ Cs) as As. injection As as A1 A2.
      apply (own_push st0 st res s _ O NDr).
      * rewrite extra_save, String.eqb_refl, A1, A2. reflexivity.
      * intros x Hx. rewrite extra_save, (proj2 (String.eqb_neq _ _) Hx). reflexivity.
Qed.

Lemma wait_own st0 evs : forall res wt st res' st', wait evs (res, wt, st) = Ok (res', st') ->
  NoDup (map is_serial res') -> own st0 st res -> own st0 st' res'.
Proof.
  induction evs as [|e evs IH]; intros res wt st res' st' H ND O.
  - destruct wt; cbn [wait] in H; [|discriminate]. injection H as <- <-. exact O.
  - destruct wt as [|w wt]; [cbn [wait] in H; injection H as <- <-; exact O|].
    cbn [wait] in H. destruct e as [ip port a|]; [|discriminate].
    destruct (create ip port a) as [s|] eqn:C.
    + destruct (wait_covers _ _ _ _ _ _ H) as (m & Em & _).
      apply (IH _ _ _ _ _ H ND). pose proof (create_addr _ _ _ _ C) as As. injection As as A1 A2.
      apply (own_push st0 st res s _ O).
      * rewrite Em, map_app in ND. exact (nodup_prefix _ _ ND).
      * rewrite extra_save, String.eqb_refl, A1, A2. reflexivity.
      * intros x Hx. rewrite extra_save, (proj2 (String.eqb_neq _ _) Hx). reflexivity.
    + exact (IH _ _ _ _ _ H ND O).
Qed.

Lemma add_all_nodup l : forall known, add_all l known = Ok tt -> NoDup (map is_serial l) /\ forall x, In x (map is_serial l) -> ~ In x known.
Proof.
  induction l as [|s l IH]; intros known H; [split; [constructor|intros x []]|].
  cbn [add_all] in H. destruct (mem_str (is_serial s) known) eqn:M; [discriminate|].
  destruct (IH _ H) as [N D]. assert (Hs : ~ In (is_serial s) known).
  { intros K. unfold mem_str in M. assert (E : existsb (String.eqb (is_serial s)) known = true).
    { apply existsb_exists. exists (is_serial s). split; [exact K|apply String.eqb_refl]. }
    rewrite E in M. discriminate. }
  split.
  - cbn [map]. constructor; [|exact N]. intros K. apply (D _ K). now left.
  - cbn [map]. intros x [<-|Hx]; [exact Hs|]. intros K. apply (D x Hx). now right.
Qed.

Lemma register_extra l : forall rows t,
  match aget t (fold_left (fun rows s => save_info s rows) l rows) with Some r => rw_extra r | None => XNone end =
  match aget t rows with Some r => rw_extra r | None => XNone end.
Proof.
  induction l as [|s l IH]; intros rows t; [reflexivity|]. cbn [fold_left]. rewrite IH. unfold save_info.
  destruct (aget (is_serial s) rows) as [r|] eqn:E; unfold aset; cbn [aget];
    destruct (String.eqb t (is_serial s)) eqn:Q; try reflexivity;
    apply String.eqb_eq in Q; subst t; now rewrite E.
Qed.

Lemma nodup_serials l : NoDup (map is_serial l) -> forall a b, In a l -> In b l -> is_serial a = is_serial b -> a = b.
Proof.
  induction l as [|x l IH]; intros ND a b; [intros []|]. cbn [map] in ND. inversion ND as [|y z H1 H2]; subst.
  intros [<-|Ha] [<-|Hb] E; auto.
  - exfalso. apply H1. rewrite E. now apply in_map.
  - exfalso. apply H1. rewrite <- E. now apply in_map.
Qed.
Lemma nodup_add_all l : forall known, NoDup (map is_serial l) -> (forall x, In x (map is_serial l) -> ~ In x known) -> add_all l known = Ok tt.
Proof.
  induction l as [|s l IH]; intros known ND D; [reflexivity|]. cbn [map] in ND. inversion ND as [|y z H1 H2]; subst.
  cbn [add_all]. destruct (mem_str (is_serial s) known) eqn:M.
  - exfalso. apply (D (is_serial s)); [now left|]. unfold mem_str in M. apply existsb_exists in M as (x & Hx & E).
    apply String.eqb_eq in E. now subst x.
  - apply IH; [exact H2|]. intros x Hx [<-|K]; [now apply H1|]. apply (D x); [now right|exact K].
Qed.

Lemma next_start net evs cfgs st l st' : init_secondaries net evs cfgs st = Ok (l, st') ->
  unreplaced net cfgs st -> tell_apart cfgs -> own_connections cfgs evs -> NoDup cfgs ->
  exists l', init_secondaries offline [] cfgs (register l st') = Ok (l', register l st') /\
      Forall2 (fun c s => at_addr s = c /\ exists s0, In s0 l /\ at_addr s0 = c /\ is_serial s0 = is_serial s /\ is_hw s0 = is_hw s) cfgs l'.
Proof.
  intros H U T O NDc. unfold init_secondaries in H. destruct (create_ip net evs cfgs st) as [r|] eqn:C; [|discriminate].
  cbn [bind] in H. destruct (add_all (fst r) []) as [[]|] eqn:A; [|discriminate]. cbn [bind] in H. injection H as ->.
  cbn [fst] in A. destruct (add_all_nodup _ _ A) as [ND _].
  destruct (all_there _ _ _ _ _ _ C T O) as [Hall _].
  destruct (create_ip_split _ _ _ _ _ _ C) as (one & res & wt & st1 & L & W & E1).
  assert (Ow : own st st' l).
  { apply (wait_own st evs _ _ _ _ _ W ND). eapply (loop_own net st one cfgs cfgs U ltac:(intros ->; symmetry in E1; apply andb_true_iff in E1 as [Q1 Q2]; split; now apply Nat.eqb_eq) (fun c Hc => Hc) _ _ _ _ _ _ L).
    - destruct (wait_covers _ _ _ _ _ _ W) as (m & Em & _). rewrite Em, map_app in ND. exact (nodup_prefix _ _ ND).
    - split; [intros s []|reflexivity]. }
  destruct Ow as [Ow _]. set (st2 := register l st').
  assert (Inf : forall s, In s l -> exists i, In i (load_infos st2) /\ in_serial i = is_serial s /\ in_hw i = is_hw s /\
    in_extra i = XAddr (is_ip s) (is_port s)).
  { intros s Hs. pose proof (register_extra l (st_rows st') (is_serial s)) as RE.
    fold (extra_of st' (is_serial s)) in RE. rewrite (Ow s Hs) in RE.
    assert (Hm : In (is_serial s, is_hw s) (st_ecus st2)).
    { unfold st2, register. cbn [st_ecus]. apply in_map_iff. exists s. auto. }
    unfold load_infos. eexists. split; [apply in_map_iff; exists (is_serial s, is_hw s); split; [reflexivity|exact Hm]|].
    cbn [fst snd]. change (st_rows st2) with (fold_left (fun rows s => save_info s rows) l (st_rows st')).
    destruct (aget (is_serial s) (fold_left (fun rows s => save_info s rows) l (st_rows st'))) as [rr|]; cbn [in_serial in_hw in_extra].
    - auto.
    - discriminate RE. }
  assert (Inv : forall i, In i (load_infos st2) -> forall ip port, in_extra i = XAddr ip port ->
    exists s, In s l /\ at_addr s = (ip, port) /\ is_serial s = in_serial i /\ is_hw s = in_hw i).
  { intros i Hi ip port Ei. rewrite (info_extra st2 i Hi) in Ei. unfold extra_of in Ei.
    change (st_rows st2) with (fold_left (fun rows s => save_info s rows) l (st_rows st')) in Ei.
    rewrite register_extra in Ei. fold (extra_of st' (in_serial i)) in Ei.
    unfold load_infos in Hi. apply in_map_iff in Hi as ((a & b) & Eab & Hab). cbn [fst snd] in Eab.
    unfold st2, register in Hab. cbn [st_ecus] in Hab. apply in_map_iff in Hab as (s & Es & Hs). injection Es as <- <-.
    assert (Hii : in_serial i = is_serial s /\ in_hw i = is_hw s).
    { destruct (aget (is_serial s) (st_rows st2)); subst i; split; reflexivity. }
    destruct Hii as [I1 I2]. rewrite I1, (Ow s Hs) in Ei. injection Ei as <- <-. exists s. unfold at_addr. auto. }
  destruct (stored_loop offline (load_infos st2)
    (Nat.eqb (List.length cfgs) 1 && Nat.eqb (List.length (load_infos st2)) 1)%bool cfgs [] [] st2) as (more & E & F).
  { intros c Hc. split; [|exact Logic.I]. destruct (Hall c Hc) as (s & Hs & Es). destruct (Inf s Hs) as (i & Hi & _ & _ & Ei).
    exists i. split; [exact Hi|]. rewrite Ei. unfold at_addr in Es. rewrite <- Es. reflexivity. }
  assert (G : Forall2 (fun c s => at_addr s = c /\ exists s0, In s0 l /\ at_addr s0 = c /\ is_serial s0 = is_serial s /\ is_hw s0 = is_hw s) cfgs more).
  { clear - Inv F. induction F as [|c s cs ss (i & Hi & Ei & Cs) _ IH]; constructor.
    + pose proof (check_addr _ _ _ _ _ _ _ Cs) as As. split; [rewrite As; now destruct c|].
      destruct (Inv i Hi _ _ Ei) as (s0 & H0 & A0 & S0 & W0). exists s0. split; [exact H0|].
      split; [rewrite A0; now destruct c|]. unfold connect_and_check, offline in Cs. cbn [connect_and_create] in Cs.
      injection Cs as <-. cbn [is_serial is_hw]. auto.
    + exact IH. }
  exists more. split; [|exact G].
  assert (NDm : NoDup (map is_serial more)).
  { clear - G NDc ND. induction G as [|c s cs ss (As & s0 & H0 & A0 & S0 & _) G' IH]; [constructor|].
    inversion NDc as [|x y N1 N2]; subst. cbn [map]. constructor; [|now apply IH].
    intros K. apply in_map_iff in K as (s1 & E1 & K1).
    assert (Q : exists c1, In c1 cs /\ exists s2, In s2 l /\ at_addr s2 = c1 /\ is_serial s2 = is_serial s1).
    { clear - G' K1. induction G' as [|d t ds ts (Ad & t0 & T0 & T1 & T2 & _) _ IH]; [destruct K1|].
      destruct K1 as [<-|K1]; [exists d; split; [now left|]; exists t0; auto|].
      destruct (IH K1) as (c1 & Hc1 & R). exists c1. split; [now right|exact R]. }
    destruct Q as (c1 & Hc1 & s2 & H2 & A2 & S2).
    assert (s2 = s0) by (apply (nodup_serials l ND s2 s0 H2 H0); congruence). subst s2.
    apply N1. rewrite <- A0, A2. exact Hc1. }
  unfold init_secondaries, create_ip. rewrite E. cbn [bind wait app fst].
  rewrite (nodup_add_all more [] NDm); [reflexivity|]. intros x _ [].
Qed.
