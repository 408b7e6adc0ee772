(** C139-C142: the IP Secondaries of the Primary. *)
From Verif Require Import Base Json CodecModel IpsModel IpsSpec IpsProofs.
From Verif Require DlProofs.

(** C139: when the configuration of the IP Secondaries is accepted, the Secondaries are those at the addresses written there. *)
Definition C139_statement : Prop :=
  forall m addrs l, lists m addrs -> parse_ip_config (JObj m) = Ok l -> addrs = map addr_text l.

Definition conf (addrs : list string) : list (string * json) :=
  [("secondaries_wait_port", JInt 9040); ("secondaries_wait_timeout", JInt 20);
   ("secondaries", JArr (map (fun a => JObj [("addr", JStr a)]) addrs))].
Lemma conf_lists addrs : lists (conf addrs) addrs.
Proof.
  split; [reflexivity|]. split.
  - exists 9040. split; [reflexivity|lia].
  - exists 20. split; [reflexivity|]. unfold max_int. lia.
Qed.
(** A port that does not exist is silently replaced by another. *)
Theorem C139_refuted : ~ C139_statement.
Proof.
  intros H. specialize (H (conf ["10.0.0.1:70000"]) ["10.0.0.1:70000"] [("10.0.0.1", 4464)] (conf_lists _)).
  assert (K : parse_ip_config (JObj (conf ["10.0.0.1:70000"])) = Ok [("10.0.0.1", 4464)]) by (vm_compute; reflexivity).
  apply H in K. vm_compute in K. discriminate.
Qed.
(** So is a port that is no number. *)
Theorem C139_text_refuted : parse_ip_config (JObj (conf ["10.0.0.1:9031abc"; "10.0.0.2: -1"])) = Ok [("10.0.0.1", 9031); ("10.0.0.2", 65535)].
Proof. vm_compute. reflexivity. Qed.

(** Properly written addresses are read as they are, in order. *)
Theorem C139_partial : forall m l, lists m (map addr_text l) ->
  Forall (fun c => split_first ":" (fst c) = None /\ 0 <= snd c < 65536) l -> parse_ip_config (JObj m) = Ok l.
Proof. intros m l H F. rewrite (parse_lists _ _ H). now apply ip_list_text. Qed.

(** An address without a port is refused, and with it the whole configuration. *)
Theorem C139_refuses : forall m addrs a, lists m addrs -> In a addrs -> split_first ":" a = None ->
  exists e, parse_ip_config (JObj m) = Throw e.
Proof.
  intros m addrs a H Ha Hs. rewrite (parse_lists _ _ H). clear H. generalize 0. induction addrs as [|x addrs IH]; [destruct Ha|].
  intros z. cbn [map index_from ip_list].
  change (jget "addr" (JObj [("addr", JStr x)])) with (Ok (JStr x)). cbn [bind jas_string].
  destruct (ip_and_port x) as [c|e] eqn:E; cbn [bind]; [|eauto]. destruct Ha as [<-|Ha].
  - unfold ip_and_port in E. rewrite Hs in E. discriminate.
  - destruct (IH Ha (z + 1)) as (e & ->). cbn [bind]. eauto.
Qed.

(** C140: a successful start has a Secondary for every configured address, and no other. *)
Definition C140_statement : Prop :=
  forall net evs cfgs st l st', init_secondaries net evs cfgs st = Ok (l, st') ->
    (forall c, In c cfgs -> exists s, In s l /\ at_addr s = c) /\ (forall s, In s l -> In (at_addr s) cfgs).
Definition C140_complete_statement : Prop :=
  forall net evs cfgs st l st', init_secondaries net evs cfgs st = Ok (l, st') ->
    own_connections cfgs evs -> forall c, In c cfgs -> exists s, In s l /\ at_addr s = c.
Definition C140_connected_statement : Prop :=
  forall net evs cfgs st l st', init_secondaries net evs cfgs st = Ok (l, st') ->
    tell_apart cfgs -> (forall ip port a, In (Conn ip port a) evs -> In (ip, port) cfgs) ->
    forall c, In c cfgs -> exists s, In s l /\ at_addr s = c.

Definition nothing : store := {| st_ecus := []; st_rows := [] |}.
(** A stranger that connects while the Primary waits becomes one of the Secondaries. *)
Theorem C140_refuted : ~ C140_statement.
Proof.
  intros H.
  assert (K : init_secondaries offline [Conn "10.0.0.9" 9031 (Reply "stranger" "hw" (Some "k")); Conn "10.0.0.1" 9031 (Reply "s1" "hw" (Some "k1"))]
    [("10.0.0.1", 9031)] nothing =
    Ok ([{| is_ip := "10.0.0.9"; is_port := 9031; is_serial := "stranger"; is_hw := "hw"; is_key := Some "k" |};
     {| is_ip := "10.0.0.1"; is_port := 9031; is_serial := "s1"; is_hw := "hw"; is_key := Some "k1" |}],
        save_data "s1" (XAddr "10.0.0.1" 9031) (save_data "stranger" (XAddr "10.0.0.9" 9031) nothing))) by (vm_compute; reflexivity).
  apply H in K. destruct K as [_ K]. specialize (K _ (or_introl eq_refl)). destruct K as [K|[]]. vm_compute in K. discriminate.
Qed.
(** Two addresses that look the same without the separator are taken for one another: one of the Secondaries is missing. *)
Definition twins : list (string * Z) := [("10.0.0.1", 12345); ("10.0.0.11", 2345)].
Theorem C140_complete_refuted : ~ C140_complete_statement.
Proof.
  intros H.
  assert (K : init_secondaries offline [Conn "10.0.0.1" 12345 (Reply "s1" "hw" (Some "k1"))] twins nothing =
    Ok ([{| is_ip := "10.0.0.1"; is_port := 12345; is_serial := "s1"; is_hw := "hw"; is_key := Some "k1" |}],
        save_data "s1" (XAddr "10.0.0.1" 12345) nothing)) by (vm_compute; reflexivity).
  destruct (H _ _ _ _ _ _ K) with (c := ("10.0.0.11", 2345)) as (s & [Hs|[]] & E).
  - intros ip port a [[= <- <- <-]|[]]. split; [now left|]. vm_compute. lia.
  - right. now left.
  - subst s. vm_compute in E. discriminate.
Qed.
(** A Secondary that connects with an unusable serial is no longer waited for: the Primary starts without it. *)
Theorem C140_connected_refuted : ~ C140_connected_statement.
Proof.
  intros H.
  assert (K : init_secondaries offline [Conn "10.0.0.1" 9031 (Reply "" "hw" (Some "k1"))] [("10.0.0.1", 9031)] nothing =
    Ok ([], nothing)) by (vm_compute; reflexivity).
  destruct (H _ _ _ _ _ _ K) with (c := ("10.0.0.1", 9031)) as (s & [] & _).
  - intros c d [<-|[]] [<-|[]] _. reflexivity.
  - intros ip port a [[= <- <- <-]|[]]. now left.
  - now left.
Qed.

(** Holds when the addresses differ even without a separator and only configured Secondaries with proper identifiers connect. *)
Theorem C140_partial : forall net evs cfgs st l st', init_secondaries net evs cfgs st = Ok (l, st') ->
  tell_apart cfgs -> own_connections cfgs evs ->
  (forall c, In c cfgs -> exists s, In s l /\ at_addr s = c) /\ (forall s, In s l -> In (at_addr s) cfgs).
Proof.
  intros net evs cfgs st l st' H T O. unfold init_secondaries in H.
  destruct (create_ip net evs cfgs st) as [r|] eqn:C; [|discriminate]. cbn [bind] in H.
  destruct (add_all (fst r) []); [|discriminate]. cbn [bind] in H. injection H as ->. exact (all_there _ _ _ _ _ _ C T O).
Qed.

(** And no two Secondaries of a successful start have the same serial, whoever connects. *)
Theorem C140_serials : forall net evs cfgs st l st', init_secondaries net evs cfgs st = Ok (l, st') -> NoDup (map is_serial l).
Proof.
  intros net evs cfgs st l st' H. unfold init_secondaries in H.
  destruct (create_ip net evs cfgs st) as [r|] eqn:C; [|discriminate]. cbn [bind] in H.
  destruct (add_all (fst r) []) as [[]|] eqn:A; [|discriminate]. cbn [bind] in H. injection H as ->. exact (proj1 (add_all_nodup _ _ A)).
Qed.

(** A new Secondary that accepts the connection but says nothing is taken, under a serial that nobody has. *)
Definition C140_identity_statement : Prop :=
  forall net evs cfgs st l st', init_secondaries net evs cfgs st = Ok (l, st') -> forall s, In s l ->
    (exists h k, net (is_ip s) (is_port s) = Reply (is_serial s) h k) \/
    (exists h k, In (Conn (is_ip s) (is_port s) (Reply (is_serial s) h k)) evs) \/
    (exists h, In (is_serial s, h) (st_ecus st)).
Definition nobody : ipsec := {| is_ip := "10.0.0.1"; is_port := 9031; is_serial := "Unknown"; is_hw := "Unknown"; is_key := None |}.
Theorem C140_identity_refuted : ~ C140_identity_statement.
Proof.
  intros H.
  assert (K : init_secondaries (fun _ _ => Silent) [] [("10.0.0.1", 9031)] nothing =
    Ok ([nobody], save_data "Unknown" (XAddr "10.0.0.1" 9031) nothing)) by (vm_compute; reflexivity).
  destruct (H _ _ _ _ _ _ K nobody (or_introl eq_refl)) as [(h & k & Q)|[(h & k & [])|(h & [])]]. discriminate.
Qed.

(** C141: once every configured Secondary is stored, the Primary starts whatever the Secondaries do, and knows those that
    cannot be reached by their stored identity. *)
Definition C141_statement : Prop :=
  forall net evs cfgs st, (forall c, In c cfgs -> exists s h, stored_at st c s h) -> exists l, create_ip net evs cfgs st = Ok l.

Definition stored1 : store :=
  {| st_ecus := [("s1", "hw")]; st_rows := [("s1", {| rw_key := Some "k1"; rw_extra := XAddr "10.0.0.1" 9031 |})] |}.
Lemma stored1_at : forall c, In c [("10.0.0.1", 9031)] -> exists s h, stored_at stored1 c s h.
Proof.
  intros c [<-|[]]. exists "s1", "hw". eexists. split; [left; reflexivity|]. repeat split.
Qed.
(** A stored Secondary that accepts the connection and then says nothing keeps the Primary from starting. *)
Theorem C141_refuted : ~ C141_statement.
Proof.
  intros H. destruct (H (fun _ _ => Silent) [] [("10.0.0.1", 9031)] stored1 stored1_at) as (l & K). vm_compute in K. discriminate.
Qed.

(** Holds when every Secondary is either not reachable or answers with a key of a known type. *)
Theorem C141_partial : forall net evs cfgs st, (forall c, In c cfgs -> exists s h, stored_at st c s h) ->
  (forall ip port, In (ip, port) cfgs -> well_behaved (net ip port)) ->
  exists l, create_ip net evs cfgs st = Ok (l, st) /\
    Forall2 (fun c s => at_addr s = c /\ (net (fst c) (snd c) = NoConnect -> stored_at st c (is_serial s) (is_hw s))) cfgs l.
Proof.
  intros net evs cfgs st H W.
  destruct (stored_loop net (load_infos st) (Nat.eqb (List.length cfgs) 1 && Nat.eqb (List.length (load_infos st)) 1)%bool cfgs [] [] st)
    as (more & E & F).
  { intros [ip port] Hc. cbn [fst snd]. split; [|now apply W]. destruct (H _ Hc) as (s & h & i & Hi & _ & _ & Ei). exists i. auto. }
  exists more. split.
  - unfold create_ip. rewrite E. cbn [bind app]. destruct evs; reflexivity.
  - clear - F. induction F as [|c s cs ss (i & Hi & Ei & Cs) _ IH]; constructor; [|exact IH].
    pose proof (check_addr _ _ _ _ _ _ _ Cs) as As. split; [rewrite As; now destruct c|].
    intros N. rewrite N in Cs. cbn [connect_and_check connect_and_create] in Cs. injection Cs as <-. exists i. auto.
Qed.

(** C142: after a successful start and registration the next start with the same configuration succeeds although no Secondary
    can be reached, and with the same Secondaries. *)
Definition C142_statement : Prop :=
  forall net evs cfgs st l st', init_secondaries net evs cfgs st = Ok (l, st') ->
    tell_apart cfgs -> own_connections cfgs evs -> NoDup cfgs ->
    exists l', init_secondaries offline [] cfgs (register l st') = Ok (l', register l st') /\
      Forall2 (fun c s => at_addr s = c /\
        exists s0, In s0 l /\ at_addr s0 = c /\ is_serial s0 = is_serial s /\ is_hw s0 = is_hw s) cfgs l'.

Definition stored2 : store :=
  {| st_ecus := [("s1", "hw"); ("s2", "hw")];
     st_rows := [("s1", {| rw_key := Some "k1"; rw_extra := XAddr "10.0.0.1" 9031 |});
                 ("s2", {| rw_key := Some "k2"; rw_extra := XAddr "10.0.0.2" 9031 |})] |}.
Definition replaced_net (ip : string) (port : Z) : answer :=
  if String.eqb ip "10.0.0.1" then Reply "s3" "hw" (Some "k3") else Reply "s2" "hw" (Some "k2").
Definition two : list (string * Z) := [("10.0.0.1", 9031); ("10.0.0.2", 9031)].
Lemma two_apart : tell_apart two.
Proof. intros c d [<-|[<-|[]]] [<-|[<-|[]]]; intros Q; try reflexivity; vm_compute in Q; discriminate. Qed.
Lemma two_nodup : NoDup two.
Proof. constructor; [intros [K|[]]; discriminate|]. constructor; [intros []|constructor]. Qed.
Definition l_repl : list ipsec :=
  [{| is_ip := "10.0.0.1"; is_port := 9031; is_serial := "s3"; is_hw := "hw"; is_key := Some "k3" |};
   {| is_ip := "10.0.0.2"; is_port := 9031; is_serial := "s2"; is_hw := "hw"; is_key := Some "k2" |}].
(** The address of a replaced Secondary is not stored for its successor: without a network the next start fails. *)
Theorem C142_refuted : ~ C142_statement.
Proof.
  intros H.
  assert (K : init_secondaries replaced_net [] two stored2 = Ok (l_repl, stored2)) by (vm_compute; reflexivity).
  destruct (H _ _ _ _ _ _ K two_apart) as (l' & Q & _).
  - intros ip port a [].
  - exact two_nodup.
  - vm_compute in Q. discriminate.
Qed.

(** Holds when every stored Secondary that answers still has its serial. *)
Theorem C142_partial : forall net evs cfgs st l st', init_secondaries net evs cfgs st = Ok (l, st') ->
  unreplaced net cfgs st -> tell_apart cfgs -> own_connections cfgs evs -> NoDup cfgs ->
  exists l', init_secondaries offline [] cfgs (register l st') = Ok (l', register l st') /\
    Forall2 (fun c s => at_addr s = c /\
      exists s0, In s0 l /\ at_addr s0 = c /\ is_serial s0 = is_serial s /\ is_hw s0 = is_hw s) cfgs l'.
Proof. exact next_start. Qed.

(** *** Cases *)
Example C139_case : parse_ip_config (JObj (conf (map addr_text two))) = Ok two.
Proof.
  apply C139_partial; [apply conf_lists|]. constructor; [split; [reflexivity|cbn; lia]|].
  constructor; [split; [reflexivity|cbn; lia]|constructor].
Qed.
Example C139_refuses_case : exists e, parse_ip_config (JObj (conf ["10.0.0.1:9031"; "10.0.0.2"])) = Throw e.
Proof. eapply (C139_refuses _ _ "10.0.0.2" (conf_lists _)); [right; now left|reflexivity]. Qed.

(** The first start: one Secondary answers, the other connects later. *)
Definition half (ip : string) (port : Z) : answer :=
  if String.eqb ip "10.0.0.1" then Reply "s1" "hw" (Some "k1") else NoConnect.
Definition late : list wevent := [Conn "10.0.0.2" 9031 (Reply "s2" "hw" (Some "k2"))].
Definition l_first : list ipsec :=
  [{| is_ip := "10.0.0.1"; is_port := 9031; is_serial := "s1"; is_hw := "hw"; is_key := Some "k1" |};
   {| is_ip := "10.0.0.2"; is_port := 9031; is_serial := "s2"; is_hw := "hw"; is_key := Some "k2" |}].
Definition st_first : store := save_data "s2" (XAddr "10.0.0.2" 9031) (save_data "s1" (XAddr "10.0.0.1" 9031) nothing).
Lemma first_start : init_secondaries half late two nothing = Ok (l_first, st_first).
Proof. vm_compute. reflexivity. Qed.
Lemma late_own : own_connections two late.
Proof. intros ip port a [[= <- <- <-]|[]]. split; [right; now left|]. vm_compute. lia. Qed.
Example C140_case : (forall c, In c two -> exists s, In s l_first /\ at_addr s = c) /\ (forall s, In s l_first -> In (at_addr s) two).
Proof. exact (C140_partial _ _ _ _ _ _ first_start two_apart late_own). Qed.
(** The key that is stored for a Secondary is never replaced, whoever connects and whatever key is told. *)
Definition key_of (serial : string) (st : store) : option string := match aget serial (st_rows st) with Some r => rw_key r | None => None end.
Lemma save_data_key serial s x st k : key_of serial st = Some k -> key_of serial (save_data s x st) = Some k.
Proof.
  unfold key_of, save_data. cbn [st_rows]. rewrite DlProofs.aget_aset. destruct (String.eqb_spec serial s) as [ <- | N]; [|auto].
  cbn [rw_key]. auto.
Qed.
Lemma create_loop_key net infos one serial k : forall cfgs l w st l' w' st', create_loop net infos one cfgs (l, w, st) = Ok (l', w', st') ->
  key_of serial st = Some k -> key_of serial st' = Some k.
Proof.
  induction cfgs as [|[ip port] cfgs IH]; intros l w st l' w' st' H K; cbn [create_loop] in H.
  - injection H as <- <- <-. exact K.
  - destruct (create_one net infos one (ip, port) (l, w, st)) as [[[l1 w1] st1]|] eqn:E; [|discriminate]. cbn [bind] in H. apply (IH _ _ _ _ _ _ H).
    clear - E K. unfold create_one in E.
    assert (chk : forall i sx, key_of serial sx = Some k ->
       match connect_and_check ip port (in_serial i) (in_hw i) (in_key i) (net ip port) with Some s => Ok (l ++ [s], w, sx) | None => Throw EStd end = Ok (l1, w1, st1) -> key_of serial st1 = Some k).
    { intros i sx Kx E0. destruct (connect_and_check ip port (in_serial i) (in_hw i) (in_key i) (net ip port)); [|discriminate]. injection E0 as <- <- <-. exact Kx. }
    assert (new : (do c <- connect_and_create ip port (net ip port);
          match c with None => Ok (l, wkey ip port :: w, st) | Some s => Ok (l ++ [s], w, save_data (is_serial s) (XAddr ip port) st) end) = Ok (l1, w1, st1) -> key_of serial st1 = Some k).
    { intros E0. destruct (connect_and_create ip port (net ip port)) as [[s|]|]; cbn [bind] in E0; [| |discriminate]; injection E0 as <- <- <-; [apply save_data_key|]; exact K. }
    destruct (find (fun i => extra_is ip port (in_extra i)) infos) as [i|]; [exact (chk i st K E)|].
    destruct (if one then infos else []) as [|[s h key [| |]] rest]; try exact (new E).
    apply (chk {| in_serial := s; in_hw := h; in_key := key; in_extra := XNone |} (save_data s (XAddr ip port) st)); [apply save_data_key; exact K | exact E].
Qed.
Lemma wait_key serial k : forall evs l w st l' st', wait evs (l, w, st) = Ok (l', st') -> key_of serial st = Some k -> key_of serial st' = Some k.
Proof.
  induction evs as [|[ip port a|] evs IH]; intros l w st l' st' H K; destruct w as [|x w]; cbn [wait] in H; try discriminate; try (injection H as <- <-; exact K).
  destruct (create ip port a) as [s|]; apply (IH _ _ _ _ _ H); [apply save_data_key|]; exact K.
Qed.
Lemma register_key serial k : forall l rows, match aget serial rows with Some r => rw_key r | None => None end = Some k ->
  match aget serial (fold_left (fun rows s => save_info s rows) l rows) with Some r => rw_key r | None => None end = Some k.
Proof.
  induction l as [|s l IH]; intros rows K; [exact K|]. cbn [fold_left]. apply IH. unfold save_info.
  destruct (aget (is_serial s) rows) as [r|] eqn:E; rewrite DlProofs.aget_aset; destruct (String.eqb_spec serial (is_serial s)) as [ -> | N]; try exact K.
  - rewrite E in K. cbn [rw_key]. rewrite K. reflexivity.
  - rewrite E in K. discriminate K.
Qed.
Theorem C142_keys : forall net evs cfgs st l st' serial k, init_secondaries net evs cfgs st = Ok (l, st') -> key_of serial st = Some k ->
  key_of serial st' = Some k /\ key_of serial (register l st') = Some k.
Proof.
  intros net evs cfgs st l st' serial k H K. unfold init_secondaries in H.
  destruct (create_ip net evs cfgs st) as [[l0 st0]|] eqn:C; [|discriminate]. cbn [bind fst] in H.
  destruct (add_all l0 []) as [[]|]; [|discriminate]. cbn [bind] in H. injection H as <- <-.
  assert (K0 : key_of serial st0 = Some k).
  { unfold create_ip in C. destruct (create_loop net (load_infos st) _ cfgs ([], [], st)) as [[[l1 w1] st1]|] eqn:L; [|discriminate]. cbn [bind] in C.
    apply (wait_key serial k _ _ _ _ _ _ C). exact (create_loop_key _ _ _ _ _ _ _ _ _ _ _ _ L K). }
  split; [exact K0|]. unfold register, key_of. cbn [st_rows]. apply register_key. exact K0.
Qed.

Example C141_case : exists l, create_ip offline [] [("10.0.0.1", 9031)] stored1 = Ok (l, stored1).
Proof.
  destruct (C141_partial offline [] [("10.0.0.1", 9031)] stored1 stored1_at) as (l & E & _); [intros; exact Logic.I|]. eauto.
Qed.
Example C142_case : exists l', init_secondaries offline [] two (register l_first st_first) = Ok (l', register l_first st_first).
Proof.
  destruct (C142_partial _ _ _ _ _ _ first_start) as (l' & E & _); [|exact two_apart|exact late_own|exact two_nodup|eauto].
  intros ip port i s h k _ [].
Qed.
(** A second start, over the stored Secondaries, that again meets the hypotheses. *)
Example C142_case_again : unreplaced half two (register l_first st_first).
Proof.
  intros ip port i s h k Hc Hi [Ei|(_ & K & _)] N; [|discriminate K].
  destruct Hi as [<-|[<-|[]]]; vm_compute in Ei; injection Ei as <- <-; vm_compute in N; [now injection N as <- _ _|discriminate].
Qed.

Print Assumptions C139_partial. Print Assumptions C139_refuses. Print Assumptions C139_refuted. Print Assumptions C139_text_refuted.
Print Assumptions C140_partial. Print Assumptions C140_serials. Print Assumptions C140_refuted. Print Assumptions C140_complete_refuted.
Print Assumptions C140_connected_refuted. Print Assumptions C140_identity_refuted.
Print Assumptions C142_keys. Print Assumptions C141_partial. Print Assumptions C141_refuted. Print Assumptions C142_partial. Print Assumptions C142_refuted.
