(** C46: schema migration. *)
From Verif Require Import Base MigModel MigSpec MigProofs.
From Coq Require Import Lia.

(** The full property: if the storage is opened it is at the version this software expects. *)
Definition C46_statement : Prop :=
  forall (B : Type) (S : soft B) ro commit d d', well_numbered S -> stored_numbered d -> open_db S ro commit d = (true, d') -> at_version d' (cur S).

(** A model of the scripts of /repo/config/sql: the content is the list of (ECU, sha256, name) of the installation log.
    rollback.20.sql copies the log to a table with UNIQUE(ecu_serial, sha256, name); rollback.15.sql drops the table of rollback scripts. *)
Definition key := (string * string * string)%type.
Definition key_eqb (a b : key) : bool :=
  let '(x, y, z) := a in let '(x', y', z') := b in String.eqb x x' && String.eqb y y' && String.eqb z z'.
Fixpoint distinct (l : list key) : bool := match l with [] => true | k :: l' => negb (existsb (key_eqb k) l') && distinct l' end.
Definition up (k : nat) : script (list key) := {| sc_to := Z.of_nat k; sc_run := Some; sc_back := if Nat.eqb k 15 then BCreate else BKeep |}.
Definition down (k : nat) : script (list key) :=
  {| sc_to := Z.of_nat k - 1; sc_run := fun b => if Nat.eqb k 20 then (if distinct b then Some b else None) else Some b; sc_back := if Nat.eqb k 15 then BDrop else BKeep |}.
(** aktualizr with schema version [n]. *)
Definition software (n : nat) : soft (list key) :=
  {| cur := Z.of_nat n; migs := map up (seq 0 (S n)); rolls := map (fun k => if Nat.leb 15 k then Some (down k) else None) (seq 0 (S n));
     schema := {| sc_to := Z.of_nat n; sc_run := Some; sc_back := BCreate |} |}.
Definition blank : db (list key) := {| v_tables := false; v_ver := None; v_back := None; v_rest := [] |}.
Definition with_log (l : list key) (d : db (list key)) : db (list key) :=
  {| v_tables := v_tables d; v_ver := v_ver d; v_back := v_back d; v_rest := l |}.
Lemma software_numbered n : (0 < n)%nat -> well_numbered (software n).
Proof.
  intros L. split; [cbn; lia|]. split; [reflexivity|]. split.
  - intros k s H. cbn [software migs] in H.
    assert (K : (k < S n)%nat).
    { assert (Q : nth_error (map up (seq 0 (S n))) k <> None) by congruence.
      apply nth_error_Some in Q. now rewrite map_length, seq_length in Q. }
    rewrite (map_nth_error up k (seq 0 (S n)) (d := k)) in H; [inversion H; reflexivity|].
    rewrite (nth_error_nth' _ 0%nat) by now rewrite seq_length. now rewrite seq_nth.
  - intros k s H. cbn [software rolls] in H.
    set (f := fun k => if Nat.leb 15 k then Some (down k) else None) in *.
    assert (K : (k < S n)%nat).
    { assert (Q : nth_error (map f (seq 0 (S n))) k <> None) by congruence.
      apply nth_error_Some in Q. now rewrite map_length, seq_length in Q. }
    rewrite (map_nth_error f k (seq 0 (S n)) (d := k)) in H.
    + unfold f in H. destruct (Nat.leb 15 k); inversion H. reflexivity.
    + rewrite (nth_error_nth' _ 0%nat) by now rewrite seq_length. now rewrite seq_nth.
Qed.
(** The database of a device with schema version 25 that has installed A, then B, then A again. *)
Definition aba : list key := [("ecu", "aa", "A"); ("ecu", "bb", "B"); ("ecu", "aa", "A")].
Definition db25 : db (list key) := with_log aba (snd (open_db (software 25) false true blank)).
Lemma db25_numbered : stored_numbered db25.
Proof.
  intros t k s E Z. vm_compute in E. inversion E; subst t; clear E.
  repeat (cbn [zget] in Z; match type of Z with (if ?x =? k then _ else _) = _ => destruct (Z.eqb_spec x k); [subst k; inversion Z; reflexivity|] end).
  discriminate.
Qed.

(** A downgraded aktualizr opens it with success although the schema stays at 20. *)
Theorem C46_refuted : ~ C46_statement.
Proof.
  intros H. specialize (H _ (software 19) false true db25 (snd (open_db (software 19) false true db25)) (software_numbered 19 ltac:(lia)) db25_numbered).
  destruct H as [_ V]; [vm_compute; reflexivity|]. vm_compute in V. discriminate.
Qed.
Example C46_refuted_stays_20 : fst (open_db (software 19) false true db25) = true /\ v_ver (snd (open_db (software 19) false true db25)) = Some 20.
Proof. vm_compute. auto. Qed.

(** A failed upgrade is not reported either. *)
Theorem C46_failed_upgrade_refuted :
  ~ (forall (S : soft nat) ro commit d d', well_numbered S -> stored_numbered d -> get_version d < cur S -> open_db S ro commit d = (true, d') -> at_version d' (cur S)).
Proof.
  intros H.
  set (bad := {| sc_to := 1; sc_run := fun _ : nat => None; sc_back := BKeep |}).
  set (S := {| cur := 1; migs := [{| sc_to := 0; sc_run := @Some nat; sc_back := BKeep |}; bad]; rolls := []; schema := {| sc_to := 1; sc_run := @Some nat; sc_back := BKeep |} |}).
  set (d := {| v_tables := true; v_ver := Some 0; v_back := None; v_rest := 0%nat |} : db nat).
  destruct (H S false true d d) as [_ V]; try (unfold S, d; cbn; reflexivity); [..|unfold S, d in V; cbn in V; discriminate].
  - split; [unfold S; cbn; lia|]. split; [reflexivity|]. split.
    + intros [|[|k]] s E; cbn in E; [inversion E; reflexivity..|destruct k; discriminate].
    + intros k s E. destruct k; discriminate.
  - intros t k s E. discriminate.
Qed.

(** No rollback below version 14, and success is reported: rollback.15 drops the table the rest is stored in. *)
Example C46_never_below_14 : fst (open_db (software 12) false true (with_log [("ecu", "aa", "A")] db25)) = true /\
  v_ver (snd (open_db (software 12) false true (with_log [("ecu", "aa", "A")] db25))) = Some 14.
Proof. vm_compute. auto. Qed.

(** What holds. An upgrade is atomic and, if it completes, reaches the expected version: whatever fails, whether or not COMMIT works, and at every crash point. *)
Theorem C46_upgrade_atomic_partial : forall (B : Type) (S : soft B) commit d r d' log,
  well_numbered S -> get_version d < cur S -> 0 <= get_version d -> db_migrate S false commit d = (r, d', log) ->
  (d' = d \/ (at_version d' (cur S) /\ exists u, upgrade S (get_version d) d u /\ same_content d' u)) /\ (forall e, In e log -> e = d \/ e = d') /\ (r = MThrow -> d' = d).
Proof.
  intros B S c d r d' log W L P H. unfold db_migrate in H. set (v := get_version d) in *.
  destruct (Z.eqb_spec v (-2)) as [E|_]; [lia|]. destruct (Z.eqb_spec v (cur S)) as [E|_]; [lia|]. cbn [negb] in H.
  destruct (Z.eqb_spec v (-1)) as [E|_]; [lia|]. destruct (Z.ltb_spec (cur S) v) as [E|_]; [lia|].
  destruct (migrate_forward S c v d) as [o d1] eqn:F.
  destruct (forward_all_or_nothing _ _ _ _ _ _ L F) as [[N E]|(E & u & U & C)].
  - subst d1. assert (Q : d' = d /\ log = [d; d]) by (destruct o; inversion H; auto). destruct Q; subst.
    split; [auto|]. split; auto. intros e [<-|[<-|[]]]; auto.
  - subst o. inversion H; subst. split; [right; split; [|eauto]|].
    + destruct C as (C1 & C2 & C3). destruct (upgrade_at _ _ _ _ W U L) as [A1 A2]. split; congruence.
    + split; [|congruence]. intros e [<-|[<-|[]]]; auto.
Qed.

(** If every script works and COMMIT works, an upgrade reaches the expected version, from every older version. *)
Theorem C46_upgrade_works_partial : forall (B : Type) (S : soft B) d u,
  well_numbered S -> 0 <= get_version d < cur S -> upgrade S (get_version d) d u -> can_store S u ->
  exists d', open_db S false true d = (true, d') /\ at_version d' (cur S) /\ v_rest d' = v_rest u.
Proof.
  intros B S d u W L U K. unfold open_db, db_migrate. set (v := get_version d) in *.
  destruct (Z.eqb_spec v (-2)) as [E|_]; [lia|]. destruct (Z.eqb_spec v (cur S)) as [E|_]; [lia|].
  destruct (Z.eqb_spec v (-1)) as [E|_]; [lia|]. destruct (Z.ltb_spec (cur S) v) as [E|_]; [lia|].
  destruct (forward_works S v d u ltac:(lia) U K) as (d' & F & C1 & C2 & C3). rewrite F.
  exists d'. split; [reflexivity|]. destruct (upgrade_at _ _ _ _ W U ltac:(lia)) as [A1 A2]. split; [split; congruence|auto].
Qed.

(** After an upgrade or in a new database, the rollback script of this software for every version that has one is the stored one, whatever
    was stored before. *)
Lemma zget_insert (B : Type) (l : list (option (script B))) : forall k t j, zget j (insert_back k l t) =
  if (k <=? j) && (j <? k + Z.of_nat (List.length l)) then match nth_error l (Z.to_nat (j - k)) with Some (Some s) => Some s | _ => zget j t end else zget j t.
Proof.
  induction l as [|o l IH]; intros k t j.
  - cbn [insert_back List.length]. destruct (Z.leb_spec k j), (Z.ltb_spec j (k + Z.of_nat 0)); cbn [andb]; try reflexivity. lia.
  - assert (G : forall t', zget j (insert_back (k + 1) l t') =
      if (k + 1 <=? j) && (j <? k + Z.of_nat (List.length (o :: l))) then match nth_error (o :: l) (Z.to_nat (j - k)) with Some (Some s) => Some s | _ => zget j t' end else zget j t').
    { intros t'. rewrite IH. replace (k + 1 + Z.of_nat (List.length l)) with (k + Z.of_nat (List.length (o :: l))) by (cbn [List.length]; lia).
      destruct (Z.leb_spec (k + 1) j); cbn [andb]; [|reflexivity]. replace (Z.to_nat (j - k)) with (S (Z.to_nat (j - (k + 1)))) by lia. reflexivity. }
    destruct o as [s|]; cbn [insert_back]; rewrite G; cbn [List.length].
    + destruct (Z.eq_dec j k) as [->|N].
      * replace (k + 1 <=? k) with false by (symmetry; apply Z.leb_gt; lia). replace (k <=? k) with true by (symmetry; apply Z.leb_le; lia).
        replace (k <? k + Z.of_nat (S (List.length l))) with true by (symmetry; apply Z.ltb_lt; lia). cbn [andb]. rewrite Z.sub_diag. cbn. now rewrite Z.eqb_refl.
      * assert (Q : zget j ((k, s) :: zdel k t) = zget j t) by (cbn [zget]; destruct (Z.eqb_spec k j); [congruence|]; rewrite zget_zdel; destruct (Z.eqb_spec j k); congruence). rewrite Q.
        replace (k + 1 <=? j) with (k <=? j) by (destruct (Z.leb_spec k j), (Z.leb_spec (k + 1) j); try reflexivity; lia). reflexivity.
    + destruct (Z.eq_dec j k) as [->|N].
      * replace (k + 1 <=? k) with false by (symmetry; apply Z.leb_gt; lia). replace (k <=? k) with true by (symmetry; apply Z.leb_le; lia).
        replace (k <? k + Z.of_nat (S (List.length l))) with true by (symmetry; apply Z.ltb_lt; lia). cbn [andb]. rewrite Z.sub_diag. reflexivity.
      * replace (k + 1 <=? j) with (k <=? j) by (destruct (Z.leb_spec k j), (Z.leb_spec (k + 1) j); try reflexivity; lia). reflexivity.
Qed.
Lemma nth_error_firstn_lt {A} (l : list A) : forall n k, (k < n)%nat -> nth_error (firstn n l) k = nth_error l k.
Proof. induction l as [|x l IH]; intros [|n] [|k] L; cbn; try reflexivity; try lia. apply IH. lia. Qed.
Lemma scripts_inserted (B : Type) (S : soft B) d d' : 0 < cur S -> insert_back_migrations S d = (MTrue, d') ->
  forall k s, 1 <= k <= cur S -> nth_error (rolls S) (Z.to_nat k) = Some (Some s) -> exists t, v_back d' = Some t /\ zget k t = Some s.
Proof.
  unfold insert_back_migrations. intros P H k s K N. destruct (rolls S) as [|r0 l] eqn:R; [destruct (Z.to_nat k); discriminate|].
  replace (Z.to_nat k) with (Datatypes.S (Z.to_nat (k - 1))) in N by lia. cbn [nth_error] in N.
  assert (F : nth_error (firstn (Z.to_nat (cur S)) l) (Z.to_nat (k - 1)) = Some (Some s)) by (rewrite nth_error_firstn_lt; [exact N|lia]).
  destruct (_ <? _); [discriminate|]. destruct (v_back d) as [t|].
  - injection H as <-. eexists. split; [reflexivity|]. rewrite zget_insert, F.
    assert (Q : (Z.to_nat (k - 1) < List.length (firstn (Z.to_nat (cur S)) l))%nat) by (apply nth_error_Some; congruence).
    replace (1 <=? k) with true by (symmetry; apply Z.leb_le; lia). replace (k <? _) with true by (symmetry; apply Z.ltb_lt; lia). reflexivity.
  - exfalso. destruct (existsb _ _) eqn:X; [discriminate|]. apply nth_error_In in F.
    assert (Y : existsb (fun o : option (script B) => match o with Some _ => true | None => false end) (firstn (Z.to_nat (cur S)) l) = true) by (apply existsb_exists; eauto). congruence.
Qed.
Theorem C46_scripts_stored_partial : forall (B : Type) (S : soft B) commit d d',
  well_numbered S -> get_version d < cur S -> 0 <= get_version d \/ v_tables d = false -> open_db S false commit d = (true, d') -> at_version d' (cur S) ->
  forall k s, 1 <= k <= cur S -> nth_error (rolls S) (Z.to_nat k) = Some (Some s) -> exists t, v_back d' = Some t /\ zget k t = Some s.
Proof.
  intros B S c d d' (W0 & W1 & _) L V H A. unfold open_db, db_migrate in H. set (v := get_version d) in *.
  assert (V' : 0 <= v \/ v = -1) by (destruct V as [V|V]; [auto|right; unfold v, get_version; now rewrite V]).
  destruct (Z.eqb_spec v (-2)) as [E|_]; [lia|]. destruct (Z.eqb_spec v (cur S)) as [E|_]; [lia|]. destruct (Z.eqb_spec v (-1)) as [E|_].
  - destruct (exec (schema S) d) as [d1|]; [|discriminate]. destruct (insert_back_migrations S d1) as [o d2] eqn:I. destruct o; [destruct c|..]; try discriminate.
    injection H as <-. exact (scripts_inserted _ _ _ _ W0 I).
  - destruct (Z.ltb_spec (cur S) v) as [E|_]; [lia|].
    assert (U : forall o e, migrate_forward S c v d = (o, e) -> at_version e (cur S) -> exists d1, insert_back_migrations S d1 = (MTrue, e)).
    { intros o e F Ae. unfold migrate_forward in F. assert (N : e <> d) by (intros ->; unfold v, get_version in *; destruct Ae as [A1 A2]; rewrite A1, A2 in *; lia).
      destruct (forward_loop S _ v d) as [o1 d1]. destruct o1; try (injection F as <- <-; congruence).
      destruct (insert_back_migrations S d1) as [o2 d2] eqn:I. destruct o2; try (injection F as <- <-; congruence). destruct c; injection F as <- <-; [eauto|congruence]. }
    destruct (migrate_forward S c v d) as [o e] eqn:F.
    assert (Q : d' = e) by (destruct o; cbn in H; congruence). subst e. destruct (U _ _ eq_refl A) as (d1 & I). exact (scripts_inserted _ _ _ _ W0 I).
Qed.
Example C46_scripts_case : exists t s, v_back (snd (open_db (software 25) false true {| v_tables := true; v_ver := Some 12; v_back := None; v_rest := aba |})) = Some t /\ zget 20 t = Some s /\ sc_to s = 19.
Proof. eexists. eexists. vm_compute. auto. Qed.

(** A new database is at the expected version or the failure is reported and nothing is written. *)
Theorem C46_new_database_partial : forall (B : Type) (S : soft B) ro commit d,
  well_numbered S -> v_tables d = false ->
  match open_db S ro commit d with (true, d') => at_version d' (cur S) | (false, d') => d' = d end.
Proof.
  intros B S ro c d (W0 & W1 & _) T. unfold open_db, db_migrate, get_version. rewrite T.
  change (-1 =? -2) with false. cbv iota. destruct (Z.eqb_spec (-1) (cur S)) as [E|_]; [lia|].
  destruct ro; [reflexivity|]. change (-1 =? -1) with true. cbv iota.
  destruct (exec (schema S) d) as [d1|] eqn:X; [|reflexivity].
  destruct (exec_at _ _ _ X) as [V1 V2]. destruct (insert_back_migrations S d1) as [o d2] eqn:I.
  apply insert_back_same in I. destruct I as (I1 & I2 & _). destruct o; [destruct c|..]; try reflexivity.
  split; congruence.
Qed.

(** A database without a readable version, or one of another version opened for reading only, is refused and not touched. *)
Theorem C46_refused_partial : forall (B : Type) (S : soft B) ro commit d,
  0 < cur S -> (v_tables d = true /\ v_ver d = None) \/ (ro = true /\ get_version d <> cur S) -> open_db S ro commit d = (false, d).
Proof.
  intros B S ro c d P [[T V]|[E N]]; unfold open_db, db_migrate.
  - unfold get_version. rewrite T, V. reflexivity.
  - subst ro. destruct (_ =? -2); [reflexivity|]. destruct (Z.eqb_spec (get_version d) (cur S)); [contradiction|]. reflexivity.
Qed.

(** A rollback: the result and every state a crash leaves are at a version between the stored and the expected one, reached by the stored scripts in order. *)
Theorem C46_rollback_partial : forall (B : Type) (S : soft B) commit d r d' log v,
  0 < cur S -> at_version d v -> cur S < v -> stored_numbered d -> db_migrate S false commit d = (r, d', log) ->
  (exists w, cur S <= w <= v /\ downgrade v d w d' /\ at_version d' w) /\ (forall e, In e log -> exists w, cur S <= w <= v /\ at_version e w).
Proof.
  intros B S c d r d' log v P A L N H. unfold db_migrate in H.
  assert (G : get_version d = v) by (unfold get_version; destruct A as [-> ->]; reflexivity). rewrite G in H. clear G.
  destruct (Z.eqb_spec v (-2)) as [E|_]; [lia|]. destruct (Z.eqb_spec v (cur S)) as [E|_]; [lia|].
  destruct (Z.eqb_spec v (-1)) as [E|_]; [lia|]. destruct (Z.ltb_spec (cur S) v) as [_|E]; [|lia].
  unfold migrate_backward in H. destruct (backward_loop _ v d [d]) as [[o d1] l1] eqn:F.
  assert (Q : d' = d1 /\ log = l1) by (destruct o; inversion H; auto). destruct Q; subst.
  split.
  - destruct (backward_downgrade _ _ _ _ _ _ _ F) as (w & W & D & _). exists w. split; [lia|]. split; auto. eapply downgrade_at; eauto.
  - destruct (backward_log _ _ _ _ _ _ _ F N) as (more & E & M). subst l1. intros e [Ie|I]; [subst e; exists v; split; [lia|auto]|].
    rewrite Forall_forall in M. destruct (M e I) as (w & W & V). exists w. split; [lia|auto].
Qed.

(** If the stored scripts work down to the expected version, the rollback reaches it. If it is interrupted anywhere, the next start
    completes it with the same content. *)
Theorem C46_rollback_resumes_partial : forall (B : Type) (S : soft B) d u v,
  0 < cur S -> at_version d v -> cur S < v -> stored_numbered d -> downgrade v d (cur S) u -> v_back u <> None ->
  open_db S false true d = (true, u) /\ at_version u (cur S) /\
  (forall e, In e (snd (db_migrate S false true d)) -> exists u', open_db S false true e = (true, u') /\ same_content u' u).
Proof.
  intros B S d u v P A L N D K.
  assert (G : forall e w, at_version e w -> cur S <= w -> forall u0, downgrade w e (cur S) u0 -> v_back u0 <> None ->
     open_db S false true e = (true, u0)).
  { intros e w Ae Lw u0 D0 K0. unfold open_db, db_migrate.
    assert (Ge : get_version e = w) by (unfold get_version; destruct Ae as [-> ->]; reflexivity). rewrite Ge.
    destruct (Z.eqb_spec w (-2)) as [E|_]; [lia|]. destruct (Z.eqb_spec w (cur S)) as [E|Nw].
    - subst w. inversion D0; subst; [reflexivity|lia].
    - destruct (Z.eqb_spec w (-1)) as [E|_]; [lia|]. destruct (Z.ltb_spec (cur S) w) as [_|E]; [|lia].
      unfold migrate_backward. destruct (downgrade_backward _ _ _ _ D0 K0 [e]) as (l & F). rewrite F. reflexivity. }
  split; [apply (G d v); auto; lia|]. split; [eapply downgrade_at; eauto|].
  intros e I. unfold db_migrate in I.
  assert (Gv : get_version d = v) by (unfold get_version; destruct A as [-> ->]; reflexivity). rewrite Gv in I.
  destruct (Z.eqb_spec v (-2)) as [E|_]; [lia|]. destruct (Z.eqb_spec v (cur S)) as [E|_]; [lia|].
  destruct (Z.eqb_spec v (-1)) as [E|_]; [lia|]. destruct (Z.ltb_spec (cur S) v) as [_|E]; [|lia].
  unfold migrate_backward in I. destruct (downgrade_backward _ _ _ _ D K [d]) as (l & F). rewrite F in I. cbn [snd] in I.
  destruct (backward_resume _ _ _ _ _ _ F N A) as (more & E & M). subst l.
  replace (v - Z.of_nat (Z.to_nat (v - cur S))) with (cur S) in M by lia.
  destruct I as [<-|I].
  - exists u. split; [apply (G d v); auto; lia|]. repeat split; reflexivity.
  - rewrite Forall_forall in M. destruct (M e I) as (w & e' & W & Ae & De & Ag).
    exists e'. split.
    + apply (G e w); auto; [lia|]. destruct Ag as (_ & C & _). destruct (v_back u) as [t|] eqn:T; [|contradiction].
      destruct (C t eq_refl) as (x & X & _). congruence.
    + destruct Ag as ((A1 & A2 & A3) & _ & _). repeat split; congruence.
Qed.

(** Not vacuous: the real scripts take a version 25 database with a simple log to version 19, and a version 12 database to 25. *)
Definition simple : db (list key) := with_log [("ecu", "aa", "A"); ("ecu", "bb", "B")] db25.
Example C46_rollback_example : exists u, downgrade 25 simple 19 u /\ v_back u <> None /\ v_rest u = v_rest simple.
Proof.
  destruct (backward_loop 6 25 simple [simple]) as [[r u] l] eqn:F.
  pose proof (backward_downgrade _ _ _ _ _ _ _ F) as (w & L & D & M).
  assert (R : r = MTrue /\ v_back u <> None /\ v_rest u = v_rest simple) by (vm_compute in F; inversion F; subst; vm_compute; split; [reflexivity|split; [discriminate|reflexivity]]).
  destruct R as (R1 & R2 & R3). specialize (M R1). cbn in M. subst w. exists u. auto.
Qed.
Definition db12 : db (list key) := {| v_tables := true; v_ver := Some 12; v_back := None; v_rest := aba |}.
Example C46_upgrade_example : exists u, upgrade (software 25) 12 db12 u /\ can_store (software 25) u.
Proof.
  destruct (forward_loop (software 25) 13 12 db12) as [r u] eqn:F.
  assert (R : r = MTrue /\ v_back u <> None) by (vm_compute in F; inversion F; subst; split; [reflexivity|discriminate]).
  destruct R as (-> & R). exists u. split; [apply (forward_loop_upgrade _ _ _ _ _ F); reflexivity|].
  right. split; [vm_compute; discriminate|exact R].
Qed.
Example C46_new_example : open_db (software 25) false true blank = (true, snd (open_db (software 25) false true blank)) /\
  v_ver (snd (open_db (software 25) false true blank)) = Some 25.
Proof. vm_compute. auto. Qed.

Print Assumptions C46_refuted.
Print Assumptions C46_failed_upgrade_refuted.
Print Assumptions C46_upgrade_atomic_partial.
Print Assumptions C46_upgrade_works_partial.
Print Assumptions C46_scripts_stored_partial.
Print Assumptions C46_new_database_partial.
Print Assumptions C46_refused_partial.
Print Assumptions C46_rollback_partial.
Print Assumptions C46_rollback_resumes_partial.
