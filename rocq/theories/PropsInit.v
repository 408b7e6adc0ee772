(** C41: provisioning. *)
From Verif Require Import Base InitModel InitSpec InitProofs InitProofs2.

(** A device on which nothing is stored; its possible names are not known to the server. [tls]: credentials that came with the device. *)
Definition fresh_start (names : nat -> string) (c : pconf) (tls : option string) (dev ecu : list string) : Prop :=
  match g_mode c with Shared => tls = None | DeviceCred => tls <> None end /\
  (g_id c <> "" -> ~ In (g_id c) dev /\ ~ In (g_id c) ecu) /\ (forall cn, tls = Some cn -> ~ In cn ecu) /\
  (forall i, ~ In (names i) dev /\ ~ In (names i) ecu) /\ (forall i j, names i = names j -> i = j).

(** The full claim: whatever happened, repeating initialisation with the server reachable completes, with the device
    id that was stored, and records the registration. *)
Definition C41_statement : Prop :=
  forall names newkey strict c tls dev ecu ops, fresh_start names c tls dev ecu ->
  let s := irun names newkey strict c (blank tls dev ecu) ops in
  exists m, let s' := irun names newkey strict c s (repeat (complete online) m) in
    p_status s' = Done /\ n_reg s' = true /\ forall id, n_id s = Some id -> n_id s' = Some id.

Definition toy_names (i : nat) : string := append "name" (String.concat "" (repeat "i" i)).
Lemma toy_names_len i : String.length (toy_names i) = (4 + i)%nat.
Proof.
  unfold toy_names. cbn [append String.length]. do 4 f_equal. induction i as [|i IH]; [reflexivity|].
  destruct i as [|i]; [reflexivity|]. change (String.concat "" (repeat "i" (S (S i)))) with (append "i" (append "" (String.concat "" (repeat "i" (S i))))).
  cbn [append String.length]. now rewrite IH.
Qed.
Lemma toy_names_inj i j : toy_names i = toy_names j -> i = j.
Proof. intros H. apply (f_equal String.length) in H. rewrite !toy_names_len in H. lia. Qed.
Definition conf1 (id : string) : pconf := {| g_mode := Shared; g_id := id; g_serial := ""; g_hw := "hw"; g_secs := [("sec1", "hw2")] |}.
Lemma fresh1 id : fresh_start toy_names (conf1 id) None [] [].
Proof. repeat split; cbn; auto; try discriminate. apply toy_names_inj. Qed.
Definition crash_at (k : nat) : iop := {| i_crash := k; i_net := online |}.

Lemma fixed names newkey strict c s o : initialise names newkey strict c s o = s -> forall m, irun names newkey strict c s (repeat o m) = s.
Proof. intros E. induction m as [|m IH]; [reflexivity|]. cbn [repeat]. unfold irun in *. cbn [fold_left]. now rewrite E. Qed.
Lemma stuck names newkey strict c s o m : initialise names newkey strict c (initialise names newkey strict c s o) o = initialise names newkey strict c s o ->
  irun names newkey strict c s (repeat o (S m)) = initialise names newkey strict c s o.
Proof. intros E. exact (fixed names newkey strict c _ o E m). Qed.
Lemma irun_0 names newkey strict c s o : irun names newkey strict c s (repeat o 0) = s.
Proof. reflexivity. Qed.

(** A configured device id is registered, but the power fails before the credentials are stored: initialisation never completes. *)
Theorem C41_refuted : ~ C41_statement.
Proof.
  intros H. destruct (H toy_names "key" false (conf1 "dev") None [] [] [crash_at 2] (fresh1 "dev")) as [m [D _]]. clear H.
  destruct m as [|m].
  - rewrite irun_0 in D. vm_compute in D. discriminate.
  - rewrite stuck in D by (vm_compute; reflexivity). vm_compute in D. discriminate.
Qed.
Print Assumptions C41_refuted.

(** The same, when the power fails after the server registered the ECUs of the device, with a server that does not register them twice. *)
Theorem C41_ecus_refuted : exists ops, forall m,
  p_status (irun toy_names "key" true (conf1 "") (irun toy_names "key" true (conf1 "") (blank None [] []) ops) (repeat (complete online) m)) <> Done.
Proof.
  exists [crash_at 17]. intros [|m].
  - rewrite irun_0. vm_compute. discriminate.
  - rewrite stuck by (vm_compute; reflexivity). vm_compute. discriminate.
Qed.
Print Assumptions C41_ecus_refuted.

(** When the power fails right after the serials are stored, initialisation completes, but the device is never recorded as registered. *)
Theorem C41_flag_refuted : exists ops, forall m s,
  s = irun toy_names "key" true (conf1 "") (irun toy_names "key" true (conf1 "") (blank None [] []) ops) (repeat (complete online) (S m)) ->
  p_status s = Done /\ n_reg s = false.
Proof. exists [crash_at 18]. intros m s. rewrite stuck by (vm_compute; reflexivity). intros ->. vm_compute. now split. Qed.
Print Assumptions C41_flag_refuted.

(** When the power fails before the credentials of a device with a generated name are stored, it is registered again under another name. *)
Theorem C41_rename_refuted : exists ops id id',
  let s := irun toy_names "key" true (conf1 "") (blank None [] []) ops in
  let s' := irun toy_names "key" true (conf1 "") s [complete online] in
  n_id s = Some id /\ p_status s' = Done /\ n_id s' = Some id' /\ id' <> id /\ s_dev s' = [id'; id].
Proof. exists [crash_at 2], "name", "namei". vm_compute. repeat split; try reflexivity. discriminate. Qed.
Print Assumptions C41_rename_refuted.

(** Without such a crash, and without answers lost, the claim holds. *)
Theorem C41_resume_partial : forall names newkey strict c tls dev ecu ops, fresh_start names c tls dev ecu -> Forall harmless ops ->
  let s := irun names newkey strict c (blank tls dev ecu) ops in
  let s' := irun names newkey strict c s [complete online] in
  p_status s' = Done /\ provisioned c s' /\ n_reg s' = true /\ forall id, n_id s = Some id -> n_id s' = Some id.
Proof.
  intros names newkey strict c tls dev ecu ops [M [G [C [N J]]]] H s s'.
  assert (HQ : Q names c s) by (apply Q_irun; [exact J|exact H|now apply Q_blank]).
  destruct (progress names newkey strict c J s HQ) as [D [P R]]. split; [exact D|]. split; [exact P|]. split; [exact R|].
  intros id E. apply (QI_irun names newkey strict c J id [complete online] s); [|now split].
  constructor; [|constructor]. split; [cbn; intuition discriminate|intros i; discriminate].
Qed.
Print Assumptions C41_resume_partial.
(** The history: no network, then a crash after the credentials are stored, then one while registering. *)
Example C41_resume_met : exists ops, Forall harmless ops /\ List.length ops = 3%nat /\ fresh_start toy_names (conf1 "") None [] [] /\
  n_id (irun toy_names "key" true (conf1 "") (blank None [] []) ops) = Some "name" /\ n_ecus (irun toy_names "key" true (conf1 "") (blank None [] []) ops) = [].
Proof.
  exists [{| i_crash := 22; i_net := fun _ => NDown |}; crash_at 3; crash_at 16]. split.
  - repeat (apply Forall_cons; [split; [cbn; intuition discriminate|intros i; discriminate]|]). apply Forall_nil.
  - split; [reflexivity|]. split; [apply fresh1|]. vm_compute. now split.
Qed.

(** Whatever the crashes and answers: once initialisation has completed, everything is in place, and another one changes nothing, sends nothing and completes. *)
Theorem C41_idempotent : forall names newkey strict c tls dev ecu ops o o', (g_mode c = Shared -> tls = None) ->
  let s := irun names newkey strict c (blank tls dev ecu) ops in
  let s1 := initialise names newkey strict c s o in
  let s2 := initialise names newkey strict c s1 o' in
  p_status s1 = Done ->
  provisioned c s1 /\ store_of s2 = store_of s1 /\ server_of s2 = server_of s1 /\ ((22 <= i_crash o')%nat -> p_status s2 = Done).
Proof.
  intros names newkey strict c tls dev ecu ops o o' M s s1 s2 D.
  assert (I : Inv c s) by (apply Inv_irun; now apply Inv_blank).
  assert (P : provisioned c s1) by (now apply done_provisioned). split; [exact P|]. now apply settled_initialise.
Qed.
Print Assumptions C41_idempotent.
(** The ECUs recorded then are those of the configuration: the Primary, under the configured serial or, without one, under the id of its
    key, and the configured Secondaries; no others. *)
Theorem C41_serials : forall names newkey strict c tls dev ecu ops o, (g_mode c = Shared -> tls = None) ->
  let s1 := initialise names newkey strict c (irun names newkey strict c (blank tls dev ecu) ops) o in
  p_status s1 = Done ->
  exists key, n_key s1 = Some key /\
    forall ser hw, In (ser, hw) (n_ecus s1) <->
      (hw = g_hw c /\ ser = match g_serial c with EmptyString => key | _ => g_serial c end) \/ In (ser, hw) (g_secs c).
Proof.
  intros names newkey strict c tls dev ecu ops o M s1 D.
  assert (I : Inv c (irun names newkey strict c (blank tls dev ecu) ops)) by (apply Inv_irun; now apply Inv_blank).
  assert (P : provisioned c s1) by (now apply done_provisioned). destruct P as (id & cn & key & _ & _ & K & _ & E & _).
  exists key. split; [exact K|]. intros ser hw. unfold same_ecus in E. apply andb_true_iff in E. rewrite !forallb_forall in E. destruct E as [E1 E2].
  assert (PI : forall x l, pair_in x l = true <-> In x l).
  { intros (a, b) l. unfold pair_in. rewrite existsb_exists. split.
    - intros ((a', b') & X & Y). cbn in Y. apply andb_true_iff in Y. destruct Y as [Y1 Y2]. apply String.eqb_eq in Y1, Y2. now subst.
    - intros X. exists (a, b). split; auto. cbn. now rewrite !String.eqb_refl. }
  assert (Q : In (ser, hw) (n_ecus s1) <-> In (ser, hw) (new_serials c key)) by (split; intros X; [apply E2 in X|apply E1 in X]; now apply PI in X).
  rewrite Q. unfold new_serials. cbn [In]. destruct (String.eqb_spec (g_serial c) "") as [Z|Z].
  - rewrite Z. split; intros [X|X]; auto; [injection X as <- <-; auto|destruct X as [-> ->]; auto].
  - assert (Y : match g_serial c with EmptyString => key | _ => g_serial c end = g_serial c) by (destruct (g_serial c); congruence). rewrite Y.
    split; intros [X|X]; auto; [injection X as <- <-; auto|destruct X as [-> ->]; auto].
Qed.
Print Assumptions C41_serials.
Example C41_serials_case : exists s, s = irun toy_names "key" true (conf1 "") (blank None [] []) [complete online] /\ p_status s = Done /\ exists hw, In ("key", hw) (n_ecus s).
Proof. eexists. split; [reflexivity|]. split; [vm_compute; reflexivity|]. eexists. vm_compute. left. reflexivity. Qed.

(** Whatever the crashes and answers: stored credentials, the device id that goes with them, the Uptane key and the ECU serials are never replaced. *)
Theorem C41_identity : forall names newkey strict c tls dev ecu ops ops', (g_mode c = Shared -> tls = None) ->
  let s := irun names newkey strict c (blank tls dev ecu) ops in
  let s' := irun names newkey strict c s ops' in
  (forall t, n_tls s = Some t -> n_tls s' = Some t) /\
  (forall t id, n_tls s = Some t -> n_id s = Some id -> n_id s' = Some id) /\
  (forall k, n_key s = Some k -> n_key s' = Some k) /\
  (n_ecus s <> [] -> n_ecus s' = n_ecus s) /\
  (g_mode c = Shared -> forall t, n_tls s = Some t -> n_id s = Some t).
Proof.
  intros names newkey strict c tls dev ecu ops ops' M s s'.
  assert (I : Inv c s) by (apply Inv_irun; now apply Inv_blank).
  destruct (kept_irun names newkey strict c ops' s I) as [A B C D]. repeat split; auto.
  - intros t id X Y. now apply (B id t).
  - intros Sh t X. now apply (v_cn c s I Sh).
Qed.
Print Assumptions C41_identity.
Example C41_identity_met : let s := irun toy_names "key" true (conf1 "") (blank None [] []) [crash_at 2; crash_at 18] in
  n_tls s = Some "namei" /\ n_id s = Some "namei" /\ n_key s = Some "key" /\ n_ecus s = [("key", "hw"); ("sec1", "hw2")].
Proof. vm_compute. now repeat split. Qed.
