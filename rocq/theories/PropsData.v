(** C95, C96: device data. *)
From Verif Require Import Base TufModel DataModel DataSpec DataProofs.

(** C95 After a call of SendDeviceData that came to its end and whose uploads were all confirmed, the server holds the device's current
    data (or a text with the same hash), whatever happened before. *)
Definition C95_statement : Prop :=
  forall sha, (forall x, sha x <> "") -> forall h f w,
  Forall (fun o => honest (fates o)) h -> honest w -> (forall k, f_ok (w k) = true /\ f_dies (w k) = false) ->
  let s := run sha h dst0 in
  let (s', out) := step sha (OSend f w) s in
  out = Go -> forall k b, wanted f (d_sent s) k = Some b -> exists c, held k (d_sent s') = Some c /\ same sha c b.

Definition f0 (net : string) : facts :=
  {| fc_custom := None; fc_lshw := Some "hw"; fc_packages := Some "pk"; fc_network := Some net; fc_config := "cf"; fc_report_network := true; fc_report_config := true |}.
Definition good : kind -> fate := fun _ => {| f_taken := true; f_ok := true; f_dies := false |}.
Definition lost : kind -> fate := fun _ => {| f_taken := true; f_ok := false; f_dies := false |}.
Definition killed : kind -> fate := fun k => match k with KNetwork => {| f_taken := true; f_ok := true; f_dies := true |} | _ => good k end.

(** The device moves from network A to B, the confirmation of B gets lost, it moves back to A: nobody tells the server. *)
Theorem C95_refuted : ~ C95_statement.
Proof.
  intros H. specialize (H (fun x => append "h" x) ltac:(discriminate) [OSend (f0 "A") good; OSend (f0 "B") lost] (f0 "A") good).
  specialize (H ltac:(repeat constructor; intros k; cbn; congruence) ltac:(intros k; auto) ltac:(intros k; split; reflexivity)).
  cbv zeta in H. destruct (H eq_refl KNetwork "A" eq_refl) as (c & E & S). vm_compute in E. injection E as <-. vm_compute in S. discriminate.
Qed.
Print Assumptions C95_refuted.

(** If every upload that the server took was confirmed to a client that lived to note it. *)
Theorem C95_partial :
  forall sha, (forall x, sha x <> "") -> forall h f w,
  Forall (fun o => honest (fates o) /\ noted (fates o)) h -> honest w -> (forall k, f_ok (w k) = true /\ f_dies (w k) = false) ->
  let s := run sha h dst0 in
  let (s', out) := step sha (OSend f w) s in
  out = Go -> forall k b, wanted f (d_sent s) k = Some b -> exists c, held k (d_sent s') = Some c /\ same sha c b.
Proof.
  intros sha Hs h f w Hh Hw Hok s. pose proof (run_ok sha Hs h dst0 (tab_ok0 sha)) as T. fold s in T.
  set (p := fun x => f_ok x = true /\ f_dies x = false -> f_taken x = true).
  assert (N : Forall (fun u => f_taken (u_fate u) = true -> f_ok (u_fate u) = true /\ f_dies (u_fate u) = false) (d_sent s)).
  { apply (run_all_up sha Hs (fun x => f_taken x = true -> f_ok x = true /\ f_dies x = false) h); [|apply tab_ok0|constructor].
    eapply Forall_impl; [|exact Hh]. intros o (_ & Q) k. apply Q. }
  assert (N2 : Forall (fun u => f_ok (u_fate u) = true -> f_taken (u_fate u) = true) (d_sent s)).
  { apply (run_all_up sha Hs (fun x => f_ok x = true -> f_taken x = true) h); [|apply tab_ok0|constructor].
    eapply Forall_impl; [|exact Hh]. intros o (Q & _) k. apply Q. }
  assert (HA : forall k, held k (d_sent s) = acked k (d_sent s)).
  { intros k. apply noted_held. rewrite Forall_forall in *. intros u Hu. specialize (N u Hu). specialize (N2 u Hu). tauto. }
  pose proof (step_done sha Hs (OSend f w) s T) as H. destruct (step sha (OSend f w) s) as [s' out].
  destruct H as ((new & A & B & C & D & _ & _) & _). intros G k b W. cbn [wanted_by fates] in D.
  destruct (known sha (d_sent s) k b) eqn:K.
  - apply known_spec in K. destruct K as (a & Ka & Sm). exists a. split; [|exact Sm]. rewrite A. unfold held. rewrite newest_none; [rewrite <- Ka; apply HA|].
    intros u Hu Q. subst k. destruct (B u Hu) as (Wu & _ & Kn). cbn [wanted_by] in Wu. rewrite W in Wu. injection Wu as ->.
    assert (known sha (d_sent s) (u_kind u) (u_body u) = true) by (apply known_spec; eauto). congruence.
  - exists b. split; [|reflexivity]. rewrite A. eapply newest_unique; [exact C|apply (D G k b W K)|apply Hw, Hok].
Qed.
Print Assumptions C95_partial.

(** Whatever got lost before: data that the server never took before gets there. *)
Theorem C95_new_partial :
  forall sha, (forall x, sha x <> "") -> forall h f w,
  Forall (fun o => honest (fates o)) h -> honest w -> (forall k, f_ok (w k) = true /\ f_dies (w k) = false) ->
  let s := run sha h dst0 in
  let (s', out) := step sha (OSend f w) s in
  out = Go -> forall k b, wanted f (d_sent s) k = Some b ->
  (forall c x, In (k, c, x) (d_sent s) -> f_taken x = true -> ~ same sha c b) -> held k (d_sent s') = Some b.
Proof.
  intros sha Hs h f w Hh Hw Hok s. pose proof (run_ok sha Hs h dst0 (tab_ok0 sha)) as T. fold s in T.
  assert (N2 : Forall (fun u => f_ok (u_fate u) = true -> f_taken (u_fate u) = true) (d_sent s)).
  { apply (run_all_up sha Hs (fun x => f_ok x = true -> f_taken x = true) h); [|apply tab_ok0|constructor].
    eapply Forall_impl; [|exact Hh]. intros o Q k. apply Q. }
  pose proof (step_done sha Hs (OSend f w) s T) as H. destruct (step sha (OSend f w) s) as [s' out].
  destruct H as ((new & A & B & C & D & _ & _) & _). intros G k b W New. cbn [wanted_by fates] in D.
  assert (K : known sha (d_sent s) k b = false).
  { apply known_false. intros a Ka. unfold acked in Ka. apply newest_in in Ka. destruct Ka as (x & I & Px). apply (New a x I).
    rewrite Forall_forall in N2. apply (N2 _ I). cbn [u_fate snd]. apply andb_true_iff in Px. apply Px. }
  rewrite A. eapply newest_unique; [exact C|apply (D G k b W K)|apply Hw, Hok].
Qed.
Print Assumptions C95_new_partial.

Example C95_case :
  let s := run (fun x => append "h" x) [OSend (f0 "A") good; OSend (f0 "B") good; OCheck (f0 "A") good] dst0 in
  let (s', out) := step (fun x => append "h" x) (OSend (f0 "B") good) s in
  out = Go /\ wanted (f0 "B") (d_sent s) KNetwork = Some "B" /\ held KNetwork (d_sent s) = Some "A" /\ held KNetwork (d_sent s') = Some "B" /\ List.length (d_sent s') = 7%nat.
Proof. vm_compute. repeat split. Qed.
(** Confirmations lost and a crash before, and yet new data arrives. *)
Example C95_new_case :
  let s := run (fun x => append "h" x) [OSend (f0 "A") good; OSend (f0 "B") lost; OSend (f0 "B") killed] dst0 in
  let (s', out) := step (fun x => append "h" x) (OSend (f0 "D") good) s in
  out = Go /\ wanted (f0 "D") (d_sent s) KNetwork = Some "D" /\ acked KNetwork (d_sent s) = Some "A" /\ held KNetwork (d_sent s) = Some "B" /\ held KNetwork (d_sent s') = Some "D".
Proof. vm_compute. repeat split. Qed.

(** C96 In every history each call uploads exactly what it has to make known and is not yet confirmed: nothing that equals the last
    confirmed upload of its sort, at most one upload per sort, nothing whose report is switched off; an upload that was not
    confirmed is repeated by the next call. A call that does not come to its end died after an upload or could not list the packages. *)
Theorem C96_exact :
  forall sha, (forall x, sha x <> "") -> forall h o,
  let s := run sha h dst0 in
  let (s', out) := step sha o s in
  (exists new, d_sent s' = new ++ d_sent s /\
    (forall u, In u new -> wanted_by o (d_sent s) (u_kind u) = Some (u_body u) /\ u_fate u = fates o (u_kind u) /\
                           forall a, acked (u_kind u) (d_sent s) = Some a -> ~ same sha a (u_body u)) /\
    NoDup (map u_kind new) /\
    (out = Go -> forall k b, wanted_by o (d_sent s) k = Some b -> (forall a, acked k (d_sent s) = Some a -> ~ same sha a b) -> In (k, b, fates o k) new) /\
    (out = Dead -> exists u, In u new /\ f_dies (u_fate u) = true) /\
    (out = Go -> forall u, In u new -> f_dies (u_fate u) = false)) /\
  (out = Thrown -> exists f w, o = OSend f w /\ fc_packages f = None).
Proof.
  intros sha Hs h o s. pose proof (run_ok sha Hs h dst0 (tab_ok0 sha)) as T. fold s in T.
  pose proof (step_done sha Hs o s T) as H. destruct (step sha o s) as [s' out]. destruct H as ((new & A & B & C & D & E & F) & G). split; [|exact G].
  exists new. split; [exact A|]. split; [|split; [exact C|split; [|auto]]].
  - intros u Hu. destruct (B u Hu) as (B1 & B2 & B3). split; [exact B1|]. split; [exact B2|]. apply known_false; auto.
  - intros Go' k b W N. apply D; auto. apply known_false; auto.
Qed.
Print Assumptions C96_exact.

(** The switches of the configuration: nothing about the network (the configuration) leaves the device while they are off. *)
Definition facts_of (o : op) : facts := match o with OSend f _ | OCheck f _ => f end.
Theorem C96_telemetry :
  forall sha, (forall x, sha x <> "") -> forall h,
  (Forall (fun o => fc_report_network (facts_of o) = false) h -> forall u, In u (d_sent (run sha h dst0)) -> u_kind u <> KNetwork) /\
  (Forall (fun o => fc_report_config (facts_of o) = false) h -> forall u, In u (d_sent (run sha h dst0)) -> u_kind u <> KConfig).
Proof.
  intros sha Hs.
  assert (G : forall (p : op -> Prop) (k : kind), (forall o l, p o -> wanted_by o l k = None) -> forall h, Forall p h -> forall s, tab_ok sha s ->
    (forall u, In u (d_sent s) -> u_kind u <> k) -> forall u, In u (d_sent (run sha h s)) -> u_kind u <> k).
  { intros p k Hp h. induction 1 as [|o h Po _ IH]; intros s T I; [exact I|]. change (run sha (o :: h) s) with (run sha h (fst (step sha o s))). apply IH.
    - apply step_ok; auto.
    - pose proof (step_done sha Hs o s T) as H. destruct (step sha o s) as [s' out]. destruct H as ((new & A & B & _) & _). cbn [fst]. rewrite A. intros u Hu.
      apply in_app_or in Hu. destruct Hu as [Hu|Hu]; [|auto]. intros Q. destruct (B u Hu) as (W & _). rewrite Q, (Hp o _ Po) in W. discriminate. }
  intros h. split; intros Hh.
  - apply (G (fun o => fc_report_network (facts_of o) = false) KNetwork); [intros [f w|f w] l Q; cbn in *; rewrite Q; reflexivity|exact Hh|apply tab_ok0|intros u []].
  - apply (G (fun o => fc_report_config (facts_of o) = false) KConfig); [intros [f w|f w] l Q; cbn in *; [rewrite Q|]; reflexivity|exact Hh|apply tab_ok0|intros u []].
Qed.
Print Assumptions C96_telemetry.

Example C96_case :
  let off n := {| fc_custom := Some "my"; fc_lshw := None; fc_packages := Some "pk"; fc_network := Some n; fc_config := "cf"; fc_report_network := false; fc_report_config := true |} in
  map (fun u => (u_kind u, u_body u)) (d_sent (run (fun x => append "h" x) [OSend (off "A") good; OCheck (off "A") good; OSend (off "B") good] dst0)) = [(KConfig, "cf"); (KPackages, "pk"); (KHardware, "my")] /\
  map (fun u => (u_kind u, u_body u)) (d_sent (run (fun x => append "h" x) [OSend (f0 "A") lost; OSend (f0 "A") killed; OCheck (f0 "A") good; OSend (f0 "A") good] dst0)) =
    [(KConfig, "cf"); (KNetwork, "A"); (KNetwork, "A"); (KPackages, "pk"); (KHardware, "hw"); (KConfig, "cf"); (KNetwork, "A"); (KPackages, "pk"); (KHardware, "hw")].
Proof. vm_compute. split; reflexivity. Qed.
