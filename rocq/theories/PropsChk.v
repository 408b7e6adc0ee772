(** The update check finds exactly what is new, and when it succeeds (C85, C86); the number of ECUs it announces (C54). *)
From Verif Require Import Base Json TufModel TufSpec MetaStore RepoModel RepoSpec Toy ClientModel ClientSpec
  ClientProofs2 PropsClient ChkSpec ChkProofs.

(** ** C85: nothing new is passed over, nothing old is offered *)
Theorem C85_found E fnm srv clkd clki now v s s' l n :
  check_updates E fnm srv clkd clki now v s = (s', Ok (UcUpdates l n)) -> installed_readable v ->
  l <> [] /\ exists l0, selected (wanted v) (tg_targets (u_dtargets s')) l0 /\ Forall2 but_uri l0 l.
Proof. exact (check_updates_exact E fnm srv clkd clki now v s s' l n). Qed.
Print Assumptions C85_found.
Theorem C85_nothing E fnm srv clkd clki now v s s' :
  check_updates E fnm srv clkd clki now v s = (s', Ok UcNone) -> installed_readable v ->
  forall t, In t (tg_targets (u_dtargets s')) -> ~ wanted v t.
Proof. exact (check_updates_none E fnm srv clkd clki now v s s'). Qed.
Print Assumptions C85_nothing.
(** Without that assumption: what is offered is new for one of its ECUs whose installed version can be read. *)
Theorem C85_offered_is_new E fnm srv clkd clki now v s s' l n :
  check_updates E fnm srv clkd clki now v s = (s', Ok (UcUpdates l n)) ->
  forall t', In t' l -> exists t serial hw, In t (tg_targets (u_dtargets s')) /\ but_uri t t' /\ In (serial, hw) (t_ecus t) /\ news_for v t serial.
Proof. exact (check_updates_new E fnm srv clkd clki now v s s' l n). Qed.
Print Assumptions C85_offered_is_new.
Definition img_ok : list (string * string) := [("timestamp", "TSok"); ("snapshot", "SNok"); ("targets", "TGok")].
(** A vehicle both of whose ECUs run what DIR2 assigns. *)
Definition dir2_t : target := ltac:(let x := eval vm_compute in
  (match tg_targets (u_dtargets (fst (director_update DW (serve2 [("targets", "DIR2")] []) now2020 (mem0 db_empty)))) with
   | t :: _ => t | [] => target_blank "" end) in exact x).
Definition vehicle_with (f : string -> option target) : vehicle :=
  {| v_primary := "ecu1"; v_primary_hw := "hw1"; v_secondaries := [("ecu2", "hw1")];
     v_installed := fun s => Ok (Some (f s)); v_ostree := false; v_pending := false |}.
Example C85_case :
  uc_files (snd (check_updates DW eqfnm (serve2 [("targets", "DIR2")] img_ok) now2020 now2020 now1
    (vehicle_with (fun s => if String.eqb s "ecu1" then Some dir2_t else None)) (mem0 db_empty))) = Some (["app"], 1) /\
  snd (check_updates DW eqfnm (serve2 [("targets", "DIR2")] img_ok) now2020 now2020 now1
    (vehicle_with (fun _ => Some dir2_t)) (mem0 db_empty)) = Ok UcNone.
Proof. split; vm_compute; reflexivity. Qed.

(** ** C86: the check succeeds whenever both repositories agree and the assignment fits the vehicle (refuted) *)
Definition C86_statement : Prop :=
  forall E fnm srv clkd clki now v s s1 s2 top raw,
    director_update E srv clkd s = (s1, Ok tt) -> image_update E srv clki s1 = (s2, Ok tt) -> u_itargets s2 = Some top ->
    load_nonroot Director RTargets (u_db s1) = Ok (Some raw) ->
    installed_answers v -> v_ostree v = false ->
    (forall t, In t (tg_targets (u_dtargets s1)) -> fits_vehicle v t /\ listed top t) ->
    exists s' r, check_updates E fnm srv clkd clki now v s = (s', Ok r) /\ r <> UcError.
(** ecu1 runs "app", assigned to it alone; now the Director assigns the same image to ecu1 and ecu2. *)
Definition vehicle_ecu1 : vehicle := vehicle_with (fun s => if String.eqb s "ecu1" then Some q_app else None).
Theorem C86_refuted : ~ C86_statement.
Proof.
  intros H.
  destruct (director_update DW (serve2 [("targets", "DIR2")] img_ok) now2020 (mem0 db_empty)) as (s1, r1) eqn:R1.
  assert (X1 : match director_update DW (serve2 [("targets", "DIR2")] img_ok) now2020 (mem0 db_empty) with (s1, r1) =>
    r1 = Ok tt /\ load_nonroot Director RTargets (u_db s1) = Ok (Some "DIR2") /\ tg_targets (u_dtargets s1) = [dir2_t] end)
    by (vm_compute; auto).
  rewrite R1 in X1. destruct X1 as (-> & L1 & T1).
  destruct (image_update DW (serve2 [("targets", "DIR2")] img_ok) now2020 s1) as (s2, r2) eqn:R2.
  assert (X2 : match image_update DW (serve2 [("targets", "DIR2")] img_ok) now2020
      (fst (director_update DW (serve2 [("targets", "DIR2")] img_ok) now2020 (mem0 db_empty))) with (s2, r2) =>
      r2 = Ok tt /\ match u_itargets s2 with
                    | Some top => existsb (fun i => match_target i dir2_t) (tg_targets top) = true | None => False end end)
    by (vm_compute; auto).
  rewrite R1 in X2. simpl fst in X2. rewrite R2 in X2. destruct X2 as (-> & X2).
  destruct (u_itargets s2) as [top|] eqn:Htop; [|destruct X2].
  destruct (H DW eqfnm (serve2 [("targets", "DIR2")] img_ok) now2020 now2020 now1 vehicle_ecu1 (mem0 db_empty) s1 s2 top "DIR2"
    R1 R2 Htop L1) as (s' & r & Hc & Hr).
  - intros serial. simpl. eauto.
  - reflexivity.
  - intros t Ht. rewrite T1 in Ht. destruct Ht as [<- | []]. split.
    + intros serial hw [Hx | [Hx | []]]; inversion Hx; subst.
      * left. repeat split; discriminate.
      * right. split; [discriminate|reflexivity].
    + apply existsb_exists in X2. destruct X2 as (i & Hi & Hm). exists i. split; [exact Hi|]. now apply TufProofs2.match_target_iff.
  - apply Hr.
    assert (X : snd (check_updates DW eqfnm (serve2 [("targets", "DIR2")] img_ok) now2020 now2020 now1 vehicle_ecu1 (mem0 db_empty))
      = Ok UcError) by (vm_compute; reflexivity).
    rewrite Hc in X. simpl in X. congruence.
Qed.
Print Assumptions C86_refuted.
(** It holds when no ECU runs an image of the same name with another content or another assignment. *)
Theorem C86_partial E fnm srv clkd clki now v s s1 s2 top raw :
  director_update E srv clkd s = (s1, Ok tt) -> image_update E srv clki s1 = (s2, Ok tt) -> u_itargets s2 = Some top ->
  load_nonroot Director RTargets (u_db s1) = Ok (Some raw) ->
  installed_answers v -> v_ostree v = false ->
  (forall t, In t (tg_targets (u_dtargets s1)) -> fits_vehicle v t /\ listed top t /\ no_clash v t) ->
  exists s' r, check_updates E fnm srv clkd clki now v s = (s', Ok r) /\ r <> UcError.
Proof. exact (check_succeeds E fnm srv clkd clki now v s s1 s2 top raw). Qed.
Print Assumptions C86_partial.
(** The vehicle without installed versions meets the additional hypothesis, and the check of [C86_refuted] finds the image. *)
Example C86_case :
  (forall t, no_clash vehicle1 t) /\ no_clash (vehicle_with (fun _ => Some dir2_t)) dir2_t /\ ~ no_clash vehicle_ecu1 dir2_t /\
  uc_files (snd (check_updates DW eqfnm (serve2 [("targets", "DIR2")] img_ok) now2020 now2020 now1 vehicle1 (mem0 db_empty))) = Some (["app"], 2).
Proof.
  split; [|split; [|split; [|vm_compute; reflexivity]]].
  - intros t serial hw c _ Hi. discriminate.
  - intros serial hw c _ Hi _. simpl in Hi. inversion Hi; subst. now apply TufProofs2.match_target_iff.
  - intros H. assert (X : same_target q_app dir2_t) by (apply (H "ecu1" "hw1" q_app); [now left|reflexivity|reflexivity]).
    apply TufProofs2.match_target_iff in X. discriminate.
Qed.

(** ** C54: what does hold of the announced number of ECUs
    It is at least the number of ECUs that do not run their image, at most the number of assignments, and exact if of no
    image some assigned ECUs run it and others do not. *)
Theorem C54_partial v ts l n : get_new_targets v ts [] 0 = Ok (l, n) -> installed_readable v ->
  exists ps, selected (fun p => news_for v (fst p) (snd p)) (assignments ts) ps /\
    Z.of_nat (List.length ps) <= n <= Z.of_nat (List.length (assignments ts)) /\
    ((forall t, In t ts -> (forall e, In e (t_ecus t) -> news_for v t (fst e)) \/ (forall e, In e (t_ecus t) -> ~ news_for v t (fst e))) ->
     n = Z.of_nat (List.length ps)).
Proof. exact (new_targets_count v ts [] 0 l n). Qed.
Print Assumptions C54_partial.
Example C54_partial_case : get_new_targets vehicle1 [t2] [] 0 = Ok ([t2], 2) /\ List.length (assignments [t2]) = 2%nat /\
  forall e, In e (t_ecus t2) -> news_for vehicle1 t2 (fst e).
Proof. split; [vm_compute; reflexivity|]. split; [reflexivity|]. intros e _. exists None. split; [reflexivity|exact Logic.I]. Qed.
