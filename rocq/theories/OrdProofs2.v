(** The update check finds what is wanted if the metadata is in order. *)
From Verif Require Import Base Json TufModel TufSpec TufProofs MetaStore RepoModel RepoSpec RepoProofs RepoProofs2 RepoProofs3 RepoProofs4
  ClientModel ClientSpec ClientProofs ClientProofs2 ChkSpec ChkProofs RechkProofs3 OrdSpec OrdProofs.

(** What is in order for the Image repository is so after the update from the Director. *)
Lemma in_order_after_director E srv clk srv' clkd s s1 l R tm sn t : director_update E srv' clkd s = (s1, Ok tt) ->
  roots_in_order E srv clk Image (u_db s) l R -> image_in_order E srv clk (u_db s) l R tm sn t ->
  roots_in_order E srv clk Image (u_db s1) l R /\ image_in_order E srv clk (u_db s1) l R tm sn t.
Proof.
  intros H A B. apply director_update_image in H. destruct H as (_ & H).
  assert (X1 : load_latest_root Image (u_db s1) = load_latest_root Image (u_db s)) by (unfold load_latest_root; now rewrite H).
  assert (X2 : forall ty, load_nonroot Image ty (u_db s1) = load_nonroot Image ty (u_db s)) by (intros ty; unfold load_nonroot; now rewrite H).
  split; [unfold roots_in_order; rewrite X1; exact A|]. destruct B as (B1 & B2 & B3).
  unfold image_in_order, timestamp_in_order, snapshot_in_order, targets_in_order, not_newer. rewrite !X2. auto.
Qed.
Theorem check_finds E fnm srv clkd clki now v s ld Rd dt li Ri tm sn it :
  (forall raw, srv Director "targets" (-1) = Ok raw -> nul_free raw) ->
  roots_in_order E srv clkd Director (u_db s) ld Rd -> director_in_order E srv clkd (u_db s) ld Rd dt -> tg_targets dt <> [] ->
  roots_in_order E srv clki Image (u_db s) li Ri -> image_in_order E srv clki (u_db s) li Ri tm sn it ->
  installed_answers v -> v_ostree v = false ->
  (forall t, In t (tg_targets dt) -> fits_vehicle v t /\ listed it t /\ no_clash v t) ->
  exists s' r, check_updates E fnm srv clkd clki now v s = (s', Ok r) /\ u_dtargets s' = dt /\
    match r with
    | UcError => False
    | UcNone => forall t, In t (tg_targets dt) -> ~ wanted v t
    | UcUpdates l _ => exists l0, selected (wanted v) (tg_targets dt) l0 /\ l0 <> [] /\ Forall2 but_uri l0 l
    end.
Proof.
  intros Cl A1 A2 Ne B1 B2 Ha Ho Hall.
  destruct (director_update_complete E srv clkd s ld Rd dt A1 A2) as (s1 & D & _ & _ & Dt & St). specialize (Dt Ne). destruct (St Ne Cl) as (sraw & L).
  destruct (in_order_after_director E srv clki srv clkd s s1 li Ri tm sn it D B1 B2) as (C1 & C2).
  destruct (image_update_complete E srv clki s1 li Ri tm sn it C1 C2) as (s2 & I & _ & _ & _ & It).
  destruct (check_succeeds E fnm srv clkd clki now v s s1 s2 it sraw D I It L Ha Ho) as (s' & r & H & Hr). { rewrite Dt. exact Hall. }
  exists s', r. split; [exact H|].
  assert (Q : u_dtargets s' = dt).
  { pose proof H as K. apply check_updates_inv in K; [|exact Hr]. destruct K as (s1' & us & c & D' & _ & T & _). rewrite D in D'. injection D' as <-. congruence. }
  split; [exact Q|].
  assert (Rd' : installed_readable v) by (intros x Hx; destruct (Ha x) as (k & Hk); congruence).
  destruct r as [| |l n]; [now apply Hr| |].
  - rewrite <- Q. exact (check_updates_none _ _ _ _ _ _ _ _ _ H Rd').
  - apply check_updates_exact in H; [|exact Rd']. destruct H as (N & l0 & S & F). rewrite Q in S. exists l0. split; [exact S|]. split; [|exact F].
    intros ->. inversion F; subst. now apply N.
Qed.
