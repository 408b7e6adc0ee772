(** C153-C155: signals, run modes and exit code of aktualizr, the C interface. *)
From Verif Require Import Base CliModel.

Inductive sreach : sstate -> Prop :=
| sreach_0 : sreach sinit
| sreach_s s a s' : sreach s -> sstep s a = Some s' -> sreach s'.
Lemma srun_reach l : forall s s', sreach s -> srun s l = Some s' -> sreach s'.
Proof.
  induction l as [|a l IH]; intros s s' R H; cbn [srun] in H; [now injection H as <-|].
  destruct (sstep s a) as [s1|] eqn:E; [|discriminate]. apply (IH s1); [|exact H]. eapply sreach_s; eauto.
Qed.

Definition shape (s : sstate) : Prop :=
  match s_poll s with
  | TNone => s_main s = MInit /\ s_uses s = [] /\ s_got s = 0%nat /\ s_mark s = false /\ s_flag s = false
  | TStart | TPoll | TWait => s_main s <> MInit /\ s_uses s = [] /\ (s_got s = 0%nat <-> s_mark s = false)
  | TCall => s_main s <> MInit /\ s_uses s = [] /\ s_got s <> 0%nat
  | TNotify => s_main s <> MInit /\ (exists b, s_uses s = [UShutdown b]) /\ s_got s <> 0%nat
  | TDone => s_main s <> MInit /\ ((s_uses s = [] /\ s_flag s = true) \/ (exists b c, s_uses s = [UShutdown b; UNotify c]) /\ s_got s <> 0%nat)
  end /\
  (s_got s <> 0%nat -> match s_main s with MInit | MThread => False | _ => True end) /\
  (s_flag s = true <-> match s_main s with MJoin | MEnd => True | _ => False end) /\
  (s_main s = MEnd -> s_poll s = TDone).
Lemma reach_shape s : sreach s -> shape s.
Proof.
  induction 1 as [|s a s' R IH H]; [repeat split; try discriminate; cbn; intros; try contradiction; congruence|].
  destruct s as [m p mk f us k g]. unfold sstep in H. cbn [s_killed] in H. destruct k; [discriminate|].
  unfold shape in *. cbn [s_main s_poll s_mark s_flag s_uses s_killed s_got] in IH.
  destruct a; cbn [s_main s_poll s_mark s_flag s_uses s_killed s_got] in H.
  - assert (Sig : match m with MInit | MThread => False | _ => True end ->
      match p with
      | TNone => m = MInit /\ us = [] /\ g = 0%nat /\ mk = false /\ f = false
      | TStart | TPoll | TWait => m <> MInit /\ us = [] /\ (g = 0%nat <-> mk = false)
      | TCall => m <> MInit /\ us = [] /\ g <> 0%nat
      | TNotify => m <> MInit /\ (exists b, us = [UShutdown b]) /\ g <> 0%nat
      | TDone => m <> MInit /\ ((us = [] /\ f = true) \/ (exists b c, us = [UShutdown b; UNotify c]) /\ g <> 0%nat)
      end ->
      match p with
      | TNone => m = MInit /\ us = [] /\ S g = 0%nat /\ true = false /\ f = false
      | TStart | TPoll | TWait => m <> MInit /\ us = [] /\ (S g = 0%nat <-> true = false)
      | TCall => m <> MInit /\ us = [] /\ S g <> 0%nat
      | TNotify => m <> MInit /\ (exists b, us = [UShutdown b]) /\ S g <> 0%nat
      | TDone => m <> MInit /\ ((us = [] /\ f = true) \/ (exists b c, us = [UShutdown b; UNotify c]) /\ S g <> 0%nat)
      end).
    { intros M A. destruct p.
      - destruct A as (-> & _). destruct M.
      - destruct A as (A1 & A2 & _). repeat split; auto; discriminate.
      - destruct A as (A1 & A2 & _). repeat split; auto; discriminate.
      - destruct A as (A1 & A2 & _). repeat split; auto; discriminate.
      - destruct A as (A1 & A2 & _). repeat split; auto; discriminate.
      - destruct A as (A1 & A2 & _). split; [exact A1|]. split; [exact A2|discriminate].
      - destruct A as (A1 & A2). split; [exact A1|]. destruct A2 as [A2|[A2 _]]; [left; exact A2|right; split; [exact A2|discriminate]]. }
    destruct m; try discriminate; injection H as <-; cbn [s_main s_poll s_mark s_flag s_uses s_killed s_got]; try exact IH;
      destruct IH as (A & B & C & D); (split; [exact (Sig Logic.I A)|]); (split; [auto|]); (split; [exact C|exact D]).
  - destruct m; try discriminate; try (injection H as <-; cbn [main_at s_main s_poll s_mark s_flag s_uses s_killed s_got]; destruct IH as (A & B & C & D)).
    + destruct p; try (destruct A; congruence). destruct A as (_ & -> & -> & -> & ->). repeat split; auto; try discriminate; cbn; intros; try contradiction; congruence.
    + split; [|split; [auto|split; [exact C|discriminate]]]. destruct p; try (destruct A; congruence); destruct A as (A1 & A2); (split; [discriminate|exact A2]).
    + split; [|split; [auto|split; [exact C|discriminate]]]. destruct p; try (destruct A; congruence); destruct A as (A1 & A2); (split; [discriminate|exact A2]).
    + destruct p; try discriminate; injection H as <-; cbn [main_at s_main s_poll s_mark s_flag s_uses s_killed s_got]; destruct IH as (A & B & C & D);
        (split; [|split; [auto|split; [split; auto|discriminate]]]); destruct A as (A1 & A2); (split; [discriminate|]); try exact A2.
      destruct A2 as [[A2 _]|A2]; [left; auto|right; exact A2].
    + destruct p; try discriminate; injection H as <-; cbn [main_at s_main s_poll s_mark s_flag s_uses s_killed s_got]; destruct IH as (A & B & C & D).
      split; [|split; [auto|split; [auto|auto]]]. destruct A as (A1 & A2). split; [discriminate|exact A2].
  - destruct p; try discriminate.
    + injection H as <-. cbn [go s_main s_poll s_mark s_flag s_uses s_killed s_got]. rewrite app_nil_r. destruct IH as (A & B & C & D). split; [exact A|split; [auto|split; [auto|intros K; discriminate (D K)]]].
    + destruct mk.
      * injection H as <-. cbn [go s_main s_poll s_mark s_flag s_uses s_killed s_got]. rewrite app_nil_r. destruct IH as (A & B & C & D).
        split; [|split; [auto|split; [auto|intros K; discriminate (D K)]]]. destruct A as (A1 & A2 & A3). repeat split; auto. intros K. discriminate (proj1 A3 K).
      * injection H as <-. cbn [go s_main s_poll s_mark s_flag s_uses s_killed s_got]. rewrite app_nil_r. destruct IH as (A & B & C & D).
        destruct f; (split; [|split; [auto|split; [auto|intros K; discriminate (D K)]]]); [|exact A]. destruct A as (A1 & A2 & _). split; [exact A1|]. left. auto.
    + injection H as <-. cbn [go s_main s_poll s_mark s_flag s_uses s_killed s_got]. rewrite app_nil_r. destruct IH as (A & B & C & D).
      destruct f; (split; [|split; [auto|split; [auto|intros K; discriminate (D K)]]]); [|exact A]. destruct A as (A1 & A2 & _). split; [exact A1|]. left. auto.
    + injection H as <-. cbn [go s_main s_poll s_mark s_flag s_uses s_killed s_got]. destruct IH as (A & B & C & D).
      destruct A as (A1 & -> & A3). split; [|split; [auto|split; [auto|intros K; discriminate (D K)]]]. split; [exact A1|]. split; [eexists; reflexivity|exact A3].
    + injection H as <-. cbn [go s_main s_poll s_mark s_flag s_uses s_killed s_got]. destruct IH as (A & B & C & D).
      destruct A as (A1 & (b & ->) & A3). split; [|split; [auto|split; [auto|intros K; discriminate (D K)]]]. split; [exact A1|]. right. split; [eexists _, _; reflexivity|exact A3].
Qed.

(** C153: after a signal the Aktualizr is shut down, once, and it is there then. *)
Definition C153_statement : Prop := forall s, sreach s -> Forall (fun u => u = UShutdown true \/ u = UNotify true) (s_uses s).
(** A signal at the end of the run: Shutdown of what is no longer there. *)
Theorem C153_refuted : ~ C153_statement.
Proof.
  intros H. destruct (srun sinit [AMain; AMain; AMain; ASignal; APoll; APoll; APoll]) as [s|] eqn:E; [|discriminate].
  pose proof (H s (srun_reach _ _ _ sreach_0 E)) as F. vm_compute in E. injection E as <-. inversion F as [|x l [K|K] _]; discriminate.
Qed.
(** A signal in time: the run can end, and the Aktualizr go, before Shutdown has notified. *)
Theorem C153_race_refuted : exists s, srun sinit [AMain; AMain; ASignal; APoll; APoll; APoll; AMain; APoll] = Some s /\ s_uses s = [UShutdown true; UNotify false].
Proof. eexists. split; [vm_compute; reflexivity|reflexivity]. Qed.
(** Holds as long as the run goes on. *)
Theorem C153_partial : forall s, sreach s -> s_main s = MThread \/ s_main s = MRun -> Forall (fun u => u = UShutdown true \/ u = UNotify true) (s_uses s).
Proof.
  induction 1 as [|s a s' R IH H]; [constructor|]. intros M. unfold sstep in H. destruct (s_killed s); [discriminate|].
  destruct a.
  - destruct (s_main s) eqn:E; try discriminate; injection H as <-; cbn [s_main s_uses] in *; apply IH; auto.
  - destruct (s_main s) eqn:E; try discriminate.
    + injection H as <-. cbn [main_at s_uses]. destruct (reach_shape _ R) as (A & _). destruct (s_poll s); try (destruct A; congruence). destruct A as (_ & -> & _). constructor.
    + injection H as <-. cbn [main_at s_uses]. apply IH. now left.
    + injection H as <-. cbn [main_at s_main] in M. destruct M; discriminate.
    + destruct (s_poll s); try discriminate; injection H as <-; cbn [main_at s_main] in M; destruct M; discriminate.
    + destruct (s_poll s); try discriminate; injection H as <-; cbn [main_at s_main] in M; destruct M; discriminate.
  - assert (Al : s_main s = MThread \/ s_main s = MRun -> alive s = true) by (unfold alive; intros [-> | ->]; reflexivity).
    destruct (s_poll s); try discriminate; [| destruct (s_mark s)| | |]; injection H as <-; cbn [go s_main s_uses] in *; apply Forall_app; split; auto;
      constructor; auto; rewrite (Al M); auto.
Qed.
(** In every schedule: at most one Shutdown, and none without a signal. *)
Theorem C153_once : forall s, sreach s -> (List.length (s_uses s) <= 2)%nat /\ (s_uses s <> [] -> s_got s <> 0%nat /\ exists b l, s_uses s = UShutdown b :: l /\ (l = [] \/ exists c, l = [UNotify c])).
Proof.
  intros s R. destruct (reach_shape _ R) as (A & _). destruct (s_poll s).
  - destruct A as (_ & -> & _). split; [cbn; lia|congruence].
  - destruct A as (_ & -> & _). split; [cbn; lia|congruence].
  - destruct A as (_ & -> & _). split; [cbn; lia|congruence].
  - destruct A as (_ & -> & _). split; [cbn; lia|congruence].
  - destruct A as (_ & -> & _). split; [cbn; lia|congruence].
  - destruct A as (_ & (b & ->) & G). split; [cbn; lia|]. intros _. split; [exact G|]. exists b, []. auto.
  - destruct A as (_ & [[-> _]|[(b & c & ->) G]]); [split; [cbn; lia|congruence]|]. split; [cbn; lia|]. intros _. split; [exact G|]. exists b, [UNotify c]. eauto.
Qed.
(** A signal is never lost: unless the program is at its very end, the polling thread alone, within four steps, leads to Shutdown. *)
Theorem C153_not_lost : forall s, sreach s -> s_killed s = false -> s_got s <> 0%nat -> s_flag s = false ->
  exists n s', (n <= 4)%nat /\ srun s (repeat APoll n) = Some s' /\ exists b l, s_uses s' = UShutdown b :: l.
Proof.
  intros s R K G F. destruct (reach_shape _ R) as (A & _). destruct s as [m p mk f us k g]. cbn [s_killed s_got s_flag s_poll s_main s_uses s_mark] in *. subst k f.
  destruct p.
  - destruct A as (_ & _ & A & _). contradiction.
  - destruct A as (_ & -> & A). destruct mk; [|tauto]. exists 3%nat. eexists. split; [lia|]. split; [reflexivity|]. eexists _, _. reflexivity.
  - destruct A as (_ & -> & A). destruct mk; [|tauto]. exists 2%nat. eexists. split; [lia|]. split; [reflexivity|]. eexists _, _. reflexivity.
  - destruct A as (_ & -> & A). destruct mk; [|tauto]. exists 3%nat. eexists. split; [lia|]. split; [reflexivity|]. eexists _, _. reflexivity.
  - destruct A as (_ & -> & A). exists 1%nat. eexists. split; [lia|]. split; [reflexivity|]. eexists _, _. reflexivity.
  - destruct A as (_ & (b & ->) & A). exists 0%nat. eexists. split; [lia|]. split; [reflexivity|]. eexists _, _. reflexivity.
  - destruct A as (_ & [[_ A]|[(b & c & ->) A]]); [discriminate|]. exists 0%nat. eexists. split; [lia|]. split; [reflexivity|]. eexists _, _. reflexivity.
Qed.
(** A schedule without signals that ends the program: the main thread goes on whenever it can. *)
Definition next_act (s : sstate) : sact :=
  match s_main s, s_poll s with
  | MGone, (TPoll | TCall | TNotify) | MJoin, (TStart | TPoll | TWait | TCall | TNotify) => APoll
  | _, _ => AMain
  end.
Fixpoint drive (n : nat) (s : sstate) : list sact :=
  match n, s_main s with
  | O, _ | _, MEnd => []
  | S n', _ => next_act s :: match sstep s (next_act s) with Some s' => drive n' s' | None => [] end
  end.
(** The program can always end, whatever has come: no more than nine steps of the two threads. *)
Theorem C153_ends : forall s, sreach s -> s_killed s = false -> exists l s', Forall (fun a => a <> ASignal) l /\ (List.length l <= 9)%nat /\ srun s l = Some s' /\ s_main s' = MEnd.
Proof.
  intros s R K. destruct (reach_shape _ R) as (A & _ & F & E). destruct s as [m p mk f us k g]. cbn [s_killed s_flag s_poll s_main s_uses s_mark s_got] in *. subst k.
  assert (N : forall l, forallb (fun a => match a with ASignal => false | _ => true end) l = true -> Forall (fun a => a <> ASignal) l).
  { intros l H. apply Forall_forall. intros x Hx ->. rewrite forallb_forall in H. discriminate (H _ Hx). }
  assert (Solve : forall l, forallb (fun a => match a with ASignal => false | _ => true end) l = true -> (List.length l <= 9)%nat ->
    (exists s', srun {| s_main := m; s_poll := p; s_mark := mk; s_flag := f; s_uses := us; s_killed := false; s_got := g |} l = Some s' /\ s_main s' = MEnd) ->
    exists l s', Forall (fun a => a <> ASignal) l /\ (List.length l <= 9)%nat /\
      srun {| s_main := m; s_poll := p; s_mark := mk; s_flag := f; s_uses := us; s_killed := false; s_got := g |} l = Some s' /\ s_main s' = MEnd).
  { intros l H1 H2 (s' & H3 & H4). exists l, s'. auto. }
  destruct m, p; try (destruct A; congruence); try (specialize (E eq_refl); discriminate); destruct f; try (destruct (proj1 F eq_refl)); try (discriminate (proj2 F Logic.I)); destruct mk;
    (match goal with |- exists l s', _ /\ _ /\ srun ?s l = _ /\ _ => apply (Solve (drive 9 s)) end; [reflexivity|cbn; lia|eexists; split; reflexivity]).
Qed.
Example C153_case : exists s, srun sinit [AMain; AMain; APoll; APoll; ASignal; APoll; APoll; ASignal; APoll; APoll; AMain; AMain; AMain] = Some s /\
  s_uses s = [UShutdown true; UNotify true] /\ s_main s = MEnd.
Proof. eexists. split; [vm_compute; reflexivity|split; reflexivity]. Qed.

(** C154: the exit code.  What each run mode stands for, and when a call has gone well. *)
Definition documented (mode : string) (id : option string) (calls : list call) : Prop :=
  match id with
  | Some i => (mode = "campaign_accept" \/ mode = "campaign_decline" \/ mode = "campaign_postpone") /\ calls = [KCampaign mode i]
  | None => False
  end \/
  (mode = "campaign_check" /\ calls = [KCampaignCheck]) \/ (mode = "check" /\ calls = [KSendData; KCheck]) \/ (mode = "download" /\ calls = [KCheck; KDownload]) \/
  (mode = "install" /\ calls = [KCheck; KInstall]) \/ (mode = "once" /\ calls = [KSendData; KCycle]) \/ ((mode = "full" \/ mode = "") /\ calls = [KForever]).
Definition returned (a : answers) (k : call) : Prop :=
  match k with
  | KCampaignCheck => r_campaign_check a = Ok tt | KCampaign _ _ => r_campaign a = Ok tt | KSendData => r_data a = Ok tt | KCheck => r_check a = Ok tt
  | KDownload => exists b, r_download a = Ok b | KInstall => exists b, r_install a = Ok b | KCycle => exists b, r_cycle a = Ok b | KForever => r_forever a = Ok tt
  end.
Definition went_well (a : answers) (k : call) : Prop :=
  match k with KDownload => r_download a = Ok true | KInstall => r_install a = Ok true | _ => returned a k end.
Definition C154_statement : Prop :=
  forall u mode id a calls, program u mode id a = (calls, true) -> documented mode id calls /\ Forall (went_well a) calls.

Definition fine : answers := {| r_campaign_check := Ok tt; r_campaign := Ok tt; r_data := Ok tt; r_check := Ok tt; r_download := Ok true; r_install := Ok true; r_cycle := Ok true; r_forever := Ok tt |}.
Definition up_ok : startup := {| u_config := true; u_secondaries := None; u_init := true; u_hwinfo := None |}.
(** A download that failed is no failure of the program, nor an installation that failed. *)
Theorem C154_refuted : ~ C154_statement.
Proof.
  intros H. specialize (H up_ok "download" None {| r_campaign_check := Ok tt; r_campaign := Ok tt; r_data := Ok tt; r_check := Ok tt; r_download := Ok false; r_install := Ok false; r_cycle := Ok true; r_forever := Ok tt |} _ eq_refl).
  destruct H as [_ H]. inversion H as [|x l _ K]; subst. inversion K as [|x l K1 _]; subst. discriminate.
Qed.
(** A run mode that does not exist is taken for the daemon. *)
Theorem C154_mode_refuted : ~ (forall u mode id a calls, program u mode id a = (calls, true) -> documented mode id calls).
Proof.
  intros H. specialize (H up_ok "downlaod" None fine _ eq_refl). destruct H as [[]|[[H _]|[[H _]|[[H _]|[[H _]|[[H _]|[[H|H] _]]]]]]]; discriminate.
Qed.
(** When the daemon ends with an exception, the exit code is that of success. *)
Theorem C154_daemon_refuted : exists a, program up_ok "" None a = ([KForever], true) /\ r_forever a = Throw EStd.
Proof. exists {| r_campaign_check := Ok tt; r_campaign := Ok tt; r_data := Ok tt; r_check := Ok tt; r_download := Ok true; r_install := Ok true; r_cycle := Ok true; r_forever := Throw EStd |}. split; reflexivity. Qed.

Definition known (mode : string) : Prop :=
  In mode ["full"; ""; "once"; "campaign_check"; "campaign_accept"; "campaign_decline"; "campaign_postpone"; "check"; "download"; "install"].
Lemma seq_true k r next calls : seq k r next = (calls, true) -> r = Ok tt /\ calls = k :: fst next /\ snd next = true.
Proof. unfold seq. destruct r as [[]|]; [|discriminate]. intros [= <- H]. auto. Qed.
Lemma drop_ok {A} (r : res A) : drop r = Ok tt -> exists x, r = Ok x.
Proof. destruct r; [eauto|discriminate]. Qed.
Lemma program_true u mode id a calls : program u mode id a = (calls, true) -> run_mode mode id a = (calls, true).
Proof.
  unfold program. destruct (u_config u); [|discriminate]. cbn [negb]. destruct (u_secondaries u) as [[|]|]; try discriminate;
    (destruct (u_init u); [|discriminate]; cbn [negb]; destruct (u_hwinfo u) as [[|]|]; try discriminate; auto).
Qed.
(** For the modes there are: success means that what the mode stands for was called, and nothing ended with an exception; for the daemon, that it ended. *)
Theorem C154_partial : forall u mode id a calls, program u mode id a = (calls, true) -> known mode ->
  documented mode id calls /\ Forall (fun k => k <> KForever -> returned a k) calls.
Proof.
  intros u mode id a calls H N. apply program_true in H. unfold run_mode in H.
  destruct (String.eqb mode "campaign_check") eqn:E1.
  { apply String.eqb_eq in E1. apply seq_true in H as (R & -> & _). split; [right; left; auto|]. repeat constructor. intros _. exact R. }
  destruct (_ || _)%bool eqn:E2.
  { destruct id as [i|]; [|discriminate]. apply seq_true in H as (R & -> & _). split; [|repeat constructor; intros _; exact R].
    left. split; [|reflexivity]. apply Bool.orb_true_iff in E2 as [E2|E2]; [apply Bool.orb_true_iff in E2 as [E2|E2]|]; apply String.eqb_eq in E2; auto. }
  destruct (String.eqb mode "check") eqn:E3.
  { apply String.eqb_eq in E3. apply seq_true in H as (R & -> & H). destruct (r_check a) as [[]|] eqn:Rc; [|discriminate]. split; [right; right; left; auto|].
    repeat constructor; intros _; [exact R|exact Rc]. }
  destruct (String.eqb mode "download") eqn:E4.
  { apply String.eqb_eq in E4. apply seq_true in H as (R & -> & H). destruct (drop (r_download a)) as [[]|] eqn:Rc; [|discriminate]. split; [do 3 right; left; auto|].
    repeat constructor; intros _; [exact R|exact (drop_ok _ Rc)]. }
  destruct (String.eqb mode "install") eqn:E5.
  { apply String.eqb_eq in E5. apply seq_true in H as (R & -> & H). destruct (drop (r_install a)) as [[]|] eqn:Rc; [|discriminate]. split; [do 4 right; left; auto|].
    repeat constructor; intros _; [exact R|exact (drop_ok _ Rc)]. }
  destruct (String.eqb mode "once") eqn:E6.
  { apply String.eqb_eq in E6. apply seq_true in H as (R & -> & H). destruct (drop (r_cycle a)) as [[]|] eqn:Rc; [|discriminate]. split; [do 5 right; left; auto|].
    repeat constructor; intros _; [exact R|exact (drop_ok _ Rc)]. }
  injection H as <-. split; [|repeat constructor; intros K; congruence].
  do 6 right. split; [|reflexivity]. unfold known in N. cbn [In] in N.
  destruct N as [<-|[<-|[<-|[<-|[<-|[<-|[<-|[<-|[<-|[<-|[]]]]]]]]]]]; auto; discriminate.
Qed.
(** A failure has a reason. *)
Theorem C154_failure : forall u mode id a calls, program u mode id a = (calls, false) ->
  u_config u = false \/ u_secondaries u = Some false \/ u_init u = false \/ u_hwinfo u = Some false \/
  (id = None /\ calls = [] /\ (mode = "campaign_accept" \/ mode = "campaign_decline" \/ mode = "campaign_postpone")) \/
  exists k l, calls = l ++ [k] /\ ~ returned a k.
Proof.
  intros u mode id a calls. unfold program. destruct (u_config u); [|auto]. cbn [negb].
  destruct (u_secondaries u) as [[|]|]; [|auto|]; (destruct (u_init u); [|auto]; cbn [negb]; destruct (u_hwinfo u) as [[|]|]; [|auto 10|];
    intros H; right; right; right; right; unfold run_mode in H).
  all: destruct (String.eqb mode "campaign_check");
    [right; destruct (r_campaign_check a) eqn:R; [discriminate|]; injection H as <-; exists KCampaignCheck, []; split; [reflexivity|]; cbn [returned]; congruence|].
  all: destruct (_ || _)%bool eqn:E2;
    [destruct id as [i|]; [right; destruct (r_campaign a) eqn:R; [discriminate|]; injection H as <-; eexists _, []; split; [reflexivity|]; cbn [returned]; congruence|];
     left; injection H as <-; repeat split; apply Bool.orb_true_iff in E2 as [E2|E2]; [apply Bool.orb_true_iff in E2 as [E2|E2]|]; apply String.eqb_eq in E2; auto|].
  all: right.
  all: destruct (String.eqb mode "check");
    [destruct (r_data a) eqn:R; cbn [seq fst snd] in H; [destruct (r_check a) eqn:R2; [discriminate|]|]; injection H as <-;
     [exists KCheck, [KSendData]|exists KSendData, []]; (split; [reflexivity|]); cbn [returned]; congruence|].
  all: destruct (String.eqb mode "download");
    [destruct (r_check a) eqn:R; cbn [seq fst snd] in H; [destruct (r_download a) eqn:R2; cbn [drop seq fst snd] in H; [discriminate|]|]; injection H as <-;
     [exists KDownload, [KCheck]|exists KCheck, []]; (split; [reflexivity|]); cbn [returned]; try (intros (b & K)); congruence|].
  all: destruct (String.eqb mode "install");
    [destruct (r_check a) eqn:R; cbn [seq fst snd] in H; [destruct (r_install a) eqn:R2; cbn [drop seq fst snd] in H; [discriminate|]|]; injection H as <-;
     [exists KInstall, [KCheck]|exists KCheck, []]; (split; [reflexivity|]); cbn [returned]; try (intros (b & K)); congruence|].
  all: destruct (String.eqb mode "once");
    [destruct (r_data a) eqn:R; cbn [seq fst snd] in H; [destruct (r_cycle a) eqn:R2; cbn [drop seq fst snd] in H; [discriminate|]|]; injection H as <-;
     [exists KCycle, [KSendData]|exists KSendData, []]; (split; [reflexivity|]); cbn [returned]; try (intros (b & K)); congruence|].
  all: discriminate.
Qed.
Example C154_case : program up_ok "once" None fine = ([KSendData; KCycle], true) /\ known "once" /\
  program up_ok "campaign_accept" None fine = ([], false) /\ program up_ok "campaign_accept" (Some "c1") fine = ([KCampaign "campaign_accept" "c1"], true).
Proof. repeat split; try reflexivity. cbn [known In]. auto. Qed.

(** C155: the C interface: 0 means success. *)
Definition C155_statement : Prop := forall r, (c_download r = 0 <-> r = Ok true) /\ (c_install r = 0 <-> r = Ok true).
Theorem C155_refuted : ~ C155_statement.
Proof. intros H. destruct (H (Ok false)) as [[K _] _]. discriminate (K eq_refl). Qed.
(** No updates and a failed check look the same. *)
Theorem C155_check_refuted : ~ (forall r r' : res (list string), c_updates_check r = c_updates_check r' -> (exists l, r = Ok l) -> exists l, r' = Ok l).
Proof. intros H. destruct (H (Ok []) (Throw EStd) eq_refl ltac:(eauto)) as (l & K). discriminate. Qed.
(** 0 means that there was no exception; for the manifest that the server has accepted it. *)
Theorem C155_partial : forall (A : Type) (r : res A) d i m,
  (c_plain r = 0 <-> exists x, r = Ok x) /\ (c_download d = 0 <-> exists x, d = Ok x) /\ (c_install i = 0 <-> exists x, i = Ok x) /\ (c_send_manifest m = 0 <-> m = Ok true) /\
  (c_plain r = 0 \/ c_plain r = -1) /\ (c_send_manifest m = 0 \/ c_send_manifest m = -1).
Proof.
  intros A r d i m.
  assert (P : forall B (x : res B), c_plain x = 0 <-> exists y, x = Ok y) by (intros B [y|e]; cbn [c_plain]; split; eauto; [discriminate|intros (? & K); discriminate]).
  repeat split; try apply P; try (destruct m as [[|]|]; cbn [c_send_manifest]; auto; discriminate). destruct r; cbn [c_plain]; auto.
Qed.
(** Every update that was found can be got at by its number, and nothing else. *)
Theorem C155_updates : forall (A : Type) (l : list A) n, l <> [] ->
  c_targets_num (c_updates_check (Ok l)) = List.length l /\
  (forall x, c_nth_target (c_updates_check (Ok l)) n = Some x <-> nth_error l n = Some x) /\
  (c_nth_target (c_updates_check (Ok l)) n = None <-> (List.length l <= n)%nat).
Proof. intros A [|y l] n N; [congruence|]. cbn [c_updates_check c_targets_num c_nth_target]. repeat split; auto; apply nth_error_None. Qed.
(** Pause and Resume. *)
Theorem C155_pause : forall p, snd (c_pause p) = true /\ snd (c_resume p) = false /\ (fst (c_pause p) = PSuccess <-> p = false) /\ (fst (c_resume p) = PSuccess <-> p = true).
Proof. intros []; cbn; repeat split; auto; discriminate. Qed.
Example C155_case : c_send_manifest (Ok false) = -1 /\ c_nth_target (c_updates_check (Ok ["a"; "b"])) 1 = Some "b" /\ c_nth_target (c_updates_check (Ok ["a"; "b"])) 2 = None.
Proof. repeat split. Qed.

Print Assumptions C153_partial. Print Assumptions C153_once. Print Assumptions C153_not_lost. Print Assumptions C153_ends. Print Assumptions C153_refuted. Print Assumptions C153_race_refuted.
Print Assumptions C154_partial. Print Assumptions C154_failure. Print Assumptions C154_refuted. Print Assumptions C154_mode_refuted. Print Assumptions C154_daemon_refuted.
Print Assumptions C155_partial. Print Assumptions C155_updates. Print Assumptions C155_pause. Print Assumptions C155_refuted. Print Assumptions C155_check_refuted.
