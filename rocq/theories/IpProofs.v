(** Proofs about updates of a Secondary over the network. *)
From Verif Require Import Base Json TufModel TufSpec MetaStore RepoModel RepoSpec CodecModel DlModel DlSpec InstModel InstSpec InstProofs PropsInst DevModel LiveSpec SndModel SndSpec SndProofs SecFileModel SecFileSpec SecFileProofs IpModel IpSpec.

Section P.
Context (savec : json -> string) (loadc : string -> option json).
Context (E : Env) (stale : htype -> string -> hash) (ecu hw : string) (sigs : json -> json).
Local Notation handle := (handle savec E stale ecu hw sigs).
Local Notation start_sec := (start_sec loadc E ecu hw).
Local Notation start_all := (start_all loadc E ecu hw).
Local Notation rpc := (rpc savec loadc E stale ecu hw sigs).
Local Notation installed_by := (installed_by savec E stale ecu hw sigs).
Local Notation sec_run := (sec_run savec loadc E stale ecu hw sigs).
Local Notation sound_version := (sound_version savec loadc E stale).

Lemma receive_keeps t d op w a a' r : receive t d op w a = (a', r) -> a_target a' = a_target a /\ a_name a' = a_name a.
Proof.
  intros H. destruct (failure_untouched E stale a (ARecv t d op w) (match r with AUndefined | AThrow => SecFileModel.restart a' | _ => a' end) r) as (X & Y); [cbn [astep]; rewrite H; reflexivity|exact I|].
  destruct r; auto.
Qed.
Lemma install_keeps t rn a a' r : install E stale t rn a = (a', r) -> r <> AOk -> a_target a' = a_target a /\ a_name a' = a_name a.
Proof.
  intros H N. destruct (failure_untouched E stale a (AInstall t rn) (match r with AUndefined | AThrow => SecFileModel.restart a' | _ => a' end) r) as (X & Y); [cbn [astep]; rewrite H; reflexivity|exact N|].
  destruct r; auto.
Qed.

(** A request either leaves the image, its name and the table alone, or it is an install request that succeeds. *)
Lemma handle_cases h q s : 
  (installed_by h q s = [] /\ fs_idb (fst (handle h q s)) = fs_idb s /\ fs_before (fst (handle h q s)) = fs_idb s /\
   a_target (fs_ag (fst (handle h q s))) = a_target (fs_ag s) /\ a_name (fs_ag (fst (handle h q s))) = a_name (fs_ag s)) \/
  (exists name t a', q = QInstall name /\ sn_pending (fs_snd s) = Some t /\ alive s = true /\ installed_by h q s = [t] /\ snd (handle h q s) = Some (PInstall2 kOk) /\
   install E stale t (h_renamed h) (fs_ag s) = (a', AOk) /\ fs_ag (fst (handle h q s)) = a' /\
   fs_idb (fst (handle h q s)) = save_installed savec ecu t ModeCurrent (fs_idb s) /\ fs_before (fst (handle h q s)) = fs_idb s).
Proof.
  unfold IpSpec.installed_by, IpModel.handle. change (alive (settle s)) with (alive s). destruct (alive s) eqn:A; cbn [negb]; [|left; cbn; auto 10].
  destruct q as [|v| |dr dt ir it isn itg|q|d|d|c|n]; try (left; cbn; auto 10; fail).
  - left. unfold handle_put. destruct (do_put _ _ _ _ _ _ _ _) as (m, ev). destruct ev; cbn; auto 10.
  - left. unfold handle_upload. cbn [settle fs_snd sn_pending]. destruct (sn_pending (fs_snd s)) as [t|] eqn:P; [|cbn; auto 10].
    destruct (receive t d (h_opened h) (h_wr h) (fs_ag (settle s))) as (a, r) eqn:R. apply receive_keeps in R as (R1 & R2). change (fs_ag (settle s)) with (fs_ag s) in *. destruct r; cbn; auto 10.
  - unfold handle_install. cbn [settle fs_snd sn_pending]. destruct (sn_pending (fs_snd s)) as [t|] eqn:P; [|left; cbn; auto 10].
    destruct (install E stale t (h_renamed h) (fs_ag (settle s))) as (a, r) eqn:R. change (fs_ag (settle s)) with (fs_ag s) in *.
    destruct r; [right|left|left|left]; [exists n, t, a; cbn; auto 15| | |]; (apply install_keeps in R as (R1 & R2); [|discriminate]); cbn; auto 10.
Qed.
Lemma handle_inv h q s : noticed h -> inv (fs_ag s) -> inv (fs_ag (fst (handle h q s))).
Proof.
  intros N I0. unfold IpModel.handle. destruct (negb _); [exact I0|]. destruct q as [|v| |dr dt ir it isn itg|q|d|d|c|n]; try exact I0.
  - unfold handle_put. destruct (do_put _ _ _ _ _ _ _ _) as (m, ev). destruct ev; exact I0.
  - unfold handle_upload. destruct (sn_pending _) as [t|]; [|exact I0]. pose proof (receive_inv t d (h_opened h) (h_wr h) (fs_ag s) N I0) as K.
    change (fs_ag (settle s)) with (fs_ag s). destruct (receive t d (h_opened h) (h_wr h) (fs_ag s)) as (a, r). destruct r; exact K.
  - unfold handle_install. destruct (sn_pending _) as [t|]; [|exact I0]. pose proof (install_inv E stale t (h_renamed h) (fs_ag s) I0) as K.
    change (fs_ag (settle s)) with (fs_ag s). destruct (install E stale t (h_renamed h) (fs_ag s)) as (a, r). destruct r; exact K.
Qed.

(** ** What every reachable Secondary satisfies *)
Definition table_ok (d : idb) : Prop := ireach savec (good_target savec loadc) d /\ il_ecus d = [(ecu, hw)].
Lemma table_save d t : table_ok d -> good_target savec loadc t -> table_ok (save_installed savec ecu t ModeCurrent d).
Proof.
  intros (R & K) G. split.
  - change (save_installed savec ecu t ModeCurrent d) with (istep savec d (OpSave ecu t ModeCurrent)). now apply ireach_S.
  - unfold save_installed. exact K.
Qed.
Lemma table_runs d t : table_ok d -> good_target savec loadc t -> runs loadc (save_installed savec ecu t ModeCurrent d) ecu t.
Proof. intros (R & _) G. destruct (C19_current savec loadc d ecu t R G) as (x & H & (K & _) & _). exists x. auto. Qed.

Record rinv (undos : bool) (l : list target) (s : fsec) : Prop := {
  ri_ecu : ecu <> "";
  ri_ag : inv (fs_ag s);
  ri_idb : table_ok (fs_idb s);
  ri_before : table_ok (fs_before s);
  ri_image : forall t l', l = t :: l' -> (exists c, has_image E s t c) /\ (undos = false -> a_name (fs_ag s) = t_filename t /\ runs loadc (fs_idb s) ecu t) }.

Lemma start_name s t : ecu <> "" -> il_ecus (fs_idb s) = [(ecu, hw)] -> runs loadc (fs_idb s) ecu t -> forall clk, a_name (fs_ag (start_sec clk s)) = t_filename t.
Proof.
  intros Ne He (x & L & (K & _)) clk. destruct (C19_empty_is_primary savec loadc (fs_idb s) ecu hw [] t ModeCurrent He Ne) as (_ & X).
  unfold IpModel.start_sec. rewrite X, L. exact K.
Qed.
Lemma start_table s clk : fs_idb (start_sec clk s) = fs_idb s /\ fs_before (start_sec clk s) = fs_idb s /\ a_target (fs_ag (start_sec clk s)) = a_target (fs_ag s).
Proof. unfold IpModel.start_sec. destruct (load_installed loadc "" (fs_idb s)) as [(c, p)|e]; cbn; auto. Qed.
Lemma start_inv s clk : inv (fs_ag s) -> inv (fs_ag (start_sec clk s)).
Proof. intros H. unfold IpModel.start_sec. destruct (load_installed loadc "" (fs_idb s)) as [(c, p)|e]; [|exact H]. intros x h _ K. discriminate. Qed.

Lemma rinv_start u l s clk : rinv u l s -> rinv u l (start_sec clk s).
Proof.
  intros [Ne Ia Ti Tb Im]. destruct (start_table s clk) as (X1 & X2 & X3). split; auto; [now apply start_inv|now rewrite X1|now rewrite X2|].
  intros t l' El. destruct (Im t l' El) as ((c & C1 & C2) & N). split; [exists c; split; [now rewrite X3|exact C2]|]. intros Hu. destruct (N Hu) as (_ & R).
  split; [|now rewrite X1]. exact (start_name s t Ne (proj2 Ti) R clk).
Qed.
Lemma rinv_req u l s h q : rinv u l s -> noticed h -> Forall sound_version (installed_by h q s) -> rinv u (installed_by h q s ++ l) (fst (handle h q s)).
Proof.
  intros [Ne Ia Ti Tb Im] Hn Hs. pose proof (handle_inv h q s Hn Ia) as Ia'.
  destruct (handle_cases h q s) as [(B & X1 & X2 & X3 & X4) | (n & t & a' & -> & P & A & B & _ & R & X1 & X2 & X3)].
  - rewrite B. split; auto; [now rewrite X1|now rewrite X2|]. intros t l' El. destruct (Im t l' El) as ((c & C1 & C2) & N).
    split; [exists c; split; [now rewrite X3|exact C2]|]. intros Hu. rewrite X4, X1. auto.
  - rewrite B in *. inversion Hs as [|? ? (G & C & NS) _]; subst. split; auto; [rewrite X2; now apply table_save|now rewrite X3|].
    intros t' l' El. injection El as <- <-. destruct (install_verified E stale (fs_ag s) t (h_renamed h) _ Ia C NS R) as (c & K).
    split; [exists c; exact K|]. intros _. split; [|rewrite X2; now apply table_runs].
    apply install_checked in R. destruct R as (c' & hh & _ & _ & _ & _ & _ & _ & Nm). exact Nm.
Qed.
Lemma rinv_kill u l s k undo : rinv u l s -> (undo = true -> u = true) -> rinv u l (kill_sec k undo s).
Proof.
  intros [Ne Ia Ti Tb Im] Hu. split; auto; [cbn; now destruct undo|]. intros t l' El. destruct (Im t l' El) as (C & N). split; [exact C|]. intros U. destruct (N U) as (N1 & N2).
  split; [exact N1|]. destruct undo; [now rewrite (Hu eq_refl) in U|exact N2].
Qed.
Theorem run_inv u l s : sec_run u l s -> rinv u l s.
Proof.
  induction 1 as [d0 idb image name Ne Hr He|l s clk _ IH|l s h q _ IH Hn Hs|l s h q k undo _ IH Hn Hs Hu].
  - split; auto; [|split; auto|split; auto|discriminate]. intros c h K. discriminate.
  - now apply rinv_start.
  - now apply rinv_req.
  - apply rinv_kill; [now apply rinv_req|exact Hu].
Qed.

(** ** Requests over the network *)
Lemma run_starts u l : forall clks s, sec_run u l s -> sec_run u l (start_all clks s).
Proof. induction clks as [|c clks IH]; intros s H; [exact H|]. cbn. apply IH. now apply sr_start. Qed.
Lemma harmless_none h q s : harmless q -> installed_by h q s = [].
Proof.
  intros Hq. destruct (handle_cases h q s) as [(B & _) | (n & t & a' & -> & _)]; [exact B|contradiction].
Qed.
Lemma rpc_run u l W q s : sec_run u l (ip_sec s) -> all_noticed W -> (u = false -> no_undo W) -> harmless q -> sec_run u l (ip_sec (fst (rpc W q s))).
Proof.
  intros H Hn Hu Hq. unfold IpModel.rpc. pose proof (run_starts u l (w_starts W (ip_n s)) (ip_sec s) H) as H0. set (sec := start_all _ _) in *.
  pose proof (harmless_none (w_env W (ip_n s)) q sec Hq) as B.
  assert (K : sec_run u l (fst (handle (w_env W (ip_n s)) q sec))).
  { pose proof (sr_req savec loadc E stale ecu hw sigs u l sec (w_env W (ip_n s)) q H0 (Hn _)) as K. rewrite B in K. apply K. constructor. }
  destruct (w_link W (ip_n s)) as [| | |k undo] eqn:L; [exact H0|exact K| |].
  - destruct (handle _ q sec) as (sec', a). exact K.
  - cbn [fst ip_sec]. pose proof (sr_kill savec loadc E stale ecu hw sigs u l sec (w_env W (ip_n s)) q k undo H0 (Hn _)) as K'. rewrite B in K'. apply K'; [constructor|].
    intros ->. destruct u; auto. exfalso. now apply (Hu eq_refl (ip_n s) k).
Qed.
Lemma set_ver_sec v s : ip_sec (set_ver v s) = ip_sec s. Proof. reflexivity. Qed.

(** *** The last installed image stays in place under the right name *)
Definition keeps (t : target) (c : string) (s : fsec) : Prop :=
  ecu <> "" /\ il_ecus (fs_idb s) = [(ecu, hw)] /\ a_target (fs_ag s) = Some c /\ a_name (fs_ag s) = t_filename t /\ runs loadc (fs_idb s) ecu t.
Lemma keeps_start t c s clk : keeps t c s -> keeps t c (start_sec clk s).
Proof.
  intros (A & B & C & D & F). destruct (start_table s clk) as (X1 & X2 & X3). unfold keeps. rewrite X1, X3. split; [exact A|]. split; [exact B|]. split; [exact C|]. split; [|exact F].
  exact (start_name s t A B F clk).
Qed.
Lemma keeps_starts t c : forall clks s, keeps t c s -> keeps t c (start_all clks s).
Proof. induction clks as [|x clks IH]; intros s H; [exact H|]. cbn. apply IH. now apply keeps_start. Qed.
Lemma keeps_handle t c h q s : harmless q -> keeps t c s -> keeps t c (fst (handle h q s)) /\ fs_before (fst (handle h q s)) = fs_idb (fst (handle h q s)).
Proof.
  intros Hq (A & B & C & D & F). destruct (handle_cases h q s) as [(_ & X1 & X2 & X3 & X4) | (n & x & a' & -> & _)]; [|contradiction].
  unfold keeps. rewrite X1, X2, X3, X4. auto 10.
Qed.
Lemma keeps_kill t c k undo s : fs_before s = fs_idb s -> keeps t c s -> keeps t c (kill_sec k undo s).
Proof. intros H K. unfold keeps, kill_sec in *. cbn. destruct undo; [rewrite H|]; exact K. Qed.
Lemma keeps_rpc t c W q s : harmless q -> keeps t c (ip_sec s) -> keeps t c (ip_sec (fst (rpc W q s))).
Proof.
  intros Hq H. unfold IpModel.rpc. pose proof (keeps_starts t c (w_starts W (ip_n s)) (ip_sec s) H) as H0. set (sec := start_all _ _) in *.
  destruct (keeps_handle t c (w_env W (ip_n s)) q sec Hq H0) as (K & Kb).
  destruct (w_link W (ip_n s)) as [| | |k undo]; [exact H0|exact K| |].
  - destruct (handle _ q sec) as (sec', a). exact K.
  - cbn [fst ip_sec]. now apply keeps_kill.
Qed.
Lemma keeps_quietly t c s s' : quietly savec loadc E stale ecu hw sigs s s' -> keeps t c (ip_sec s) -> keeps t c (ip_sec s').
Proof. induction 1 as [s|s s' W q Hq _ IH]; intros K; [exact K|]. apply IH. now apply keeps_rpc. Qed.
Lemma keeps_version t c W s : keeps t c (ip_sec s) -> keeps t c (ip_sec (get_version savec loadc E stale ecu hw sigs W s)).
Proof.
  intros K. unfold get_version. pose proof (keeps_rpc t c W (QVersion 2) s I K) as K1. destruct (rpc W (QVersion 2) s) as (s1, r). cbn [fst] in K1.
  assert (K2 : keeps t c (ip_sec (let (s2, p) := ping savec loadc E stale ecu hw sigs W s1 in if p : bool then set_ver 1 s2 else s2))).
  { unfold ping. pose proof (keeps_rpc t c W QInfo s1 I K1) as K2. destruct (rpc W QInfo s1) as (s2, r2). cbn [fst] in K2. destruct r2; exact K2. }
  destruct r; auto.
Qed.
Definition says_of (m : json) (name : string) (c : string) : Prop := says ecu m name (size c) (to_lower (sha256hex E c)).
Lemma manifest_says s c : a_target (fs_ag s) = Some c -> says_of (sec_manifest E ecu sigs s) (a_name (fs_ag s)) c.
Proof. intros H. unfold says_of, sec_manifest, image_info. rewrite H. unfold says, size. cbn. auto. Qed.
(** An answer to a manifest request is about the state that the Secondary has then. *)
Lemma manifest_answer W s s2 m : rpc W QManifest s = (s2, PManifest (Some m)) -> m = sec_manifest E ecu sigs (ip_sec s2).
Proof.
  unfold IpModel.rpc. destruct (w_link W (ip_n s)); try discriminate. unfold IpModel.handle.
  set (sec := start_all (w_starts W (ip_n s)) (ip_sec s)). destruct (negb (alive (settle sec))); [discriminate|]. intros H. injection H as <- <-. reflexivity.
Qed.
Lemma get_manifest_answer W s s' m : get_manifest savec loadc E stale ecu hw sigs W s = (s', m) -> m <> JNull ->
  rpc W QManifest (get_version savec loadc E stale ecu hw sigs W s) = (s', PManifest (Some m)).
Proof.
  unfold get_manifest. destruct (rpc W QManifest _) as (s2, r) eqn:R. intros H N. injection H as <- Hm. destruct r as [| | |o| | | | | | |]; subst; try contradiction. destruct o; [reflexivity|contradiction].
Qed.
Lemma keeps_manifest t c W s s' m : keeps t c (ip_sec s) -> get_manifest savec loadc E stale ecu hw sigs W s = (s', m) -> m <> JNull -> says_of m (t_filename t) c.
Proof.
  intros K H N. apply get_manifest_answer in H; [|exact N]. pose proof (keeps_version t c W s K) as K1.
  pose proof (keeps_rpc t c W QManifest _ I K1) as K2. rewrite H in K2. cbn [fst] in K2. apply manifest_answer in H. subst m. destruct K2 as (_ & _ & C & D & _). rewrite <- D. now apply manifest_says.
Qed.
End P.
