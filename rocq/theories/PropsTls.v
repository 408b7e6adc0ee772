(** C162: the TLS credentials a client runs with belong together. *)
From Verif Require Import Base TlsModel.

(** ** Specification *)
(** The sets somebody issued: the server's answers, and the files of a start if all three are there. *)
Definition file_set (fs : files) (c : creds) : Prop :=
  exists a b k, c = (a, b, k) /\ f_ca fs = Content a /\ f_cert fs = Content b /\ f_pkey fs = Content k.
Definition issued (s : start) (c : creds) : Prop := s_answer s = Some c \/ file_set (s_files s) c.
(** Every start that comes to run does so with a set issued at that start or an earlier one. *)
Definition C162_statement : Prop :=
  forall digest l pre s post, l = pre ++ s :: post ->
    forall c asked, snd (do_start digest s (fst (starts digest pre []))) = Running c asked ->
    exists s', In s' (pre ++ [s]) /\ issued s' c.

Definition no_import (s : start) : Prop := s_files s = {| f_cert := NoPath; f_ca := NoPath; f_pkey := NoPath |}.
Definition writes_ok (s : start) : Prop := s_oks s = [].
Definition full_creds (c : creds) : Prop := let '(a, b, k) := c in a <> "" /\ b <> "" /\ k <> "".
Definition full_answer (s : start) : Prop := forall c, s_answer s = Some c -> full_creds c.

(** ** Proofs *)
Lemma filled_some : forall x, x <> "" -> filled (Some x) = true.
Proof. intros x H. unfold filled. destruct (String.eqb_spec x ""); [contradiction|reflexivity]. Qed.
Lemma filled_inv : forall o, filled o = true -> exists x, o = Some x /\ x <> "".
Proof. intros [x|] H; cbn in H; [|discriminate]. exists x. split; [reflexivity|]. destruct (String.eqb_spec x ""); [discriminate|assumption]. Qed.

(** The invariant of a device without imports: at most one row, and the key is there only if the row is one issued set. *)
Definition sound (P : creds -> Prop) (t : table) : Prop :=
  t = [] \/ exists r, t = [r] /\ (w_pkey r = None \/ exists a b k, P (a, b, k) /\ full_creds (a, b, k) /\
    r = {| w_ca := Some a; w_cert := Some b; w_pkey := Some k |}).

Lemma start_sound : forall digest (P : creds -> Prop) s t, sound P t -> no_import s -> writes_ok s -> full_answer s ->
  (forall c, s_answer s = Some c -> P c) ->
  sound P (fst (do_start digest s t)) /\
  forall c asked, snd (do_start digest s t) = Running c asked -> P c.
Proof.
  intros digest P s t Hs Hn Hw Hf Ha. unfold do_start. rewrite Hn, Hw. cbn [import import1 f_cert f_ca f_pkey r_dead r_tab].
  destruct (is_ok t) eqn:Ok.
  { split; [exact Hs|]. cbn [snd]. intros c asked E. injection E as <- <-.
    destruct Hs as [ -> | (r & -> & [Hk | (a & b & k & Hp & Hfull & ->)])].
    - discriminate.
    - unfold is_ok in Ok. cbn [load get] in Ok. rewrite Hk in Ok. discriminate.
    - exact Hp. }
  destruct (s_mode s); [split; [exact Hs|discriminate]|].
  destruct (s_answer s) as [[[a b] k]|] eqn:Ea; [|split; [exact Hs|discriminate]].
  assert (Hpk : t = [] \/ exists r, t = [r] /\ w_pkey r = None).
  { destruct Hs as [ -> | (r & -> & [Hk | (a' & b' & k' & _ & (Ha' & Hb' & Hk') & ->)])].
    - left; reflexivity.
    - right; exists r; split; [reflexivity|exact Hk].
    - unfold is_ok in Ok. cbn [load get w_ca w_cert w_pkey] in Ok. rewrite !filled_some in Ok by assumption. discriminate. }
  pose proof (Hf _ Ea) as (Na & Nb & Nk). pose proof (Ha _ eq_refl) as Hp.
  unfold store_creds, write.
  destruct (s_kill s) as [|[|[|n]]]; cbn [r_dead r_left r_tab r_oks hd tl store].
  - split; [exact Hs|discriminate].
  - split; [|discriminate]. cbn [fst]. destruct Hpk as [ -> | (r & -> & Hk)]; right; eexists; (split; [reflexivity|]); left; [reflexivity|exact Hk].
  - split; [|discriminate]. cbn [fst]. destruct Hpk as [ -> | (r & -> & Hk)]; right; eexists; (split; [reflexivity|]); left; [reflexivity|exact Hk].
  - destruct Hpk as [ -> | (r & -> & Hk)]; cbn [map put row_null w_ca w_cert w_pkey is_ok load get];
      unfold is_ok; cbn [load get w_ca w_cert w_pkey]; rewrite !filled_some by assumption; cbn [andb fst snd]; (split; [
    right; eexists; split; [reflexivity|]; right; exists a, b, k; split; [exact Hp|]; split; [repeat split; assumption|reflexivity] |
    intros c asked E; unfold held_creds in E; cbn [load get w_ca w_cert w_pkey] in E; injection E as <- _; exact Hp]).
Qed.

Lemma sound_mono : forall (P Q : creds -> Prop) t, (forall c, P c -> Q c) -> sound P t -> sound Q t.
Proof.
  intros P Q t H [ -> | (r & -> & [Hk | (a & b & k & Hp & Hf & ->)])]; [left; reflexivity|right; eexists; split; [reflexivity|]; left; exact Hk|].
  right. eexists. split; [reflexivity|]. right. exists a, b, k. split; [apply H, Hp|]. split; [exact Hf|reflexivity].
Qed.

Definition answered (l : list start) (c : creds) : Prop := exists s, In s l /\ s_answer s = Some c.

Lemma starts_app : forall digest l1 l2 t, fst (starts digest (l1 ++ l2) t) = fst (starts digest l2 (fst (starts digest l1 t))).
Proof.
  intros digest l1. induction l1 as [|s l1 IH]; intros l2 t; [reflexivity|].
  cbn [List.app starts]. destruct (do_start digest s t) as [t1 o]. specialize (IH l2 t1).
  destruct (starts digest (l1 ++ l2) t1) as [ta oa]. destruct (starts digest l1 t1) as [tb ob]. cbn [fst] in *. exact IH.
Qed.

Lemma starts_sound : forall digest l, (forall s, In s l -> no_import s /\ writes_ok s /\ full_answer s) ->
  sound (answered l) (fst (starts digest l [])).
Proof.
  intros digest l. induction l as [|s l IH] using rev_ind; intros H; [left; reflexivity|].
  rewrite starts_app. cbn [starts]. destruct (do_start digest s (fst (starts digest l []))) as [t o] eqn:E. cbn [fst].
  replace t with (fst (do_start digest s (fst (starts digest l [])))) by (rewrite E; reflexivity).
  destruct (H s (in_or_app _ [s] _ (or_intror (or_introl eq_refl)))) as (Hn & Hw & Hf).
  apply (start_sound digest); auto.
  - apply (sound_mono (answered l)); [|apply IH; intros s' Hs'; apply H, in_or_app; left; exact Hs'].
    intros c (s' & Hs' & Ha). exists s'. split; [apply in_or_app; left; exact Hs'|exact Ha].
  - intros c Hc. exists s. split; [apply in_or_app; right; left; reflexivity|exact Hc].
Qed.

(** C162 for a device that imports no TLS files, while every write succeeds and the answers have all three parts: wherever its starts
    are killed, it runs with the set of one answer. *)
Theorem C162_partial : forall digest pre s, (forall x, In x (pre ++ [s]) -> no_import x /\ writes_ok x /\ full_answer x) ->
  forall c asked, snd (do_start digest s (fst (starts digest pre []))) = Running c asked ->
  exists s', In s' (pre ++ [s]) /\ s_answer s' = Some c.
Proof.
  intros digest pre s H c asked Hr.
  destruct (H s (in_or_app _ [s] _ (or_intror (or_introl eq_refl)))) as (Hn & Hw & Hf).
  destruct (start_sound digest (answered (pre ++ [s])) s (fst (starts digest pre []))) as [_ Hc]; auto.
  - apply (sound_mono (answered pre)); [|apply starts_sound; intros s' Hs'; apply H, in_or_app; left; exact Hs'].
    intros c' (s' & Hs' & Ha). exists s'. split; [apply in_or_app; left; exact Hs'|exact Ha].
  - intros c' Hc'. exists s. split; [apply in_or_app; right; left; reflexivity|exact Hc'].
  - exact (Hc c asked Hr).
Qed.

(** Once such a device has run, every later start runs with the same credentials and the server is not asked for others, whatever it
    would answer and whichever writes would fail. *)
Lemma running_ok : forall digest s t c asked, snd (do_start digest s t) = Running c asked ->
  is_ok (fst (do_start digest s t)) = true /\ held_creds (fst (do_start digest s t)) = c.
Proof.
  intros digest s t c asked. unfold do_start. set (r := import _ _ _).
  destruct (r_dead r); [discriminate|]. destruct (is_ok (r_tab r)) eqn:Ok.
  { cbn [fst snd]. intros E. injection E as <- _. split; [exact Ok|reflexivity]. }
  destruct (s_mode s); [discriminate|]. destruct (s_answer s) as [c0|]; [|discriminate].
  destruct (r_dead (store_creds c0 r)); [discriminate|]. destruct (is_ok (r_tab (store_creds c0 r))) eqn:Ok2; [|discriminate].
  cbn [fst snd]. intros E. injection E as <- _. split; [exact Ok2|reflexivity].
Qed.
Theorem C162_kept : forall digest s t c asked later, snd (do_start digest s t) = Running c asked ->
  (forall x, In x later -> no_import x) ->
  snd (starts digest later (fst (do_start digest s t))) = map (fun _ => Running c false) later.
Proof.
  intros digest s t c asked later Hr Hn. destruct (running_ok _ _ _ _ _ Hr) as [Ok Hc].
  set (t' := fst (do_start digest s t)) in *. clearbody t'. clear Hr.
  induction later as [|x later IH]; [reflexivity|].
  cbn [starts map]. assert (E : do_start digest x t' = (t', Running c false)).
  { unfold do_start. rewrite (Hn x (or_introl eq_refl)). cbn [import import1 f_cert f_ca f_pkey r_dead r_tab]. rewrite Ok, Hc. reflexivity. }
  rewrite E. specialize (IH (fun y Hy => Hn y (or_intror Hy))).
  destruct (starts digest later t') as [t2 os]. cbn [snd] in *. rewrite IH. reflexivity.
Qed.

(** With all three files configured and there, a start that is not killed and whose writes succeed runs with exactly the files, whatever
    an earlier start, killed anywhere, left behind; provided the digest tells the files from what was stored. *)
Lemma import1_content : forall digest c x r, r_dead r = false -> r_oks r = [] -> (1 <= r_left r)%nat ->
  (forall old, load c (r_tab r) = Some old -> digest x = digest old -> x = old) ->
  let r' := import1 digest c (Content x) r in
  r_dead r' = false /\ r_oks r' = [] /\ (r_left r <= S (r_left r'))%nat /\ load c (r_tab r') = Some x /\
  (forall c', c' <> c -> load c' (r_tab r') = load c' (r_tab r)).
Proof.
  intros digest c x r Hd Ho Hl Hinj. cbn zeta. unfold import1. cbn [content_of].
  assert (Hw : let r' := write c x r in r_dead r' = false /\ r_oks r' = [] /\ (r_left r <= S (r_left r'))%nat /\
    load c (r_tab r') = Some x /\ (forall c', c' <> c -> load c' (r_tab r') = load c' (r_tab r))).
  { cbn zeta. unfold write. rewrite Hd, Ho. destruct (r_left r) as [|n] eqn:En; [lia|]. cbn [r_dead r_oks r_left r_tab hd tl store].
    split; [reflexivity|]. split; [reflexivity|]. split; [lia|].
    destruct (r_tab r) as [|w ws]; cbn [map load].
    - split; [destruct c; reflexivity|]. intros c' Hc. destruct c, c'; try reflexivity; contradiction.
    - split; [destruct c; reflexivity|]. intros c' Hc. destruct c, c'; try reflexivity; contradiction. }
  destruct (load c (r_tab r)) as [old|] eqn:El; [|exact Hw].
  destruct (String.eqb_spec (digest x) (digest old)) as [E|E]; cbn [negb]; [|exact Hw].
  split; [exact Hd|]. split; [exact Ho|]. split; [lia|]. split; [rewrite El, (Hinj old eq_refl E); reflexivity|reflexivity].
Qed.
Theorem C162_import : forall digest s t a b k,
  s_files s = {| f_cert := Content b; f_ca := Content a; f_pkey := Content k |} -> full_creds (a, b, k) ->
  writes_ok s -> (3 <= s_kill s)%nat ->
  (forall x old, In x [a; b; k] -> digest x = digest old -> x = old) ->
  snd (do_start digest s t) = Running (a, b, k) false.
Proof.
  intros digest s t a b k Hf (Na & Nb & Nk) Hw Hk Hinj. unfold do_start, import. rewrite Hf, Hw. cbn [f_cert f_ca f_pkey].
  set (r0 := {| r_tab := t; r_left := s_kill s; r_dead := false; r_oks := [] |}).
  destruct (import1_content digest Cert b r0) as (D1 & O1 & L1 & V1 & K1); [reflexivity|reflexivity|cbn; lia|intros old _; apply Hinj; right; left; reflexivity|].
  set (r1 := import1 digest Cert (Content b) r0) in *. cbn [r_left r0] in L1.
  destruct (import1_content digest Ca a r1) as (D2 & O2 & L2 & V2 & K2); [exact D1|exact O1|lia|intros old _; apply Hinj; left; reflexivity|].
  set (r2 := import1 digest Ca (Content a) r1) in *.
  destruct (import1_content digest Pkey k r2) as (D3 & O3 & L3 & V3 & K3); [exact D2|exact O2|lia|intros old _; apply Hinj; right; right; left; reflexivity|].
  set (r3 := import1 digest Pkey (Content k) r2) in *.
  rewrite D3. assert (Vc : load Cert (r_tab r3) = Some b) by (rewrite K3, K2 by discriminate; exact V1).
  assert (Va : load Ca (r_tab r3) = Some a) by (rewrite K3 by discriminate; exact V2).
  unfold is_ok. rewrite V3, Vc, Va, !filled_some by assumption. cbn [andb snd]. unfold held_creds. rewrite V3, Vc, Va. reflexivity.
Qed.

(** A device that is to bring its own credentials never takes any from the server. *)
Theorem C162_device : forall digest s t, s_mode s = DeviceCred -> no_import s ->
  fst (do_start digest s t) = t /\ forall c asked, snd (do_start digest s t) = Running c asked -> asked = false /\ load_creds t = Some c.
Proof.
  intros digest s t Hm Hn. unfold do_start. rewrite Hn, Hm. cbn [import import1 f_cert f_ca f_pkey r_dead r_tab].
  destruct (is_ok t) eqn:Ok; cbn [fst snd]; (split; [reflexivity|]); [|discriminate].
  intros c asked E. injection E as <- <-. split; [reflexivity|].
  unfold is_ok in Ok. rewrite !andb_true_iff in Ok. destruct Ok as ((K & B) & A).
  destruct (filled_inv _ K) as (k & Ek & _). destruct (filled_inv _ B) as (b & Eb & _). destruct (filled_inv _ A) as (a & Ea & _).
  unfold load_creds, held_creds. rewrite Ek, Eb, Ea. reflexivity.
Qed.

(** ** What does not hold *)
Definition plain : files := {| f_cert := NoPath; f_ca := NoPath; f_pkey := NoPath |}.
Definition key_only : files := {| f_cert := NoPath; f_ca := NoPath; f_pkey := Content "filekey" |}.
Definition ans1 : creds := ("ca1", "cert1", "key1").
Definition ans2 : creds := ("ca2", "cert2", "key2").
Definition go (fs : files) (a : option creds) (n : nat) (oks : list bool) : start :=
  {| s_mode := SharedCred; s_files := fs; s_answer := a; s_kill := n; s_oks := oks |}.

(** A key file alone is configured. The first start gets credentials from the server and runs with them; the next imports the key over
    the issued one and runs with a certificate and a key that do not belong together. Nothing was killed and nothing failed. *)
Theorem C162_refuted : ~ C162_statement.
Proof.
  intros H. specialize (H (fun x => x) [go key_only (Some ans1) 9 []; go key_only None 9 []] [go key_only (Some ans1) 9 []] (go key_only None 9 []) [] eq_refl
    ("ca1", "cert1", "filekey") false).
  destruct H as (s' & Hin & Hi); [vm_compute; reflexivity|].
  cbn [List.app In] in Hin. destruct Hin as [<- | [<- | []]]; destruct Hi as [Ha | (a & b & k & _ & Fa & _)]; cbn in *; discriminate.
Qed.
(** Without any import: the first answer has no CA certificate, so the device asks again, and is killed between the second certificate
    and the second key. From then on it runs with the second certificate and the first key. *)
Theorem C162_kill_refuted : ~ (forall digest pre s, (forall x, In x (pre ++ [s]) -> no_import x /\ writes_ok x) ->
  forall c asked, snd (do_start digest s (fst (starts digest pre []))) = Running c asked ->
  exists s', In s' (pre ++ [s]) /\ s_answer s' = Some c).
Proof.
  intros H. destruct (H (fun x => x) [go plain (Some ("", "cert1", "key1")) 9 []; go plain (Some ans2) 2 []] (go plain None 9 [])) with (c := ("ca2", "cert2", "key1")) (asked := false)
    as (s' & Hin & Ha).
  - intros x Hin. cbn in Hin. destruct Hin as [<- | [<- | [<- | []]]]; split; reflexivity.
  - vm_compute. reflexivity.
  - cbn in Hin. destruct Hin as [<- | [<- | [<- | []]]]; cbn in Ha; discriminate.
Qed.
(** Likewise if one write failed, which is only logged. *)
Theorem C162_write_refuted : ~ (forall digest pre s, (forall x, In x (pre ++ [s]) -> no_import x /\ full_answer x) ->
  forall c asked, snd (do_start digest s (fst (starts digest pre []))) = Running c asked ->
  exists s', In s' (pre ++ [s]) /\ s_answer s' = Some c).
Proof.
  intros H. destruct (H (fun x => x) [go plain (Some ans1) 9 [true; false; true]; go plain (Some ans2) 2 []] (go plain None 9 [])) with (c := ("ca2", "cert2", "key1")) (asked := false)
    as (s' & Hin & Ha).
  - intros x Hin. cbn in Hin. destruct Hin as [<- | [<- | [<- | []]]]; (split; [reflexivity|]); intros c Hc; cbn in Hc; inversion Hc; subst; repeat split; discriminate.
  - vm_compute. reflexivity.
  - cbn in Hin. destruct Hin as [<- | [<- | [<- | []]]]; cbn in Ha; discriminate.
Qed.

(** ** The hypotheses are met *)
Example C162_partial_case : snd (starts (fun x => x) [go plain (Some ans1) 1 []; go plain (Some ans2) 2 []; go plain (Some ans1) 9 []; go plain (Some ans2) 9 []] []) =
  [Killed; Killed; Running ans1 true; Running ans1 false].
Proof. vm_compute. reflexivity. Qed.
Example C162_partial_hyp : forall x, In x [go plain (Some ans1) 1 []; go plain (Some ans2) 2 []; go plain (Some ans1) 9 []] ->
  no_import x /\ writes_ok x /\ full_answer x.
Proof.
  intros x Hin. cbn in Hin. destruct Hin as [<- | [<- | [<- | []]]]; (split; [reflexivity|split; [reflexivity|]]);
  intros c Hc; cbn in Hc; inversion Hc; subst; repeat split; discriminate.
Qed.
Example C162_import_case : let s := {| s_mode := DeviceCred; s_files := {| f_cert := Content "c"; f_ca := Content "a"; f_pkey := Content "k" |}; s_answer := None; s_kill := 3; s_oks := [] |} in
  snd (do_start (fun x => x) s [{| w_ca := Some "a"; w_cert := Some "old"; w_pkey := None |}]) = Running ("a", "c", "k") false.
Proof. vm_compute. reflexivity. Qed.
Example C162_device_case : let s := {| s_mode := DeviceCred; s_files := plain; s_answer := Some ans2; s_kill := 9; s_oks := [] |} in
  snd (do_start (fun x => x) s [{| w_ca := Some "a"; w_cert := Some "b"; w_pkey := Some "k" |}]) = Running ("a", "b", "k") false.
Proof. vm_compute. reflexivity. Qed.

Print Assumptions C162_partial.
Print Assumptions C162_kept.
Print Assumptions C162_import.
Print Assumptions C162_device.
Print Assumptions C162_refuted.
Print Assumptions C162_kill_refuted.
Print Assumptions C162_write_refuted.
