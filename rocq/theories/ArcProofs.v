From Verif Require Import Base Json CodecModel CodecProofs ArcModel ArcSpec.

(** ** Reading *)
Fixpoint datas (f : string) (l : list entry) : string :=
  match l with [] => "" | e :: l' => if String.eqb (e_name e) f then append (e_data e) (datas f l') else datas f l' end.
Definition any_ok (f : string) (l : list entry) : bool := existsb (fun e => String.eqb (e_name e) f && e_ok e)%bool l.

Lemma append_assoc a b c : append a (append b c) = append (append a b) c.
Proof. induction a as [|x a IH]; [reflexivity|]. cbn [append]. now rewrite IH. Qed.
Lemma append_empty a : append a "" = a.
Proof. induction a as [|x a IH]; [reflexivity|]. cbn [append]. now rewrite IH. Qed.

Lemma scan_datas f l : forall out found, scan f l out found = (append out (datas f l), found || any_ok f l)%bool.
Proof.
  induction l as [|e l IH]; intros out found; cbn [scan datas any_ok existsb].
  - now rewrite append_empty, orb_false_r.
  - rewrite !IH. destruct (String.eqb (e_name e) f); cbn [andb orb]; [|reflexivity].
    rewrite append_assoc. unfold any_ok. now rewrite orb_assoc.
Qed.

Lemma datas_absent f l : ~ In f (map e_name l) -> datas f l = "".
Proof.
  induction l as [|e l IH]; intros H; [reflexivity|]. cbn [datas map] in *.
  destruct (String.eqb (e_name e) f) eqn:E; [apply String.eqb_eq in E; exfalso; apply H; now left|].
  apply IH. intros K. apply H. now right.
Qed.
Lemma datas_one f l e : NoDup (map e_name l) -> In e l -> e_name e = f -> datas f l = e_data e.
Proof.
  induction l as [|x l IH]; intros ND Hi En; [destruct Hi|]. cbn [map] in ND. inversion ND as [|a b N1 N2]; subst.
  cbn [datas]. destruct Hi as [<-|Hi].
  - rewrite String.eqb_refl. rewrite datas_absent by exact N1. apply append_empty.
  - destruct (String.eqb (e_name x) (e_name e)) eqn:E.
    + apply String.eqb_eq in E. exfalso. apply N1. rewrite E. now apply in_map.
    + now apply IH.
Qed.

Lemma any_ok_spec f l : any_ok f l = true <-> exists e, In e l /\ e_name e = f /\ e_ok e = true.
Proof.
  unfold any_ok. rewrite existsb_exists. split; intros (e & H1 & H2); exists e; split; auto.
  - apply andb_true_iff in H2 as [H2 H3]. apply String.eqb_eq in H2. auto.
  - destruct H2 as [-> ->]. now rewrite String.eqb_refl.
Qed.

Lemma read_holds x f c : distinct x -> read_file x f false = Ok c <-> holds x f c.
Proof.
  destruct x as [|t|a]; cbn [read_file distinct]; intros D; [split; [discriminate|intros (a & e & H & _); discriminate]..|].
  rewrite scan_datas. cbn [orb append]. split.
  - destruct (any_ok f (a_entries a)) eqn:A; [|discriminate]. apply any_ok_spec in A as (e & H1 & H2 & H3).
    intros [= H]. exists a, e. repeat split; auto. rewrite <- H. symmetry. now apply datas_one.
  - intros (b & e & [= <-] & H1 & H2 & H3 & H4). rewrite (proj2 (any_ok_spec _ _)) by eauto.
    now rewrite (datas_one f _ e D H1 H2), H3.
Qed.
(** Without distinct names: something is read only if it is there. *)
Lemma read_some x f b c : read_file x f b = Ok c -> exists c', holds x f c'.
Proof.
  destruct x as [|t|a]; cbn [read_file]; try discriminate. rewrite scan_datas. cbn [orb].
  destruct (any_ok f (a_entries a)) eqn:A; [|discriminate]. apply any_ok_spec in A as (e & H1 & H2 & H3). intros _.
  exists (e_data e), a, e. auto.
Qed.
Lemma holds_read x f c : holds x f c -> exists c', read_file x f false = Ok c'.
Proof.
  intros (a & e & -> & H1 & H2 & _ & H3). cbn [read_file]. rewrite scan_datas. cbn [orb].
  rewrite (proj2 (any_ok_spec _ _)) by eauto. eauto.
Qed.

(** ** Removing *)
Lemma copied_in f a e : In e (a_entries (copied f a)) <->
  exists x, In x (a_entries a) /\ e_name x <> f /\ e = {| e_name := e_name x; e_data := e_data x; e_ok := true |}.
Proof.
  unfold copied. cbn [a_entries]. rewrite in_map_iff. split.
  - intros (x & <- & H). apply filter_In in H as [H K]. exists x. split; [exact H|]. split; [|reflexivity].
    intros Q. rewrite Q, String.eqb_refl in K. discriminate.
  - intros (x & H & K & ->). exists x. split; [reflexivity|]. apply filter_In. split; [exact H|].
    now rewrite (proj2 (String.eqb_neq _ _) K).
Qed.
Lemma copied_no f a c n : ~ holds (Arc (cut n (copied f a))) f c /\ ~ holds (Arc (copied f a)) f c.
Proof.
  split; intros (b & e & [= <-] & H & E & _).
  - unfold cut in H. cbn [a_entries] in H. assert (K : In e (a_entries (copied f a))).
    { rewrite <- (firstn_skipn n (a_entries (copied f a))). apply in_or_app. now left. }
    apply copied_in in K as (x & _ & K & ->). now apply K.
  - apply copied_in in H as (x & _ & K & ->). now apply K.
Qed.

Lemma removed_gone f d e d' : remove f d e = (ROk, d') -> forall c, ~ holds (d_arc d') f c.
Proof.
  unfold remove. destruct (d_arc d) as [|t|a]; [discriminate|destruct e; discriminate|].
  destruct e as [| |n|n|n|n]; try discriminate; destruct (existsb _ _); try discriminate; intros [= <-] c; cbn [d_arc]; apply copied_no; exact O.
Qed.

Lemma removed_others f a : Forall (fun e => e_ok e = true) (a_entries a) -> forall g c, g <> f ->
  (holds (Arc a) g c <-> holds (Arc (copied f a)) g c).
Proof.
  intros F g c Hg. split.
  - intros (b & e & [= <-] & H1 & H2 & H3 & H4). exists (copied f a), {| e_name := e_name e; e_data := e_data e; e_ok := true |}.
    repeat split; auto. apply copied_in. exists e. repeat split; auto. congruence.
  - intros (b & e & [= <-] & H1 & H2 & H3 & H4). apply copied_in in H1 as (x & K1 & K2 & ->). cbn [e_name e_data] in *.
    exists a, x. repeat split; auto. rewrite Forall_forall in F. now apply F.
Qed.

Lemma remove_early f d e r d' : early e -> remove f d e = (r, d') -> d_arc d' = d_arc d /\ r <> ROk.
Proof.
  unfold remove. destruct (d_arc d) as [|t|a] eqn:E; destruct e; cbn [early]; intros K; try contradiction; intros [= <- <-];
    cbn [d_arc]; (split; [congruence|discriminate]).
Qed.

Lemma remove_not_found f a d e r d' : d_arc d = Arc a -> ~ In f (map e_name (a_entries a)) -> remove f d e = (r, d') -> d_arc d' = d_arc d.
Proof.
  intros E H. unfold remove. rewrite E. assert (X : existsb (fun e0 => String.eqb (e_name e0) f) (a_entries a) = false).
  { destruct (existsb _ _) eqn:X; [|reflexivity]. exfalso. apply existsb_exists in X as (x & X1 & X2). apply String.eqb_eq in X2.
    apply H. rewrite <- X2. now apply in_map. }
  rewrite X. destruct e; intros [= <- <-]; cbn [d_arc]; congruence.
Qed.

(** ** Provisioning *)
Definition shared_gone (d : dev) : Prop := forall c, ~ holds (d_arc (dv_disk d)) p12_name c.

(** Removing another file brings nothing back. *)
Lemma remove_keeps_gone f g d e r d' : remove f d e = (r, d') -> (forall c, ~ holds (d_arc d) g c) ->
  (match d_arc d with Arc a => Forall (fun x => e_name x <> g) (a_entries a) | _ => True end) ->
  forall c, ~ holds (d_arc d') g c.
Proof.
  intros H N F c. unfold remove in H. destruct (d_arc d) as [|t|a] eqn:E.
  - injection H as <- <-. rewrite E. intros (x & y & K & _). discriminate.
  - destruct e; injection H as <- <-; cbn [d_arc]; try rewrite E; intros (x & y & K & _); discriminate.
  - assert (C : forall n c, ~ holds (Arc (cut n (copied f a))) g c).
    { intros n c' (b & e0 & [= <-] & H1 & H2 & _). unfold cut in H1. cbn [a_entries] in H1.
      assert (K : In e0 (a_entries (copied f a))).
      { rewrite <- (firstn_skipn n (a_entries (copied f a))). apply in_or_app. now left. }
      apply copied_in in K as (x & K1 & K2 & ->). cbn [e_name] in H2. rewrite Forall_forall in F. exact (F x K1 H2). }
    assert (C' : forall c, ~ holds (Arc (copied f a)) g c).
    { intros c' (b & e0 & [= <-] & H1 & H2 & _). apply copied_in in H1 as (x & K1 & K2 & ->). cbn [e_name] in H2.
      rewrite Forall_forall in F. exact (F x K1 H2). }
    destruct e; try destruct (existsb _ _); injection H as <- <-; cbn [d_arc]; try rewrite E; auto.
Qed.

Definition no_name (g : string) (x : file) : Prop := match x with Arc a => Forall (fun e => e_name e <> g) (a_entries a) | _ => True end.
Lemma no_name_gone g x : no_name g x -> forall c, ~ holds x g c.
Proof. intros H c (a & e & -> & H1 & H2 & _). cbn [no_name] in H. rewrite Forall_forall in H. exact (H e H1 H2). Qed.
Lemma firstn_in {A} n (l : list A) x : In x (firstn n l) -> In x l.
Proof. intros H. rewrite <- (firstn_skipn n l). apply in_or_app. now left. Qed.

Lemma remove_no_name_self f d e r d' : remove f d e = (r, d') -> r = ROk \/ (exists n, e = KillFlush n) -> no_name f (d_arc d').
Proof.
  assert (C : forall a, Forall (fun e0 => e_name e0 <> f) (a_entries (copied f a))).
  { intros a. apply Forall_forall. intros x Hx. apply copied_in in Hx as (y & _ & K & ->). exact K. }
  assert (C' : forall n a, Forall (fun e0 => e_name e0 <> f) (a_entries (cut n (copied f a)))).
  { intros n a. apply Forall_forall. intros x Hx. unfold cut in Hx. cbn [a_entries] in Hx. apply firstn_in in Hx.
    pose proof (C a) as Q. rewrite Forall_forall in Q. now apply Q. }
  unfold remove. destruct (d_arc d) as [|t|a] eqn:E.
  - intros [= <- <-] [K|(n & ->)]; [discriminate|]. now rewrite E.
  - destruct e; intros [= <- <-] [K|(n0 & K)]; try discriminate; exact Logic.I.
  - destruct (existsb (fun e0 => String.eqb (e_name e0) f) (a_entries a)) eqn:X.
    + destruct e; intros [= <- <-] [K|(n0 & K)]; try discriminate; cbn [d_arc no_name]; auto.
    + destruct e; intros [= <- <-] [K|(n0 & K)]; try discriminate; rewrite E; cbn [no_name];
        apply Forall_forall; intros x Hx Q;
        assert (Y : existsb (fun e0 => String.eqb (e_name e0) f) (a_entries a) = true)
          by (apply existsb_exists; exists x; split; [exact Hx|now apply String.eqb_eq]); congruence.
Qed.
Lemma remove_no_name g f d e r d' : remove f d e = (r, d') -> no_name g (d_arc d) -> no_name g (d_arc d').
Proof.
  assert (C : forall a, Forall (fun e0 => e_name e0 <> g) (a_entries a) -> Forall (fun e0 => e_name e0 <> g) (a_entries (copied f a))).
  { intros a F. apply Forall_forall. intros x Hx. apply copied_in in Hx as (y & Hy & K & ->). rewrite Forall_forall in F. exact (F y Hy). }
  assert (C' : forall n a, Forall (fun e0 => e_name e0 <> g) (a_entries a) -> Forall (fun e0 => e_name e0 <> g) (a_entries (cut n (copied f a)))).
  { intros n a F. apply Forall_forall. intros x Hx. unfold cut in Hx. cbn [a_entries] in Hx. apply firstn_in in Hx.
    pose proof (C a F) as Q. rewrite Forall_forall in Q. now apply Q. }
  unfold remove. destruct (d_arc d) as [|t|a] eqn:E.
  - intros [= <- <-]. now rewrite E.
  - destruct e; intros [= <- <-]; cbn [d_arc]; try rewrite E; auto.
  - cbn [no_name]. destruct (existsb _ _); destruct e; intros [= <- <-] F; cbn [d_arc]; try rewrite E; cbn [no_name]; auto.
Qed.

Definition removes (v : start_env) : Prop := se_kill_stored v = false /\ ~ early (se_rm1 v).
Lemma remove_late f d e r d' : (exists a, d_arc d = Arc a /\ In f (map e_name (a_entries a))) -> ~ early e -> remove f d e = (r, d') ->
  r = ROk \/ exists n, e = KillFlush n.
Proof.
  intros (a & E & H) N. unfold remove. rewrite E.
  assert (X : existsb (fun e0 => String.eqb (e_name e0) f) (a_entries a) = true).
  { apply in_map_iff in H as (x & H1 & H2). apply existsb_exists. exists x. split; [exact H2|now apply String.eqb_eq]. }
  rewrite X. destruct e; cbn [early] in N; try (exfalso; apply N; exact Logic.I); intros [= <- <-]; eauto.
Qed.

Lemma init_tls_gone v d r d' : removes v -> init_tls MShared v d = (r, d') ->
  (tls_ok (dv_tls d) = true -> no_name p12_name (d_arc (dv_disk d))) ->
  tls_ok (dv_tls d') = true -> no_name p12_name (d_arc (dv_disk d')).
Proof.
  intros [R1 R2]. unfold init_tls. destruct (tls_ok (dv_tls d)) eqn:T.
  { intros [= <- <-] H _. now apply H. }
  destruct (read_file _ _ _) as [p12|] eqn:RF; [|intros [= <- <-] _ K; congruence].
  destruct (_ || _)%bool; [intros [= <- <-] _ K; congruence|].
  destruct (se_kill_before v); [intros [= <- <-] _ K; congruence|].
  destruct (se_post v) as [t|]; [|intros [= <- <-] _ K; congruence].
  rewrite R1. destruct (tls_ok (Some t)) eqn:Tt; cbn [negb].
  2:{ intros [= <- <-] _ K. cbn [dv_tls] in K. congruence. }
  destruct (remove p12_name (dv_disk d) (se_rm1 v)) as [r1 k1] eqn:M1.
  assert (N1 : no_name p12_name (d_arc k1)).
  { apply (remove_no_name_self _ _ _ _ _ M1). apply (remove_late _ _ _ _ _) with (2 := R2) (3 := M1).
    destruct (read_some _ _ _ _ RF) as (c' & a & e & Ea & H1 & H2 & _). exists a. split; [exact Ea|]. rewrite <- H2. now apply in_map. }
  destruct r1.
  - destruct (remove treehub_name k1 (se_rm2 v)) as [r2 k2] eqn:M2.
    assert (N2 : no_name p12_name (d_arc k2)) by (eapply remove_no_name; eassumption).
    destruct r2; intros [= <- <-] _ _; exact N2.
  - intros [= <- <-] _ _. exact N1.
  - intros [= <- <-] _ _. exact N1.
Qed.

Lemma starts_gone l : forall d last r d', Forall removes l -> starts MShared l d last = (r, d') ->
  (tls_ok (dv_tls d) = true -> no_name p12_name (d_arc (dv_disk d))) ->
  tls_ok (dv_tls d') = true -> no_name p12_name (d_arc (dv_disk d')).
Proof.
  induction l as [|v l IH]; intros d last r d' F H I; cbn [starts] in H.
  - injection H as <- <-. exact I.
  - inversion F as [|a b F1 F2]; subst. destruct (init_tls MShared v d) as [r1 d1] eqn:E.
    apply (IH _ _ _ _ F2 H). apply (init_tls_gone _ _ _ _ F1 E I).
Qed.
Lemma init_done_ok m v d d' : init_tls m v d = (SDone, d') -> tls_ok (dv_tls d') = true.
Proof.
  unfold init_tls. destruct (tls_ok (dv_tls d)) eqn:T; [intros [= <-]; exact T|].
  destruct m; try discriminate; (destruct (read_file _ _ _); [|discriminate]; destruct (_ || _)%bool; [discriminate|];
    destruct (se_kill_before v); [discriminate|]; destruct (se_post v) as [t|]; [|discriminate]; destruct (se_kill_stored v); [discriminate|];
    destruct (tls_ok (Some t)) eqn:Tt; [|discriminate]; cbn [negb]).
  - destruct (remove p12_name (dv_disk d) (se_rm1 v)) as [r1 k1]. destruct r1; try discriminate.
    destruct (remove treehub_name k1 (se_rm2 v)) as [r2 k2]. destruct r2; intros [= <-]; exact Tt.
  - intros [= <-]. exact Tt.
Qed.
Lemma starts_done_ok m l : forall d last d', starts m l d last = (SDone, d') -> last = SDone \/ tls_ok (dv_tls d') = true.
Proof.
  induction l as [|v l IH]; intros d last d' H; cbn [starts] in H; [injection H as -> _; now left|].
  destruct (init_tls m v d) as [r1 d1] eqn:E. destruct (IH _ _ _ H) as [->|K]; [|now right].
  right. apply init_done_ok in E.
  assert (P : forall l d last r d', starts m l d last = (r, d') -> tls_ok (dv_tls d) = true -> d' = d).
  { clear. induction l as [|v l IH]; intros d last r d' H T; cbn [starts] in H; [now injection H as _ <-|].
    destruct (init_tls m v d) as [r1 d1] eqn:E. unfold init_tls in E. rewrite T in E. injection E as <- <-. eapply IH; eauto. }
  rewrite (P _ _ _ _ _ H E). exact E.
Qed.

(** ** Trimming *)
Lemma trim_left_spec p s : exists a, s = append a (trim_left p s) /\ all_chars p a /\ forall c, first_char (trim_left p s) = Some c -> p c = false.
Proof.
  induction s as [|x s (a & E & A & F)]; [exists ""; split; [reflexivity|split; [exact Logic.I|discriminate]]|]. cbn [trim_left].
  destruct (p x) eqn:P.
  - exists (String x a). cbn [append all_chars]. rewrite <- E. auto.
  - exists "". split; [reflexivity|]. split; [exact Logic.I|]. cbn [first_char]. intros c [= <-]. exact P.
Qed.
Lemma trim_right_spec p s : exists b, s = append (trim_right p s) b /\ all_chars p b /\ forall c, last_char (trim_right p s) = Some c -> p c = false.
Proof.
  induction s as [|x s (b & E & A & F)]; [exists ""; split; [reflexivity|split; [exact Logic.I|discriminate]]|]. cbn [trim_right].
  destruct (trim_right p s) as [|y r] eqn:T.
  - cbn [append] in E. destruct (p x) eqn:P.
    + exists (String x s). cbn [append all_chars]. subst b. split; [reflexivity|]. split; [auto|discriminate].
    + exists s. cbn [append]. split; [reflexivity|]. subst b. split; [exact A|]. cbn [last_char]. intros c [= <-]. exact P.
  - exists b. split; [rewrite E at 1; reflexivity|]. split; [exact A|]. exact F.
Qed.
Lemma last_append a s : s <> "" -> last_char (append a s) = last_char s.
Proof.
  intros H. induction a as [|x a IH]; [reflexivity|]. cbn [append last_char].
  destruct (append a s) eqn:E; [|exact IH]. destruct a; cbn [append] in E; [now subst|discriminate].
Qed.
Lemma trim_by_spec p s : trimmed p s (trim_by p s).
Proof.
  unfold trim_by. destruct (trim_right_spec p s) as (b & E1 & B & L). destruct (trim_left_spec p (trim_right p s)) as (a & E2 & A & F).
  split; [|split; [exact F|]].
  - exists a, b. split; [|auto]. rewrite append_assoc, <- E2. exact E1.
  - intros c Hc. apply L. rewrite E2. rewrite last_append; [exact Hc|]. intros K. rewrite K in Hc. discriminate.
Qed.
Lemma all_chars_app p a b : all_chars p a -> all_chars p b -> all_chars p (append a b).
Proof. induction a as [|x a IH]; [auto|]. cbn [append all_chars]. intros [H1 H2] H. auto. Qed.
Lemma all_chars_weak (p q : ascii -> bool) s : (forall c, p c = true -> q c = true) -> all_chars p s -> all_chars q s.
Proof. intros H. induction s as [|x s IH]; [auto|]. cbn [all_chars]. intros [H1 H2]. auto. Qed.
Lemma trimmed_twice p q s u v : (forall c, p c = true -> q c = true) -> trimmed p s u -> trimmed q u v -> trimmed q s v.
Proof.
  intros PQ ((a & b & -> & A & B) & _) ((a' & b' & -> & A' & B') & F & L). split; [|auto].
  exists (append a a'), (append b' b). split; [now rewrite !append_assoc|]. split; apply all_chars_app; auto; eapply all_chars_weak; eauto.
Qed.
Lemma blank_space c : blank c = true -> is_space c = true.
Proof.
  unfold blank, is_space. set (n := nat_of_ascii c). clearbody n. intros H.
  destruct (Nat.eqb n 32) eqn:E; [reflexivity|]. cbn [orb] in *.
  apply orb_true_iff in H as [H|H]; [apply orb_true_iff in H as [H|H]|]; apply Nat.eqb_eq in H; subst n; reflexivity.
Qed.

(** ** Credentials of the garage tools *)
Definition special : list string := ["treehub.json"; "client_auth.p12"; "tufrepo.url"].
Lemma load_entries_spec l : forall j p r j' p' r', load_entries l j p r = Ok (j', p', r') ->
  (forall e, In e l -> In (e_name e) special -> e_ok e = true) /\
  (j' = j \/ exists e, In e l /\ e_name e = "treehub.json" /\ j' = Some (e_data e)) /\
  (p' = p \/ exists e, In e l /\ e_name e = "client_auth.p12" /\ p' = Some (e_data e)) /\
  (r' = r \/ exists e, In e l /\ e_name e = "tufrepo.url" /\ r' = Some (trim_by blank (e_data e))) /\
  (~ In "treehub.json" (map e_name l) -> j' = j) /\
  (In "treehub.json" (map e_name l) -> exists e, In e l /\ e_name e = "treehub.json" /\ j' = Some (e_data e)) /\
  (In "client_auth.p12" (map e_name l) -> exists e, In e l /\ e_name e = "client_auth.p12" /\ p' = Some (e_data e)) /\
  (In "tufrepo.url" (map e_name l) -> exists e, In e l /\ e_name e = "tufrepo.url" /\ r' = Some (trim_by blank (e_data e))).
Proof.
  induction l as [|e l IH]; intros j p r j' p' r' H; cbn [load_entries] in H.
  - injection H as <- <- <-. repeat split; auto; intros; try contradiction.
  - destruct (String.eqb (e_name e) "treehub.json") eqn:E1.
    { apply String.eqb_eq in E1. destruct (e_ok e) eqn:Ek; [|discriminate].
      destruct (IH _ _ _ _ _ _ H) as (A0 & A1 & A2 & A3 & A4 & A5 & A6 & A7). clear IH H.
      assert (X : exists e0, In e0 (e :: l) /\ e_name e0 = "treehub.json" /\ j' = Some (e_data e0)).
      { destruct A1 as [->|(x & X1 & X2 & X3)]; [exists e; split; [now left|auto]|exists x; split; [now right|auto]]. }
      split; [intros x [<-|Hx] Hs; [exact Ek|now apply A0]|].
      split; [now right|]. split; [destruct A2 as [A2|(x & X1 & X2)]; [now left|right; exists x; split; [now right|auto]]|].
      split; [destruct A3 as [A3|(x & X1 & X2)]; [now left|right; exists x; split; [now right|auto]]|].
      split; [intros K; exfalso; apply K; left; exact E1|]. split; [auto|]. cbn [map]. split.
      - intros [K|K]; [rewrite E1 in K; discriminate|]. destruct (A6 K) as (x & X1 & X2). exists x. split; [now right|auto].
      - intros [K|K]; [rewrite E1 in K; discriminate|]. destruct (A7 K) as (x & X1 & X2). exists x. split; [now right|auto]. }
    destruct (String.eqb (e_name e) "client_auth.p12") eqn:E2.
    { apply String.eqb_eq in E2. destruct (e_ok e) eqn:Ek; [|discriminate].
      destruct (IH _ _ _ _ _ _ H) as (A0 & A1 & A2 & A3 & A4 & A5 & A6 & A7). clear IH H.
      assert (X : exists e0, In e0 (e :: l) /\ e_name e0 = "client_auth.p12" /\ p' = Some (e_data e0)).
      { destruct A2 as [->|(x & X1 & X2 & X3)]; [exists e; split; [now left|auto]|exists x; split; [now right|auto]]. }
      split; [intros x [<-|Hx] Hs; [exact Ek|now apply A0]|].
      split; [destruct A1 as [A1|(x & X1 & X2)]; [now left|right; exists x; split; [now right|auto]]|]. split; [now right|].
      split; [destruct A3 as [A3|(x & X1 & X2)]; [now left|right; exists x; split; [now right|auto]]|].
      split; [intros K; apply A4; intros Q; apply K; now right|]. cbn [map]. split; [|split; [auto|]].
      - intros [K|K]; [rewrite E2 in K; discriminate|]. destruct (A5 K) as (x & X1 & X2). exists x. split; [now right|auto].
      - intros [K|K]; [rewrite E2 in K; discriminate|]. destruct (A7 K) as (x & X1 & X2). exists x. split; [now right|auto]. }
    destruct (String.eqb (e_name e) "tufrepo.url") eqn:E3.
    { apply String.eqb_eq in E3. destruct (e_ok e) eqn:Ek; [|discriminate].
      destruct (IH _ _ _ _ _ _ H) as (A0 & A1 & A2 & A3 & A4 & A5 & A6 & A7). clear IH H.
      assert (X : exists e0, In e0 (e :: l) /\ e_name e0 = "tufrepo.url" /\ r' = Some (trim_by blank (e_data e0))).
      { destruct A3 as [->|(x & X1 & X2 & X3)]; [exists e; split; [now left|auto]|exists x; split; [now right|auto]]. }
      split; [intros x [<-|Hx] Hs; [exact Ek|now apply A0]|].
      split; [destruct A1 as [A1|(x & X1 & X2)]; [now left|right; exists x; split; [now right|auto]]|].
      split; [destruct A2 as [A2|(x & X1 & X2)]; [now left|right; exists x; split; [now right|auto]]|]. split; [now right|].
      split; [intros K; apply A4; intros Q; apply K; now right|]. cbn [map]. split; [|split; [|auto]].
      - intros [K|K]; [rewrite E3 in K; discriminate|]. destruct (A5 K) as (x & X1 & X2). exists x. split; [now right|auto].
      - intros [K|K]; [rewrite E3 in K; discriminate|]. destruct (A6 K) as (x & X1 & X2). exists x. split; [now right|auto]. }
    destruct (IH _ _ _ _ _ _ H) as (A0 & A1 & A2 & A3 & A4 & A5 & A6 & A7). clear IH H.
    apply String.eqb_neq in E1, E2, E3.
    split.
    { intros x [<-|Hx] Hs; [|now apply A0]. exfalso. destruct Hs as [K|[K|[K|[]]]]; congruence. }
    split; [destruct A1 as [A1|(x & X1 & X2)]; [now left|right; exists x; split; [now right|auto]]|].
    split; [destruct A2 as [A2|(x & X1 & X2)]; [now left|right; exists x; split; [now right|auto]]|].
    split; [destruct A3 as [A3|(x & X1 & X2)]; [now left|right; exists x; split; [now right|auto]]|].
    split; [intros K; apply A4; intros Q; apply K; now right|]. cbn [map]. split; [|split].
    + intros [K|K]; [congruence|]. destruct (A5 K) as (x & X1 & X2). exists x. split; [now right|auto].
    + intros [K|K]; [congruence|]. destruct (A6 K) as (x & X1 & X2). exists x. split; [now right|auto].
    + intros [K|K]; [congruence|]. destruct (A7 K) as (x & X1 & X2). exists x. split; [now right|auto].
Qed.
Lemma load_entries_ok l : Forall (fun e => e_ok e = true) l -> forall j p r, exists x, load_entries l j p r = Ok x.
Proof.
  induction l as [|e l IH]; intros F j p r; [cbn; eauto|]. inversion F as [|a b F1 F2]; subst. cbn [load_entries]. rewrite F1.
  destruct (String.eqb _ _); [now apply IH|]. destruct (String.eqb _ _); [now apply IH|]. destruct (String.eqb _ _); now apply IH.
Qed.

Lemma pt_setting j s k v : pt_child s j = Some v -> setting j s k (pt_get k v).
Proof.
  intros H. unfold pt_get. destruct (pt_child k v) as [x|] eqn:E.
  - left. exists v, x. auto.
  - right. split; [|reflexivity]. intros o Ho. congruence.
Qed.
