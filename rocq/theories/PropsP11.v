(** C166: with the Uptane key on a token, what is signed verifies with the key that is reported. C167: TLS objects are named by their ids. *)
From Verif Require Import Base P11Model.

(** ** Specification *)
(** An engine that loads one of the private keys with the id, if there is any. *)
Definition engine (pick : list Z -> option Z) : Prop :=
  (forall k, pick [k] = Some k) /\ (forall l k, pick l = Some k -> In k l) /\ (forall l, l <> [] -> pick l <> None).
(** A token on which no private or public key has the id yet. *)
Definition unused (id : string) (t : token) : Prop :=
  forall b k, unhex id = Some b -> ~ In (b, k) (t_priv t) /\ ~ In (b, k) (t_pub t).
(** Whatever happened at earlier starts, a start that gets a key to report signs with it. *)
Definition C166_statement : Prop :=
  forall pick module id t0 before k how p, engine pick -> unused id t0 ->
  snd (ensure_key module id k how (ensures module id before t0)) = Some p ->
  sign_key pick id (fst (ensure_key module id k how (ensures module id before t0))) = Some p.

(** ** Proofs *)
Lemma id_eqb_eq : forall a b, id_eqb a b = true <-> a = b.
Proof. intros a b. unfold id_eqb. destruct (list_eq_dec Z.eq_dec a b); split; congruence. Qed.
Lemma id_eqb_refl : forall a, id_eqb a a = true. Proof. intros a. apply id_eqb_eq. reflexivity. Qed.
Lemma filter_none : forall b (l : list (list Z * Z)), (forall k, ~ In (b, k) l) -> filter (fun x => id_eqb (fst x) b) l = [].
Proof.
  intros b l. induction l as [|[i k] l IH]; intros H; [reflexivity|]. cbn [filter fst]. destruct (id_eqb i b) eqn:E.
  - apply id_eqb_eq in E. subst i. exfalso. apply (H k). left. reflexivity.
  - apply IH. intros k' Hk. apply (H k'). right. exact Hk.
Qed.
Lemma find_filter : forall b (l : list (list Z * Z)), find_id b l = match map snd (filter (fun x => id_eqb (fst x) b) l) with [] => None | k :: _ => Some k end.
Proof.
  intros b l. induction l as [|[i k] l IH]; [reflexivity|]. cbn [find_id filter fst]. destruct (id_eqb i b); [reflexivity|exact IH].
Qed.
Definition keys_of (b : list Z) (l : list (list Z * Z)) : list Z := map snd (filter (fun x => id_eqb (fst x) b) l).
(** Private and public keys with the id are the same, and at most one. *)
Definition paired (id : string) (t : token) : Prop :=
  forall b, unhex id = Some b -> keys_of b (t_priv t) = keys_of b (t_pub t) /\ (List.length (keys_of b (t_pub t)) <= 1)%nat.

Lemma keys_app : forall b l k, keys_of b (l ++ [(b, k)]) = keys_of b l ++ [k].
Proof. intros b l k. unfold keys_of. rewrite filter_app, map_app. cbn [filter fst]. rewrite id_eqb_refl. reflexivity. Qed.

Lemma read_public_cases : forall module id t b, unhex id = Some b ->
  read_public module id t = if String.eqb module "" || odd_len id || negb (t_open t) then Missing
                            else match keys_of b (t_pub t) with [] => Missing | k :: _ => Got k end.
Proof.
  intros module id t b Hb. unfold read_public, read_object. destruct (_ || _); [reflexivity|]. rewrite Hb, find_filter. unfold keys_of.
  destruct (map snd _); reflexivity.
Qed.
Lemma ensure_thrown : forall module id k how t, unhex id = None -> ensure_key module id k how t = (t, None).
Proof.
  intros module id k how t H. unfold ensure_key, generate. rewrite H. unfold read_public, read_object. destruct (_ || _) eqn:E; [|rewrite H; reflexivity].
  assert (Z : (if negb (t_open t) then (t, false) else (t, false)) = (t, false)) by (destruct (negb (t_open t)); reflexivity). rewrite Z. cbn [fst]. rewrite E. reflexivity.
Qed.
Lemma ensure_opened : forall module id k how t, t_open (fst (ensure_key module id k how t)) = t_open t.
Proof.
  intros. unfold ensure_key. destruct (read_public module id t); try reflexivity. unfold generate. cbn [fst].
  destruct (negb (t_open t)); [reflexivity|]. destruct (unhex id); [|reflexivity]. destruct how; reflexivity.
Qed.
Lemma ensure_reads : forall module id k how t p, snd (ensure_key module id k how t) = Some p -> read_public module id (fst (ensure_key module id k how t)) = Got p.
Proof.
  intros module id k how t p Hr. unfold ensure_key in *. destruct (read_public module id t) as [x| |] eqn:E; cbn [snd fst] in *; [injection Hr as ->; exact E| |discriminate].
  destruct (read_public module id (fst (generate id k how t))); [injection Hr as ->; reflexivity|discriminate|discriminate].
Qed.
(** The module is configured and the id well-formed: otherwise the Missing branch generates at each start without ever reading. *)
Lemma ensure_paired : forall module id k how t, module <> "" -> Nat.even (String.length id) = true -> how <> PrivateOnly -> paired id t ->
  paired id (fst (ensure_key module id k how t)).
Proof.
  intros module id k how t Hm Hodd Hh Hp b Hb. destruct (Hp b Hb) as [E L].
  unfold ensure_key. rewrite (read_public_cases module id t b Hb).
  destruct (String.eqb_spec module "") as [|_]; [contradiction|]. unfold odd_len. rewrite Hodd. cbn [negb orb].
  destruct (t_open t) eqn:Eo; cbn [negb].
  2:{ unfold generate. rewrite Eo. cbn [negb fst]. split; assumption. }
  destruct (keys_of b (t_pub t)) as [|p q] eqn:Ep; cbn [fst]; [|rewrite Ep; split; assumption].
  unfold generate. rewrite Eo, Hb. cbn [negb]. destruct how; [|contradiction|]; cbn [fst t_priv t_pub]; [|rewrite Ep; split; assumption].
  rewrite !keys_app, E, Ep. cbn. split; [reflexivity|lia].
Qed.

(** C166, if no key generation ever ended between the two objects, and the token's module and an id with an even number of digits
    are configured. *)
Theorem C166_partial : forall pick module id t0 before k how p, engine pick -> unused id t0 ->
  (forall x, In x (before ++ [(k, how)]) -> snd x <> PrivateOnly) ->
  snd (ensure_key module id k how (ensures module id before t0)) = Some p ->
  sign_key pick id (fst (ensure_key module id k how (ensures module id before t0))) = Some p.
Proof.
  intros pick module id t0 before k how p He Hu Hh Hr.
  destruct (unhex id) as [b|] eqn:Hb; [|rewrite ensure_thrown in Hr by exact Hb; discriminate].
  set (t := ensures module id before t0) in *.
  (* a key was read, so the module and the id are well-formed *)
  assert (W : module <> "" /\ Nat.even (String.length id) = true).
  { unfold ensure_key in Hr. rewrite (read_public_cases module id t b Hb) in Hr.
    destruct (String.eqb_spec module "") as [->|Hm]; cbn [orb] in Hr.
    - exfalso. cbn [snd fst] in Hr. rewrite (read_public_cases "" id _ b Hb) in Hr. cbn in Hr. discriminate.
    - split; [exact Hm|]. unfold odd_len in Hr. destruct (Nat.even (String.length id)) eqn:Ev; [reflexivity|]. exfalso. cbn [negb orb snd fst] in Hr.
      rewrite (read_public_cases module id _ b Hb) in Hr. unfold odd_len in Hr. rewrite Ev in Hr. cbn [negb] in Hr. rewrite orb_true_r in Hr. discriminate. }
  destruct W as [Hm Hev].
  assert (P0 : paired id t0).
  { intros b' Hb'. assert (N1 : keys_of b' (t_priv t0) = []) by (unfold keys_of; rewrite filter_none; [reflexivity|intros k' Hk; exact (proj1 (Hu b' k' Hb') Hk)]).
    assert (N2 : keys_of b' (t_pub t0) = []) by (unfold keys_of; rewrite filter_none; [reflexivity|intros k' Hk; exact (proj2 (Hu b' k' Hb') Hk)]).
    rewrite N1, N2. split; [reflexivity|cbn; lia]. }
  assert (Pt : paired id t).
  { subst t. clear Hr. assert (Hb0 : forall x, In x before -> snd x <> PrivateOnly) by (intros x Hx; apply Hh, in_or_app; left; exact Hx).
    clear Hh Hu. revert t0 P0 Hb0. induction before as [|[k1 h1] before IH]; intros t0 P0 Hb0; [exact P0|]. cbn [ensures].
    apply IH; [apply ensure_paired; [exact Hm|exact Hev|exact (Hb0 _ (or_introl eq_refl))|exact P0]|intros x Hx; apply Hb0; right; exact Hx]. }
  assert (Hk : how <> PrivateOnly) by (apply (Hh (k, how)), in_or_app; right; left; reflexivity).
  destruct (ensure_paired module id k how t Hm Hev Hk Pt b Hb) as [E L].
  set (t1 := fst (ensure_key module id k how t)) in *.
  assert (Hp : exists q, keys_of b (t_pub t1) = p :: q).
  { pose proof (ensure_reads _ _ _ _ _ _ Hr) as R. fold t1 in R. rewrite (read_public_cases module id t1 b Hb) in R. destruct (_ || _); [discriminate|].
    destruct (keys_of b (t_pub t1)) as [|p' q]; [discriminate|]. injection R as ->. exists q. reflexivity. }
  destruct Hp as [q Hq]. rewrite Hq in L. cbn [List.length] in L. assert (q = []) by (destruct q; [reflexivity|cbn in L; lia]). subst q.
  unfold sign_key, candidates. rewrite Hb. unfold keys_of in E, Hq. rewrite E, Hq. apply (proj1 He).
Qed.

(** Once there is a key, it stays the key: no start generates another. *)
Theorem C166_kept : forall module id k how t p later, snd (ensure_key module id k how t) = Some p ->
  forall k2 h2, ensure_key module id k2 h2 (ensures module id later (fst (ensure_key module id k how t))) = (fst (ensure_key module id k how t), Some p).
Proof.
  intros module id k how t p later Hr. set (t1 := fst (ensure_key module id k how t)).
  pose proof (ensure_reads _ _ _ _ _ _ Hr) as R. fold t1 in R.
  assert (S1 : forall k2 h2, ensure_key module id k2 h2 t1 = (t1, Some p)) by (intros; unfold ensure_key; rewrite R; reflexivity).
  assert (S2 : ensures module id later t1 = t1) by (induction later as [|[k3 h3] l IH]; [reflexivity|]; cbn [ensures]; rewrite S1; exact IH).
  intros k2 h2. rewrite S2. apply S1.
Qed.

(** Switched off between the private and the public key: the next start generates a second private key with the same id, reports its public
    key, and an engine that takes the first private key signs with the other, at every start from then on. *)
Definition empty_token : token := {| t_open := true; t_priv := []; t_pub := []; t_cert := [] |}.
Definition first_of (l : list Z) : option Z := match l with [] => None | k :: _ => Some k end.
Lemma first_engine : engine first_of.
Proof.
  split; [reflexivity|]. split; [intros [|x l] k E; [discriminate|injection E as ->; left; reflexivity]|intros [|x l] H; [contradiction|discriminate]].
Qed.
Theorem C166_refuted : ~ C166_statement.
Proof.
  intros H. specialize (H first_of "mod" "03" empty_token [(1, PrivateOnly)] 2 Both 2 first_engine).
  assert (E : sign_key first_of "03" (fst (ensure_key "mod" "03" 2 Both (ensures "mod" "03" [(1, PrivateOnly)] empty_token))) = Some 2).
  { apply H; [intros b k _; split; intros []|vm_compute; reflexivity]. }
  vm_compute in E. discriminate.
Qed.

(** ** C167 *)
(** The name given to curl for an object and the id under which the client itself looks it up are those of the same object. *)
Definition C167_statement : Prop := forall id b, id <> "" -> unhex id = Some b -> named id = Some b.
Lemma pct_plain : forall s b, unhex s = Some b -> pct s = Some (map acode (list_ascii_of_string s)).
Proof.
  assert (D : forall c x, hexd c = Some x -> Ascii.eqb c "%"%char = false).
  { intros c x H. destruct (Ascii.eqb_spec c "%"%char) as [->|]; [vm_compute in H; discriminate|reflexivity]. }
  assert (G : forall n s b, (String.length s <= n)%nat -> unhex s = Some b -> pct s = Some (map acode (list_ascii_of_string s))).
  { induction n as [|n IH]; intros s b L H.
    - destruct s; [reflexivity|cbn in L; lia].
    - destruct s as [|a [|c r]]; [reflexivity|discriminate|]. cbn [unhex] in H. destruct (hexd a) as [x|] eqn:Ea; [|discriminate].
      destruct (hexd c) as [y|] eqn:Ec; [|discriminate]. destruct (unhex r) as [l|] eqn:Er; [|discriminate].
      cbn [pct]. rewrite (D a x Ea), (D c y Ec). cbn [String.length] in L. rewrite (IH r l); [reflexivity|lia|exact Er]. }
  intros s b H. exact (G _ s b (le_n _) H).
Qed.
Lemma unhex_len : forall n s b, (String.length s <= n)%nat -> unhex s = Some b -> String.length s = (2 * List.length b)%nat.
Proof.
  induction n as [|n IH]; intros s b L H.
  - destruct s; [injection H as <-; reflexivity|cbn in L; lia].
  - destruct s as [|a [|c r]]; [injection H as <-; reflexivity|discriminate|]. cbn [unhex] in H. destruct (hexd a); [|discriminate].
    destruct (hexd c); [|discriminate]. destruct (unhex r) as [l|] eqn:Er; [|discriminate]. injection H as <-. cbn [String.length List.length] in *.
    rewrite (IH r l); [lia|lia|exact Er].
Qed.
(** They are exactly if the id has one byte. *)
Theorem C167_exact : forall id b, id <> "" -> unhex id = Some b -> (named id = Some b <-> String.length id = 2%nat).
Proof.
  intros id b Hne H. destruct id as [|a [|c r]]; [contradiction|discriminate|]. cbn [unhex] in H. destruct (hexd a) as [x|] eqn:Ea; [|discriminate].
  destruct (hexd c) as [y|] eqn:Ec; [|discriminate]. destruct (unhex r) as [l|] eqn:Er; [|discriminate]. injection H as <-.
  unfold named. cbn [pct]. change (Ascii.eqb "%" "%"%char) with true. cbv iota. rewrite Ea, Ec, (pct_plain r l Er). split.
  - intros E. injection E as E. apply (f_equal (@List.length Z)) in E. rewrite map_length in E.
    pose proof (unhex_len _ r l (le_n _) Er) as L.
    assert (Z : forall s, List.length (list_ascii_of_string s) = String.length s) by (induction s as [|? s IHs]; [reflexivity|cbn; rewrite IHs; reflexivity]).
    rewrite Z in E. cbn [String.length]. lia.
  - intros E. cbn [String.length] in E. destruct r; [|cbn in E; lia]. injection Er as <-. reflexivity.
Qed.
Theorem C167_partial : forall id b, String.length id = 2%nat -> unhex id = Some b -> named id = Some b.
Proof. intros id b L H. apply (C167_exact id b); [destruct id; [discriminate|discriminate]|exact H|exact L]. Qed.
Theorem C167_refuted : ~ C167_statement.
Proof. intros H. specialize (H "0102" [1; 2]). assert (E : named "0102" = Some [1; 2]) by (apply H; [discriminate|reflexivity]). vm_compute in E. discriminate. Qed.
(** The certificate found is the first one with exactly the configured id. *)
Theorem C167_read : forall module id t x, read_cert module id t = Got x ->
  exists b pre post, unhex id = Some b /\ t_cert t = pre ++ (b, x) :: post /\ forall y, ~ In (b, y) pre.
Proof.
  intros module id t x H. unfold read_cert, read_object in H. destruct (_ || _); [discriminate|]. destruct (unhex id) as [b|]; [|discriminate].
  exists b. revert H. generalize (t_cert t). induction l as [|[i c] l IH]; cbn [find_id]; [discriminate|].
  destruct (id_eqb i b) eqn:E.
  - intros H. injection H as <-. apply id_eqb_eq in E. subst i. exists [], l. split; [reflexivity|]. split; [reflexivity|intros y []].
  - intros H. destruct (IH H) as (pre & post & _ & -> & Hn). exists ((i, c) :: pre), post. split; [reflexivity|]. split; [reflexivity|].
    intros y [F|F]; [injection F as -> ->; rewrite id_eqb_refl in E; discriminate|exact (Hn y F)].
Qed.

(** ** C168: the engine in use is the one of the own configuration. *)
Definition run_guards (l : list gop) : guards := fold_left gstep l {| g_inst := None; g_count := O |}.
Definition C168_statement : Prop := forall l c, g_inst (run_guards (l ++ [GNew c])) = Some c.
(** If all have one configuration, the engine is of that one, and there is an engine exactly while there is a guard. *)
Theorem C168_partial : forall l, (forall c c', In (GNew c) l -> In (GNew c') l -> c = c') ->
  (forall c, In (GNew c) l -> g_inst (run_guards l) = None \/ g_inst (run_guards l) = Some c) /\
  (g_inst (run_guards l) = None <-> g_count (run_guards l) = O).
Proof.
  intros l H. unfold run_guards.
  assert (G : forall l g, (g_inst g = None <-> g_count g = O) -> (forall c i, In (GNew c) l -> g_inst g = Some i -> i = c) ->
    (forall c c', In (GNew c) l -> In (GNew c') l -> c = c') ->
    (forall c, In (GNew c) l -> g_inst (fold_left gstep l g) = None \/ g_inst (fold_left gstep l g) = Some c) /\
    (g_inst (fold_left gstep l g) = None <-> g_count (fold_left gstep l g) = O) /\
    (forall i, g_inst (fold_left gstep l g) = Some i -> g_inst g = Some i \/ In (GNew i) l)).
  { clear l H. induction l as [|o l IH]; intros g Hz Hi Hs; cbn [fold_left].
    - split; [intros c []|]. split; [exact Hz|]. intros i Hi'. left. exact Hi'.
    - assert (Hz' : g_inst (gstep g o) = None <-> g_count (gstep g o) = O).
      { destruct o as [c|]; cbn [gstep g_inst g_count]; [destruct (g_inst g); split; discriminate|].
        destruct (pred (g_count g)) as [|n] eqn:En; [split; reflexivity|]. split; [intros Hn; apply Hz in Hn; rewrite Hn in En; discriminate|discriminate]. }
      assert (Hi' : forall i, g_inst (gstep g o) = Some i -> g_inst g = Some i \/ o = GNew i).
      { intros i. destruct o as [c|]; cbn [gstep g_inst]; [destruct (g_inst g); intros E; [left; exact E|right; injection E as ->; reflexivity]|].
        destruct (pred (g_count g)); [discriminate|]. intros E. left. exact E. }
      assert (Hi2 : forall c i, In (GNew c) l -> g_inst (gstep g o) = Some i -> i = c).
      { intros c i Hin E. destruct (Hi' i E) as [ E2 | -> ]; [exact (Hi c i (or_intror Hin) E2)|]. apply Hs; [left; reflexivity|right; exact Hin]. }
      destruct (IH (gstep g o) Hz' Hi2 (fun c c' A B => Hs c c' (or_intror A) (or_intror B))) as (A & B & C).
      split; [|split; [exact B|]].
      + intros c [ -> | Hin ]; [|exact (A c Hin)]. destruct (g_inst (fold_left gstep l (gstep g (GNew c)))) as [i|] eqn:Ei; [|left; reflexivity]. right. f_equal.
        destruct (C i eq_refl) as [E2|Hin]; [|apply Hs; [right; exact Hin|left; reflexivity]]. cbn [gstep g_inst] in E2. destruct (g_inst g) as [j|] eqn:Ej; [|congruence].
        injection E2 as ->. exact (Hi c i (or_introl eq_refl) eq_refl).
      + intros i Ei. destruct (C i Ei) as [E2|Hin]; [|right; right; exact Hin]. destruct (Hi' i E2) as [ E3 | -> ]; [left; exact E3|right; left; reflexivity]. }
  destruct (G l {| g_inst := None; g_count := O |}) as (A & B & _); [split; reflexivity|discriminate|exact H|]. split; [exact A|exact B].
Qed.
(** A second key manager with another configuration uses the token of the first. *)
Theorem C168_refuted : ~ C168_statement.
Proof. intros H. specialize (H [GNew 1] 2). vm_compute in H. discriminate. Qed.

(** ** The hypotheses are met *)
Example C166_case : snd (ensure_key "mod" "03" 7 Both (ensures "mod" "03" [(5, Neither)] empty_token)) = Some 7 /\
  sign_key first_of "03" (fst (ensure_key "mod" "03" 7 Both (ensures "mod" "03" [(5, Neither)] empty_token))) = Some 7.
Proof. split; vm_compute; reflexivity. Qed.
Example C167_case : unhex "1f" = Some [31] /\ named "1f" = Some [31] /\ named "1f20" = Some [31; 50; 48].
Proof. split; [|split]; vm_compute; reflexivity. Qed.
Example C168_case : g_inst (run_guards [GNew 1; GNew 1; GDrop]) = Some 1 /\ g_inst (run_guards [GNew 1; GNew 1; GDrop; GDrop]) = None.
Proof. split; vm_compute; reflexivity. Qed.

Print Assumptions C166_partial.
Print Assumptions C166_kept.
Print Assumptions C166_refuted.
Print Assumptions C167_partial.
Print Assumptions C167_exact.
Print Assumptions C167_read.
Print Assumptions C167_refuted.
Print Assumptions C168_partial.
Print Assumptions C168_refuted.
