(** Properties C184 and C185: an IP Secondary keeps its identity, and it is the configured one. *)
From Verif Require Import Base IdModel.

Local Ltac inv H := inversion H; subst; clear H.

(** ** C184: all starts present the same serial number, hardware id and key *)
Definition C184_statement : Prop := forall keyid l p1 p2,
  In (IRun p1) (snd (starts keyid l iddb_empty)) -> In (IRun p2) (snd (starts keyid l iddb_empty)) -> p1 = p2.

(** Storing works in this start. *)
Definition stores_ok (e : istart) : Prop := i_keys_stored e = true /\ i_ecu_stored e = true.
(** Once something is stored it is kept. *)
Definition kept (d d' : iddb) : Prop :=
  (forall k, k_keys d = Some k -> k_keys d' = Some k) /\ (forall r, k_ecu d = Some r -> k_ecu d' = Some r).
Lemma kept_refl d : kept d d. Proof. split; auto. Qed.
Lemma kept_trans a b c : kept a b -> kept b c -> kept a c. Proof. intros (A & B) (C & D). split; auto. Qed.
Lemma key_pair_kept e d : kept d (fst (key_pair e d)) /\ k_ecu (fst (key_pair e d)) = k_ecu d.
Proof.
  unfold key_pair. destruct (k_keys d) as [(pub, priv)|] eqn:K; [split; [apply kept_refl|reflexivity]|].
  destruct (i_gen e) as [(pub, priv)|]; [|split; [apply kept_refl|reflexivity]]. simpl. destruct (i_keys_stored e); [|split; [apply kept_refl|reflexivity]].
  split; [|reflexivity]. split; [intros k Q; congruence|auto].
Qed.
Lemma start_kept keyid e d : kept d (fst (start keyid e d)).
Proof.
  unfold start. pose proof (key_pair_kept e d) as (K & Q). destruct (key_pair e d) as (d1, pub). simpl in K, Q.
  destruct pub as [[|c s]|]; try exact K. destruct (i_killed e); [exact K|].
  destruct (k_ecu d1) as [(serial, hw)|] eqn:R; [exact K|].
  destruct (match i_serial e with EmptyString => _ | _ => _ end) as [serial|]; [|exact K].
  destruct (match i_hw e with EmptyString => i_host e | h => h end) as [|c' h']; [exact K|].
  destruct (serial_ok serial && hw_ok (String c' h')); [|exact K]. cbn [fst].
  destruct (i_ecu_stored e); [|exact K]. destruct K as (K1 & K2). split; [exact K1|]. intros r Hr. rewrite <- Q in Hr. congruence.
Qed.
Lemma starts_kept keyid : forall l d, kept d (fst (starts keyid l d)).
Proof.
  induction l as [|e l IH]; intros d; simpl; [apply kept_refl|]. pose proof (start_kept keyid e d) as K.
  destruct (start keyid e d) as (d1, o). simpl in K. specialize (IH d1). destruct (starts keyid l d1) as (d2, os). simpl in *.
  exact (kept_trans _ _ _ K IH).
Qed.
(** A start in which storing works presents what is in the storage afterwards. *)
Lemma start_presents keyid e d d1 p : stores_ok e -> start keyid e d = (d1, IRun p) ->
  k_ecu d1 = Some (p_serial p, p_hw p) /\ exists priv pub, k_keys d1 = Some (pub, priv) /\ p_key p = Some pub.
Proof.
  intros (S1 & S2) H. unfold start in H. destruct (key_pair e d) as (d0, pub) eqn:K.
  assert (KP : forall x, pub = Some x -> exists priv, k_keys d0 = Some (x, priv)).
  { intros x ->. unfold key_pair in K. destruct (k_keys d) as [(pu, pr)|] eqn:KK.
    - destruct (String.eqb pu "" && String.eqb pr ""); inv K. exists pr. exact KK.
    - destruct (i_gen e) as [(pu, pr)|]; [|inv K]. rewrite S1 in K. destruct (String.eqb pu "" && String.eqb pr ""); inv K. exists pr. reflexivity. }
  destruct pub as [[|c s]|]; try discriminate. destruct (KP _ eq_refl) as (priv & KK). clear KP.
  destruct (i_killed e); [discriminate|]. unfold stored_public in H. 
  destruct (k_ecu d0) as [(serial, hw)|] eqn:R.
  - inv H. simpl. split; [exact R|]. exists priv, (String c s). rewrite KK. split; reflexivity.
  - rewrite KK in H. destruct (match i_serial e with EmptyString => _ | _ => _ end) as [serial|]; [|discriminate].
    destruct (match i_hw e with EmptyString => i_host e | h => h end) as [|c' h']; [discriminate|].
    destruct (serial_ok serial && hw_ok (String c' h')); [|discriminate]. rewrite S2 in H. inv H. simpl.
    split; [reflexivity|]. exists priv, (String c s). rewrite ?KK. split; reflexivity.
Qed.
(** Whatever the configurations, the host names and the kills: all starts present the same identity, as long as storing
    works. *)
Theorem C184_partial keyid l d p1 p2 : Forall stores_ok l ->
  In (IRun p1) (snd (starts keyid l d)) -> In (IRun p2) (snd (starts keyid l d)) -> p1 = p2.
Proof.
  intros F.
  assert (G : forall p, In (IRun p) (snd (starts keyid l d)) ->
    k_ecu (fst (starts keyid l d)) = Some (p_serial p, p_hw p) /\ exists priv pub, k_keys (fst (starts keyid l d)) = Some (pub, priv) /\ p_key p = Some pub).
  { revert d. induction l as [|e l IH]; intros d p I1; [destruct I1|]. simpl in *. inversion F as [|e0 l0 S1 F1]; subst.
    destruct (start keyid e d) as (d1, o) eqn:S. specialize (IH F1 d1). pose proof (starts_kept keyid l d1) as (K1 & K2).
    destruct (starts keyid l d1) as (d2, os). simpl in *. destruct I1 as [ -> | I1]; [|exact (IH p I1)].
    destruct (start_presents keyid e d d1 p S1 S) as (A & priv & pub & B & C). split; [exact (K2 _ A)|]. exists priv, pub. split; [exact (K1 _ B)|exact C]. }
  intros I1 I2. destruct (G p1 I1) as (A1 & v1 & b1 & B1 & C1). destruct (G p2 I2) as (A2 & v2 & b2 & B2 & C2).
  destruct p1, p2. simpl in *. congruence.
Qed.
Print Assumptions C184_partial.
(** Even if storing fails at times: what was presented with the storage complete is presented by every later start that
    runs. *)
Theorem C184_from_then_on keyid e l d serial hw pub priv p : k_keys d = Some (pub, priv) -> pub <> "" -> k_ecu d = Some (serial, hw) ->
  In (IRun p) (snd (starts keyid (e :: l) d)) -> p = {| p_serial := serial; p_hw := hw; p_key := Some pub |}.
Proof.
  intros K N R. assert (G : forall l, fst (starts keyid l d) = d /\ (In (IRun p) (snd (starts keyid l d)) -> p = {| p_serial := serial; p_hw := hw; p_key := Some pub |})).
  { clear e l. induction l as [|e l (IH1 & IH2)]; [split; [reflexivity|intros []]|].
    assert (S : start keyid e d = (d, if i_killed e then IKilled else IRun {| p_serial := serial; p_hw := hw; p_key := Some pub |})).
    { unfold start, key_pair. rewrite K. destruct pub as [|c s]; [congruence|]. cbn [String.eqb andb]. destruct (i_killed e); [reflexivity|].
      rewrite R. unfold stored_public. rewrite K. reflexivity. }
    cbn [starts]. rewrite S. destruct (starts keyid l d) as (d2, os). simpl in *. subst d2. split; [reflexivity|].
    intros [Q|Q]; [|exact (IH2 Q)]. destruct (i_killed e); [discriminate|]. inv Q. reflexivity. }
  intros I1. exact (proj2 (G (e :: l)) I1).
Qed.
Print Assumptions C184_from_then_on.

(** False in general: that the row could not be stored is only logged, and the next start may take another name. *)
Definition e0 (serial host : string) (ecu : bool) : istart :=
  {| i_serial := serial; i_hw := ""; i_host := host; i_gen := Some ("PUB", "PRIV"); i_keys_stored := true; i_ecu_stored := ecu; i_killed := false |}.
Theorem C184_refuted : ~ C184_statement.
Proof.
  intros H. specialize (H (fun _ => "kid") [e0 "" "host-a" false; e0 "" "host-b" true]
    {| p_serial := "kid"; p_hw := "host-a"; p_key := Some "PUB" |} {| p_serial := "kid"; p_hw := "host-b"; p_key := Some "PUB" |}).
  assert (K : @eq string "host-a" "host-b"); [|discriminate K].
  assert (Q : {| p_serial := "kid"; p_hw := "host-a"; p_key := Some "PUB" |} = {| p_serial := "kid"; p_hw := "host-b"; p_key := Some "PUB" |}).
  { apply H; vm_compute; [left; reflexivity|right; left; reflexivity]. }
  congruence.
Qed.
Print Assumptions C184_refuted.
(** It may even run without a key: the keys could not be stored, and the serial number is configured. *)
Theorem C184_key_refuted : ~ (forall keyid e d d1 p, start keyid e d = (d1, IRun p) -> p_key p <> None).
Proof.
  intros H. refine (H (fun _ => "kid") {| i_serial := "s1"; i_hw := "hw"; i_host := "h"; i_gen := Some ("PUB", "PRIV"); i_keys_stored := false; i_ecu_stored := true; i_killed := false |}
    iddb_empty _ _ eq_refl eq_refl).
Qed.
Print Assumptions C184_key_refuted.
Example C184_case : snd (starts (fun _ => "kid") [{| i_serial := ""; i_hw := ""; i_host := "a"; i_gen := Some ("PUB", "PRIV"); i_keys_stored := true; i_ecu_stored := true; i_killed := true |};
    e0 "" "b" true; e0 "other" "c" true] iddb_empty) =
  [IKilled; IRun {| p_serial := "kid"; p_hw := "b"; p_key := Some "PUB" |}; IRun {| p_serial := "kid"; p_hw := "b"; p_key := Some "PUB" |}].
Proof. reflexivity. Qed.

(** ** C185: the identity is the configured one *)
(** The serial number that a configuration asks for, and the hardware id. *)
Definition wanted_serial (keyid : string -> string) (e : istart) (pub : string) : string := if String.eqb (i_serial e) "" then keyid pub else i_serial e.
Definition wanted_hw (e : istart) : string := if String.eqb (i_hw e) "" then i_host e else i_hw e.
Definition C185_statement : Prop := forall keyid e d d1 p, start keyid e d = (d1, IRun p) ->
  (i_serial e <> "" -> p_serial p = i_serial e) /\ (i_hw e <> "" -> p_hw p = i_hw e).

(** True as long as no identity is stored: the configured values, otherwise the key's id and the host's name; and a start
    that may be finished does it, from every stored state, exactly if the values are allowed. *)
Theorem C185_partial keyid e d : k_ecu d = None -> stores_ok e -> i_killed e = false ->
  (forall pub priv, k_keys d = Some (pub, priv) -> pub <> "") ->
  (k_keys d = None -> exists pub priv, i_gen e = Some (pub, priv) /\ pub <> "") ->
  exists pub, (match k_keys d with Some (k, _) => k = pub | None => exists priv, i_gen e = Some (pub, priv) end) /\
   let s := wanted_serial keyid e pub in let h := wanted_hw e in
   ((1 <= String.length s <= 64)%nat /\ (1 <= String.length h <= 200)%nat ->
      snd (start keyid e d) = IRun {| p_serial := s; p_hw := h; p_key := Some pub |}) /\
   (~ ((1 <= String.length s <= 64)%nat /\ (1 <= String.length h <= 200)%nat) -> snd (start keyid e d) = IThrow /\ k_ecu (fst (start keyid e d)) = None).
Proof.
  intros R (S1 & S2) NK HK HG.
  assert (P : exists pub priv, key_pair e d = ({| k_keys := Some (pub, priv); k_ecu := None |}, Some pub) /\ pub <> "" /\
    match k_keys d with Some (k, _) => k = pub | None => exists priv, i_gen e = Some (pub, priv) end).
  { unfold key_pair. destruct d as [kk ec]. simpl in *. subst ec. destruct kk as [(pub, priv)|].
    - specialize (HK pub priv eq_refl). exists pub, priv. destruct (String.eqb_spec pub ""); [contradiction|]. split; [reflexivity|split; [assumption|reflexivity]].
    - destruct (HG eq_refl) as (pub & priv & G & N). rewrite G, S1. exists pub, priv. destruct (String.eqb_spec pub ""); [contradiction|].
      split; [reflexivity|]. split; [assumption|]. exists priv. reflexivity. }
  destruct P as (pub & priv & KP & N & Src). exists pub. split; [exact Src|]. cbv zeta.
  unfold start. rewrite KP. destruct pub as [|c s0]; [congruence|]. rewrite NK. cbn [k_ecu stored_public k_keys].
  unfold wanted_serial, wanted_hw.
  assert (SE : (match i_serial e with EmptyString => Some (keyid (String c s0)) | s => Some s end) = Some (if String.eqb (i_serial e) "" then keyid (String c s0) else i_serial e)) by (destruct (i_serial e); reflexivity).
  rewrite SE. set (sr := if String.eqb (i_serial e) "" then keyid (String c s0) else i_serial e).
  assert (HE : (match i_hw e with EmptyString => i_host e | h => h end) = (if String.eqb (i_hw e) "" then i_host e else i_hw e)) by (destruct (i_hw e); reflexivity).
  rewrite HE. set (hh := if String.eqb (i_hw e) "" then i_host e else i_hw e). clearbody sr hh.
  destruct hh as [|c' h'].
  - split; [intros (_ & (L & _)); simpl in L; lia|]. intros _. split; reflexivity.
  - unfold serial_ok, hw_ok. rewrite S2. set (L := String.length (String c' h')) in *. assert (1 <= L)%nat by (unfold L; simpl; lia).
    destruct (Nat.leb_spec 1 (String.length sr)), (Nat.leb_spec (String.length sr) 64), (Nat.leb_spec L 200); cbn [andb];
      (split; [intros Q; try (exfalso; lia); reflexivity | intros Q; try (exfalso; lia); split; reflexivity]).
Qed.
Print Assumptions C185_partial.
(** False afterwards: another configured serial number is ignored. *)
Theorem C185_refuted : ~ C185_statement.
Proof.
  intros H. destruct (H (fun _ => "kid") (e0 "new" "host" true) {| k_keys := Some ("PUB", "PRIV"); k_ecu := Some ("old", "hw") |} _ _ eq_refl) as (A & _).
  specialize (A ltac:(discriminate)). discriminate A.
Qed.
Print Assumptions C185_refuted.
Example C185_case : snd (start (fun _ => "kid") (e0 "s1" "board" true) iddb_empty) = IRun {| p_serial := "s1"; p_hw := "board"; p_key := Some "PUB" |} /\
  snd (start (fun _ => "kid") (e0 "" "" true) iddb_empty) = IThrow.
Proof. split; reflexivity. Qed.
