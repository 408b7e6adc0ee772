(** C177, C178, C179: fields of a line, the reported network information, the address a connection goes to. *)
From Verif Require Import Base CodecModel NetModel ArcProofs.

(** * Specification *)
Definition all_chars (P : ascii -> bool) (s : string) : Prop := forall c, In c (list_ascii_of_string s) -> P c = true.
Definition blank (s : string) : Prop := all_chars is_space s.
Definition a_word (s : string) : Prop := s <> "" /\ all_chars (fun c => negb (is_space c)) s.
(** [splits s ws]: [s] consists of the words [ws], with white space between them and anywhere around. *)
Inductive splits : string -> list string -> Prop :=
| sp_blank b : blank b -> splits b []
| sp_last b w : blank b -> a_word w -> splits (append b w) [w]
| sp_word b w sep s ws : blank b -> a_word w -> sep <> "" -> blank sep -> splits s ws -> splits (append b (append w (append sep s))) (w :: ws).

(** * Lemmas *)
Lemma all_nil : forall P, all_chars P "".
Proof. intros P c []. Qed.
Lemma all_cons : forall P c s, all_chars P (String c s) <-> P c = true /\ all_chars P s.
Proof.
  intros P c s. split.
  - intros H. split; [apply H; left; reflexivity | intros d Hd; apply H; right; exact Hd].
  - intros [A B] d [ <- | Hd ]; [exact A | exact (B d Hd)].
Qed.
Lemma skip_blank : forall b s, blank b -> skip_sp (append b s) = skip_sp s.
Proof. induction b as [|c b IH]; intros s H; [reflexivity|]. apply all_cons in H as [A B]. cbn. rewrite A. apply IH. exact B. Qed.
Lemma skip_word : forall w s, a_word w -> skip_sp (append w s) = append w s.
Proof. intros [|c w] s [N H]; [congruence|]. apply all_cons in H as [A _]. cbn. apply negb_true_iff in A. rewrite A. reflexivity. Qed.
Definition starts_blank (s : string) : Prop := match s with EmptyString => True | String c _ => is_space c = true end.
Lemma word_app : forall w s, all_chars (fun c => negb (is_space c)) w -> starts_blank s -> word (append w s) = (w, s).
Proof.
  induction w as [|c w IH]; intros s H B.
  - cbn. destruct s as [|d s]; [reflexivity|]. cbn in *. rewrite B. reflexivity.
  - apply all_cons in H as [A H]. cbn. apply negb_true_iff in A. rewrite A, (IH s H B). reflexivity.
Qed.
Lemma skip_all : forall b, blank b -> skip_sp b = "".
Proof. induction b as [|c b IH]; intros H; [reflexivity|]. apply all_cons in H as [A B]. cbn. rewrite A. apply IH. exact B. Qed.
Lemma blank_starts : forall b s, b <> "" -> blank b -> starts_blank (append b s).
Proof. intros [|c b] s N H; [congruence|]. apply all_cons in H as [A _]. exact A. Qed.

(** What the function gives, for every text and every number of a field. *)
Theorem C177_partial : forall s ws, splits s ws -> forall k, extract_field s k =
  match nth_error ws k with Some w => Ok w | None => if Nat.eqb k (List.length ws) then Ok "" else Throw EStd end.
Proof.
  unfold extract_field. intros s ws H. induction H as [b Hb | b w Hb Hw | b w sep s ws Hb Hw Hn Hs H IH]; intros k.
  - rewrite skip_all by exact Hb. destruct k; reflexivity.
  - rewrite skip_blank by exact Hb. rewrite <- (append_empty w) at 1. rewrite (skip_word w "" Hw). destruct k as [|k].
    + cbn [fields_from nth_error]. rewrite (word_app w "" (proj2 Hw) Logic.I). reflexivity.
    + cbn [fields_from]. rewrite (word_app w "" (proj2 Hw) Logic.I). destruct w as [|c w]; [destruct Hw; congruence|]. cbn [skip_sp nth_error List.length Nat.eqb].
      destruct k; reflexivity.
  - rewrite skip_blank by exact Hb. rewrite (skip_word w _ Hw). destruct k as [|k].
    + cbn [fields_from nth_error]. rewrite (word_app w _ (proj2 Hw) (blank_starts sep s Hn Hs)). reflexivity.
    + cbn [fields_from]. rewrite (word_app w _ (proj2 Hw) (blank_starts sep s Hn Hs)). destruct w as [|c w]; [destruct Hw; congruence|].
      rewrite skip_blank by exact Hs. rewrite IH. reflexivity.
Qed.
(** Every text is of this form. *)
Theorem C177_all : forall s, exists ws, splits s ws.
Proof.
  assert (G : forall n s, (String.length s <= n)%nat -> exists ws, splits s ws).
  { induction n as [|n IH]; intros s Hs.
    - destruct s; [|cbn in Hs; lia]. exists []. apply sp_blank, all_nil.
    - assert (B : forall t, exists b r, t = append b r /\ blank b /\ match r with EmptyString => True | String c _ => is_space c = false end).
      { clear. induction t as [|c t [b [r [-> [Hb Hr]]]]].
        - exists "", "". split; [reflexivity|]. split; [apply all_nil | exact Logic.I].
        - destruct (is_space c) eqn:E.
          + exists (String c b), r. split; [reflexivity|]. split; [apply all_cons; split; assumption | exact Hr].
          + exists "", (String c (append b r)). split; [reflexivity|]. split; [apply all_nil | exact E]. }
      assert (W : forall t, exists w r, t = append w r /\ all_chars (fun c => negb (is_space c)) w /\ starts_blank r).
      { clear. induction t as [|c t [w [r [-> [Hw Hr]]]]].
        - exists "", "". split; [reflexivity|]. split; [apply all_nil | exact Logic.I].
        - destruct (is_space c) eqn:E.
          + exists "", (String c (append w r)). split; [reflexivity|]. split; [apply all_nil | exact E].
          + exists (String c w), r. split; [reflexivity|]. split; [apply all_cons; split; [rewrite E; reflexivity | assumption] | exact Hr]. }
      destruct (B s) as [b [r [Es [Hb Hr]]]]. destruct r as [|c r].
      + exists []. rewrite Es, append_empty. apply sp_blank. exact Hb.
      + destruct (W (String c r)) as [w [t [Et [Hw Ht]]]].
        assert (Aw : a_word w).
        { split; [|exact Hw]. intros ->. cbn in Et. subst t. cbn in Ht. congruence. }
        rewrite Es, Et. destruct (B t) as [sep [u [Eu [Hsep Hu]]]]. destruct t as [|d t].
        * exists [w]. rewrite append_empty. apply sp_last; assumption.
        * assert (Nsep : sep <> "").
          { intros ->. cbn in Eu. subst u. cbn in Ht. congruence. }
          destruct (IH u) as [ws Hws].
          { assert (L : forall x y, String.length (append x y) = (String.length x + String.length y)%nat) by (clear; induction x; intros; cbn; [reflexivity | rewrite IHx; reflexivity]).
            rewrite Es, Et, Eu, !L in Hs. destruct w; [destruct Aw; congruence|]. cbn in Hs. lia. }
          exists (w :: ws). rewrite Eu. apply sp_word; assumption. }
  intros s. exact (G (String.length s) s (Nat.le_refl _)).
Qed.
(** Full claim: a field that does not exist is refused. *)
Definition C177_statement : Prop := forall s ws, splits s ws -> forall k, extract_field s k = match nth_error ws k with Some w => Ok w | None => Throw EStd end.
Theorem C177_refuted : ~ C177_statement.
Proof.
  intros H. assert (S1 : splits "eth0" ["eth0"]).
  { apply (sp_last "" "eth0"); [apply all_nil|]. split; [discriminate|]. intros c Hc. cbn in Hc. repeat (destruct Hc as [ <- | Hc ]; [reflexivity|]). destruct Hc. }
  specialize (H _ _ S1 1%nat). discriminate H.
Qed.

(** * C178: network information *)
Definition no_newline (s : string) : Prop := ~ In newline (list_ascii_of_string s).
Definition text_of (lines : list string) : string := fold_right (fun l r => append l (String newline r)) "" lines.
(** The columns of /proc/net/route (proc(5)): name, destination, gateway, flags, reference count, use, metric, mask, ... *)
Definition row := list string.
Definition r_name (r : row) : string := nth 0 r "".
Definition r_dest (r : row) : string := nth 1 r "".
Definition r_mask (r : row) : string := nth 7 r "".
(** The route for everything. *)
Definition is_default (r : row) : bool := String.eqb (r_dest r) "00000000" && String.eqb (r_mask r) "00000000".
Definition proper_row (line : string) (r : row) : Prop := splits line r /\ (8 <= List.length r)%nat /\ no_newline line /\ (String.length line < 200)%nat.
(** The interface of the first route for everything, if there is one. *)
Definition default_of (rows : list row) : option string := option_map r_name (find is_default rows).
(** The values an observer may see for an interface. *)
Definition ipv4_of (name : string) (e : netenv) (a : string) : Prop := exists l, e_addrs e = Some l /\ In (name, Some a) l.

Lemma upto_line : forall l r, no_newline l -> upto_newline (append l (String newline r)) = (l, r).
Proof.
  induction l as [|c l IH]; intros r H; cbn.
  - reflexivity.
  - destruct (Ascii.eqb_spec c newline) as [->|N]; [exfalso; apply H; left; reflexivity|]. rewrite IH; [reflexivity|]. intros X. apply H. right. exact X.
Qed.
Lemma getline_line : forall l r, no_newline l -> (String.length l < 200)%nat -> getline (append l (String newline r)) = Some (l, r).
Proof.
  intros l r H L. unfold getline. rewrite (upto_line l r H). apply Nat.ltb_lt in L. rewrite L. destruct l; reflexivity.
Qed.
Lemma first_two : forall line r, proper_row line r -> extract_field line 0 = Ok (r_name r) /\ extract_field line 1 = Ok (r_dest r).
Proof.
  intros line r [S1 [L _]]. split; rewrite (C177_partial _ _ S1); destruct r as [|a [|b r]]; cbn in L; try lia; reflexivity.
Qed.
Lemma scan_rows : forall lines rows, Forall2 proper_row lines rows -> forall fuel, (String.length (text_of lines) <= fuel)%nat ->
  scan_routes fuel (text_of lines) = Ok (match find (fun r => String.eqb (r_dest r) "00000000") rows with Some r => r_name r | None => "" end).
Proof.
  intros lines rows H. induction H as [|l r lines rows Hl H IH]; intros fuel Hf.
  - destruct fuel; reflexivity.
  - cbn [text_of fold_right] in *. change (fold_right _ "" lines) with (text_of lines) in *. destruct fuel as [|fuel].
    + exfalso. clear - Hf. destruct l; cbn in Hf; lia.
    + cbn [scan_routes]. destruct Hl as [S1 [L [N B]]]. rewrite (getline_line l _ N B).
      destruct (first_two l r (conj S1 (conj L (conj N B)))) as [E0 E1]. rewrite E0, E1. cbn [bind find].
      destruct (String.eqb (r_dest r) "00000000"); [reflexivity|]. apply IH.
      assert (X : forall x y, String.length (append x y) = (String.length x + String.length y)%nat) by (clear; induction x; intros; cbn; [reflexivity | rewrite IHx; reflexivity]).
      rewrite X in Hf. cbn in Hf. lia.
Qed.
Lemma find_ext : forall (A : Type) (f g : A -> bool) l, (forall x, In x l -> f x = g x) -> find f l = find g l.
Proof. induction l as [|x l IH]; intros H; [reflexivity|]. cbn. rewrite (H x) by (left; reflexivity). destruct (g x); [reflexivity|]. apply IH. intros y Hy. apply H. right. exact Hy. Qed.
Lemma last_from : forall name (l : list (string * option string)) (acc : string), fold_left (fun acc x => match x with (n, Some a) => if String.eqb name n then a else acc | _ => acc end) l acc = acc /\ (forall a, ~ In (name, Some a) l) \/
  In (name, Some (fold_left (fun acc x => match x with (n, Some a) => if String.eqb name n then a else acc | _ => acc end) l acc)) l.
Proof.
  induction l as [|[n [a|]] l IH]; intros acc; cbn [fold_left].
  - left. split; [reflexivity | intros a []].
  - destruct (String.eqb_spec name n) as [ <- | N].
    + destruct (IH a) as [[E H] | H]; [right; left; rewrite E; reflexivity | right; right; exact H].
    + destruct (IH acc) as [[E H] | H]; [left; split; [exact E|]; intros b [X|X]; [congruence | exact (H b X)] | right; right; exact H].
  - destruct (IH acc) as [[E H] | H]; [left; split; [exact E|]; intros b [X|X]; [congruence | exact (H b X)] | right; right; exact H].
Qed.

Definition C178_statement : Prop := forall e header lines rows, e_routes e = text_of (header :: lines) -> no_newline header -> (String.length header < 200)%nat ->
  Forall2 proper_row lines rows -> exists ip mac host, network_info e = Ok (ip, mac, host) /\
  match default_of rows with Some name => mac = e_mac e name /\ (ipv4_of name e ip \/ ip = "" /\ forall a, ~ ipv4_of name e a) | None => ip = "" /\ mac = "" end.
(** Proved if no other route has the destination 0.0.0.0. *)
Theorem C178_partial : forall e header lines rows, e_routes e = text_of (header :: lines) -> no_newline header -> (String.length header < 200)%nat ->
  Forall2 proper_row lines rows -> (forall r, In r rows -> r_dest r = "00000000" -> r_mask r = "00000000") ->
  exists ip mac host, network_info e = Ok (ip, mac, host) /\ (forall h, e_host e = Some h -> host = h) /\
  match default_of rows with Some name => mac = e_mac e name /\ (ipv4_of name e ip \/ ip = "" /\ forall a, ~ ipv4_of name e a) | None => ip = "" /\ mac = "" end.
Proof.
  intros e header lines rows Ht Nh Lh HF HM.
  assert (D : default_interface (e_routes e) = Ok (match default_of rows with Some n => n | None => "" end)).
  { unfold default_interface. rewrite Ht. cbn [text_of fold_right]. change (fold_right _ "" lines) with (text_of lines). rewrite (getline_line header _ Nh Lh).
    rewrite (scan_rows lines rows HF) by lia. unfold default_of. rewrite (find_ext row _ is_default rows); [destruct (find is_default rows); reflexivity|].
    intros r Hr. unfold is_default. destruct (String.eqb_spec (r_dest r) "00000000") as [E|]; [|reflexivity]. rewrite (HM r Hr E). reflexivity. }
  assert (NE : forall name, default_of rows = Some name -> name <> "").
  { intros name Hd. unfold default_of in Hd. destruct (find is_default rows) as [r|] eqn:Ef; [|discriminate]. injection Hd as <-.
    apply find_some in Ef as [Hin _].
    assert (G : exists l, proper_row l r).
    { clear - HF Hin. induction HF as [|l r0 ls rs H0 HF IH]; [destruct Hin|]. destruct Hin as [ -> | Hin ]; [exists l; exact H0 | exact (IH Hin)]. }
    destruct G as [l [S1 [L _]]]. destruct S1 as [|b w Hb Hw|b w sep s ws Hb Hw]; [cbn in L; lia | cbn in L; lia | exact (proj1 Hw)]. }
  unfold network_info. rewrite D. cbn [bind]. destruct (default_of rows) as [name|] eqn:Ed.
  - specialize (NE name eq_refl). apply String.eqb_neq in NE. rewrite NE. eexists _, _, _. split; [reflexivity|]. split; [intros h ->; reflexivity|]. split; [reflexivity|].
    destruct (e_addrs e) as [l|] eqn:Ea.
    + destruct (last_from name l "") as [[E H] | H].
      * right. split; [exact E|]. intros a [l' [X Y]]. rewrite Ea in X. injection X as <-. exact (H a Y).
      * left. exists l. split; [exact Ea | exact H].
    + right. split; [reflexivity|]. intros a [l' [X _]]. congruence.
  - cbn [String.eqb]. eexists _, _, _. split; [reflexivity|]. split; [intros h ->; reflexivity|]. split; reflexivity.
Qed.
(** A route to 0.0.0.0/1, as VPN clients make it, passes for the route for everything: the mask is not looked at. *)
Definition vpn_line : string := "tun0 00000000 0108000A 0003 0 0 0 00000080 0 0 0".
Definition eth_line : string := "eth0 00000000 0100A8C0 0003 0 0 0 00000000 0 0 0".
Definition vpn_row : row := ["tun0"; "00000000"; "0108000A"; "0003"; "0"; "0"; "0"; "00000080"; "0"; "0"; "0"].
Definition eth_row : row := ["eth0"; "00000000"; "0100A8C0"; "0003"; "0"; "0"; "0"; "00000000"; "0"; "0"; "0"].
Definition check_word (w : string) : bool := negb (String.eqb w "") && forallb (fun c => negb (is_space c)) (list_ascii_of_string w).
Lemma check_word_ok : forall w, check_word w = true -> a_word w.
Proof.
  intros w H. apply andb_true_iff in H as [A B]. split; [intros ->; discriminate A|]. intros c Hc. rewrite forallb_forall in B. exact (B c Hc).
Qed.
Lemma splits_join : forall ws, forallb check_word ws = true -> ws <> [] -> splits (String.concat " " ws) ws.
Proof.
  induction ws as [|w ws IH]; intros H N; [congruence|]. cbn [forallb] in H. apply andb_true_iff in H as [A B]. apply check_word_ok in A.
  destruct ws as [|v ws].
  - apply (sp_last "" w); [apply all_nil | exact A].
  - change (String.concat " " (w :: v :: ws)) with (append "" (append w (append " " (String.concat " " (v :: ws))))).
    apply sp_word; [apply all_nil | exact A | discriminate | | apply IH; [exact B | discriminate]].
    intros c [ <- | [] ]. reflexivity.
Qed.
Lemma proper_join : forall r, forallb check_word r = true -> (8 <= List.length r)%nat -> (String.length (String.concat " " r) < 200)%nat ->
  forallb (fun c => negb (Ascii.eqb c newline)) (list_ascii_of_string (String.concat " " r)) = true -> proper_row (String.concat " " r) r.
Proof.
  intros r A B C D. split; [apply splits_join; [exact A | destruct r; [cbn in B; lia | discriminate]]|]. split; [exact B|]. split; [|exact C].
  intros X. rewrite forallb_forall in D. specialize (D _ X). rewrite Ascii.eqb_refl in D. discriminate D.
Qed.
Definition toy_env (lines : list string) : netenv :=
  {| e_routes := text_of ("Iface Destination Gateway" :: lines); e_addrs := Some [("lo", Some "127.0.0.1"); ("tun0", Some "10.8.0.2"); ("eth0", None); ("eth0", Some "192.168.0.7")];
     e_mac := fun n => append "mac of " n; e_host := Some "car" |}.
Lemma toy_header : no_newline "Iface Destination Gateway" /\ (String.length "Iface Destination Gateway" < 200)%nat.
Proof. split; [|cbn; lia]. intros X. cbn in X. repeat (destruct X as [X|X]; [discriminate X|]). destruct X. Qed.
Lemma toy_rows : proper_row vpn_line vpn_row /\ proper_row eth_line eth_row.
Proof. split; [apply (proper_join vpn_row) | apply (proper_join eth_row)]; try reflexivity; vm_compute; lia. Qed.
Theorem C178_refuted : ~ C178_statement.
Proof.
  intros H. destruct toy_header as [A B]. destruct toy_rows as [V E].
  destruct (H (toy_env [vpn_line; eth_line]) _ [vpn_line; eth_line] [vpn_row; eth_row] eq_refl A B (Forall2_cons _ _ V (Forall2_cons _ _ E (Forall2_nil _)))) as [ip [mac [host [N D]]]].
  vm_compute in N. injection N as <- <- <-. destruct D as [D _]. vm_compute in D. discriminate D.
Qed.
(** Nothing is reported if it is switched off, nor if the table cannot be understood. *)
Theorem C178_reported : forall enabled e x, reported enabled e = Some x -> enabled = true /\ network_info e = Ok x.
Proof. intros [] e x; cbn; [|discriminate]. destruct (network_info e); [intros [= ->]; auto | discriminate]. Qed.

(** * C179: the address a connection goes to *)
Definition dotted (a b c d : Z) : string := append (to_dec a) (append "." (append (to_dec b) (append "." (append (to_dec c) (append "." (to_dec d)))))).
Definition octet (n : Z) : Prop := 0 <= n <= 255.
Definition an_address (s : string) (l : list Z) : Prop := exists a b c d, octet a /\ octet b /\ octet c /\ octet d /\ l = [a; b; c; d] /\ s = dotted a b c d.

Definition joined (l : list Z) : string := fold_right (fun n r => append (to_dec n) (append "." r)) "" l.
Lemma joined_snoc : forall l n, joined (l ++ [n]) = append (joined l) (append (to_dec n) ".").
Proof.
  induction l as [|x l IH]; intros n; [reflexivity|]. cbn [app joined fold_right]. change (fold_right _ "" ?x) with (joined x). rewrite IH.
  rewrite <- !append_assoc. reflexivity.
Qed.
Definition digit_char (d : Z) : string := String (ascii_of_nat (Z.to_nat (d + 48))) "".
Lemma digit_spec : forall c d, digit c = Some d -> 0 <= d <= 9 /\ digit_char d = String c "".
Proof.
  intros c d H. unfold digit in H. destruct ((48 <=? Z.of_nat (nat_of_ascii c)) && (Z.of_nat (nat_of_ascii c) <=? 57)) eqn:E; [|discriminate].
  injection H as <-. apply andb_true_iff in E as [A B]. apply Z.leb_le in A. apply Z.leb_le in B. split; [lia|]. unfold digit_char.
  replace (Z.of_nat (nat_of_ascii c) - 48 + 48) with (Z.of_nat (nat_of_ascii c)) by lia. rewrite Nat2Z.id, ascii_nat_embedding. reflexivity.
Qed.
Lemma below : forall (P : Z -> bool) n, forallb P (map Z.of_nat (seq 0 n)) = true -> forall z, 0 <= z < Z.of_nat n -> P z = true.
Proof.
  intros P n H z Hz. rewrite forallb_forall in H. apply H. apply in_map_iff. exists (Z.to_nat z). split; [lia|]. apply in_seq. lia.
Qed.
Lemma dec_digit : forall d, 0 <= d <= 9 -> to_dec d = digit_char d.
Proof.
  intros d H. apply String.eqb_eq. apply (below (fun d => String.eqb (to_dec d) (digit_char d)) 10); [vm_compute; reflexivity | lia].
Qed.
Lemma dec_push : forall n d, 0 < n -> 0 <= d <= 9 -> n * 10 + d <= 255 -> to_dec (n * 10 + d) = append (to_dec n) (digit_char d).
Proof.
  intros n d Hn Hd Hs. apply String.eqb_eq.
  assert (G : forallb (fun n => forallb (fun d => (n =? 0) || String.eqb (to_dec (n * 10 + d)) (append (to_dec n) (digit_char d))) (map Z.of_nat (seq 0 10))) (map Z.of_nat (seq 0 26)) = true) by (vm_compute; reflexivity).
  pose proof (below _ 26 G n) as Gn. cbv beta in Gn. assert (R : 0 <= n < Z.of_nat 26) by lia. specialize (Gn R).
  pose proof (below _ 10 Gn d) as Gd. cbv beta in Gd. assert (R2 : 0 <= d < Z.of_nat 10) by lia. specialize (Gd R2).
  apply orb_true_iff in Gd as [X|X]; [apply Z.eqb_eq in X; lia | exact X].
Qed.
(** What is accepted is an address and is read as it is written. *)
Lemma pton_sound : forall s done cur saw l, pton_from done cur saw s = Some l -> (List.length done <= 3)%nat -> Forall octet done ->
  octet cur -> (saw = false -> cur = 0) ->
  exists rest, l = done ++ rest /\ List.length l = 4%nat /\ Forall octet l /\
  append (joined l) "" = append (joined done) (append (if saw then to_dec cur else "") (append s ".")).
Proof.
  induction s as [|c s IH]; intros done cur saw l H Hl Hd Hc Hs.
  - cbn in H. destruct saw; [|discriminate]. cbn in H. destruct (Nat.eqb_spec (List.length done) 3) as [E|]; [|discriminate]. injection H as <-.
    exists [cur]. split; [reflexivity|]. split; [rewrite app_length, E; reflexivity|]. split; [apply Forall_app; split; [exact Hd | repeat constructor; [apply Hc | apply Hc]]|].
    rewrite append_empty, joined_snoc. reflexivity.
  - cbn [pton_from] in H. destruct (digit c) as [d|] eqn:Ed.
    + destruct (digit_spec c d Ed) as [Rd Cd]. destruct (saw && (cur =? 0)) eqn:E0; [discriminate|]. destruct (Z.ltb_spec 255 (cur * 10 + d)) as [|Hsm]; [discriminate|].
      destruct (negb saw && Nat.leb 4 (List.length done)); [discriminate|].
      destruct (IH done (cur * 10 + d) true l H Hl Hd) as [rest [A [B [C D]]]]; [destruct Hc; split; lia | discriminate|].
      exists rest. split; [exact A|]. split; [exact B|]. split; [exact C|]. rewrite D. f_equal.
      change (append (String c s) ".") with (append (append (String c "") s) "."). rewrite <- Cd.
      destruct saw.
      * cbn in E0. apply Z.eqb_neq in E0. destruct Hc. rewrite dec_push by lia. rewrite <- !append_assoc. reflexivity.
      * rewrite (Hs eq_refl). change (0 * 10 + d) with d. rewrite (dec_digit d Rd). rewrite <- append_assoc. reflexivity.
    + destruct (Ascii.eqb_spec c ".") as [->|]; [|discriminate]. destruct saw; [|discriminate]. cbn [andb] in H.
      destruct (Nat.ltb_spec (List.length done) 3) as [L|]; [|discriminate].
      destruct (IH (done ++ [cur]) 0 false l H) as [rest [A [B [C D]]]].
      * rewrite app_length. cbn. lia.
      * apply Forall_app. split; [exact Hd | repeat constructor; apply Hc].
      * split; lia.
      * reflexivity.
      * exists (cur :: rest). split; [rewrite A, <- List.app_assoc; reflexivity|]. split; [exact B|]. split; [exact C|].
        rewrite D, joined_snoc. rewrite <- !append_assoc. reflexivity.
Qed.
Lemma append_inj_r : forall a b x, append a x = append b x -> a = b.
Proof.
  assert (L : forall x y, String.length (append x y) = (String.length x + String.length y)%nat) by (clear; induction x; intros; cbn; [reflexivity | rewrite IHx; reflexivity]).
  induction a as [|c a IH]; intros [|d b] x H.
  - reflexivity.
  - apply (f_equal String.length) in H. cbn in H. rewrite L in H. lia.
  - apply (f_equal String.length) in H. cbn in H. rewrite L in H. lia.
  - cbn in H. injection H as -> H. f_equal. exact (IH b x H).
Qed.
Lemma dec_octet_scan : forall n done s, octet n -> (List.length done <= 3)%nat -> pton_from done 0 false (append (to_dec n) s) = pton_from done n true s.
Proof.
  assert (D : forall d, 0 <= d <= 9 -> exists c, digit_char d = String c "" /\ digit c = Some d).
  { intros d H. exists (ascii_of_nat (Z.to_nat (d + 48))). split; [reflexivity|]. unfold digit. rewrite nat_ascii_embedding by lia. rewrite Z2Nat.id by lia.
    rewrite (proj2 (Z.leb_le 48 (d + 48))) by lia. rewrite (proj2 (Z.leb_le (d + 48) 57)) by lia. cbn [andb]. f_equal. lia. }
  assert (one : forall d done s, 0 <= d <= 9 -> (List.length done <= 3)%nat -> pton_from done 0 false (append (digit_char d) s) = pton_from done d true s).
  { intros d done s H L. destruct (D d H) as [c [-> E]]. cbn [append pton_from]. rewrite E. cbn [andb negb].
    replace (0 * 10 + d) with d by lia. rewrite (proj2 (Z.ltb_ge 255 d)) by lia. rewrite (proj2 (Nat.leb_gt 4 (List.length done))) by lia. reflexivity. }
  assert (more : forall n d done s, 0 < n -> 0 <= d <= 9 -> n * 10 + d <= 255 -> pton_from done n true (append (digit_char d) s) = pton_from done (n * 10 + d) true s).
  { intros n d done s Hn Hd Hs. destruct (D d Hd) as [c [-> E]]. cbn [append pton_from]. rewrite E. cbn [andb negb].
    rewrite (proj2 (Z.eqb_neq n 0)) by lia. rewrite (proj2 (Z.ltb_ge 255 (n * 10 + d))) by lia. reflexivity. }
  intros n done s [H0 H1] L. destruct (Z_lt_le_dec n 10) as [A|A].
  - rewrite (dec_digit n) by lia. apply one; [lia | exact L].
  - pose proof (Z.div_mod n 10 ltac:(lia)) as DM. pose proof (Z.mod_pos_bound n 10 ltac:(lia)) as MB. set (q := n / 10) in *. set (r := n mod 10) in *.
    replace n with (q * 10 + r) by lia. rewrite (dec_push q r) by lia. rewrite <- append_assoc. destruct (Z_lt_le_dec q 10) as [B|B].
    + rewrite (dec_digit q) by lia. rewrite one by (lia || exact L). apply more; lia.
    + pose proof (Z.div_mod q 10 ltac:(lia)) as DM2. pose proof (Z.mod_pos_bound q 10 ltac:(lia)) as MB2. set (q2 := q / 10) in *. set (r2 := q mod 10) in *.
      replace q with (q2 * 10 + r2) by lia. rewrite (dec_push q2 r2) by lia. rewrite <- append_assoc. rewrite (dec_digit q2) by lia.
      rewrite one by (lia || exact L). rewrite more by lia. rewrite more by lia. reflexivity.
Qed.
Lemma pton_complete : forall a b c d, octet a -> octet b -> octet c -> octet d -> inet_pton (dotted a b c d) = Some [a; b; c; d].
Proof.
  intros a b c d A B C D. unfold inet_pton, dotted.
  rewrite (dec_octet_scan a [] _ A) by (cbn; lia). cbn [append pton_from]. change (digit ".") with (@None Z). cbn [Ascii.eqb Bool.eqb andb List.length Nat.ltb Nat.leb app].
  rewrite (dec_octet_scan b [a] _ B) by (cbn; lia). cbn [append pton_from]. change (digit ".") with (@None Z). cbn [Ascii.eqb Bool.eqb andb List.length Nat.ltb Nat.leb app].
  rewrite (dec_octet_scan c [a; b] _ C) by (cbn; lia). cbn [append pton_from]. change (digit ".") with (@None Z). cbn [Ascii.eqb Bool.eqb andb List.length Nat.ltb Nat.leb app].
  rewrite <- (append_empty (to_dec d)). rewrite (dec_octet_scan d [a; b; c] _ D) by (cbn; lia). reflexivity.
Qed.

Definition C179_statement : Prop := forall s l, connection_address s = Ok l -> an_address s l.
(** A text that is an address is used as it is; any other goes to 0.0.0.0, which is the device itself. *)
Theorem C179_partial : forall s l, connection_address s = Ok l <-> an_address s l \/ (l = [0; 0; 0; 0] /\ forall l', ~ an_address s l').
Proof.
  assert (S1 : forall s l, inet_pton s = Some l -> an_address s l).
  { intros s l H. destruct (pton_sound s [] 0 false l H) as [rest [E [L [F J]]]]; [cbn; lia | constructor | split; lia | reflexivity|].
    destruct l as [|a [|b [|c [|d [|x l]]]]]; try discriminate L. inversion_clear F as [|? ? A F1]. inversion_clear F1 as [|? ? B F2]. inversion_clear F2 as [|? ? C F3]. inversion_clear F3 as [|? ? D _].
    exists a, b, c, d. repeat (split; [assumption || reflexivity|]). apply (append_inj_r _ _ "."). rewrite append_empty in J. cbn [joined fold_right] in J. unfold dotted. rewrite <- !append_assoc.
    cbn [append] in J |- *. rewrite <- J. rewrite ?append_empty. reflexivity. }
  assert (S2 : forall s l, an_address s l -> inet_pton s = Some l).
  { intros s l [a [b [c [d [A [B [C [D [-> ->]]]]]]]]]. apply pton_complete; assumption. }
  intros s l. unfold connection_address. destruct (inet_pton s) as [l0|] eqn:E.
  - split.
    + intros [= <-]. left. apply S1. exact E.
    + intros [H | [_ H]]; [apply S2 in H; congruence | exfalso; exact (H l0 (S1 s l0 E))].
  - split.
    + intros [= <-]. right. split; [reflexivity|]. intros l' H. apply S2 in H. congruence.
    + intros [H | [-> _]]; [apply S2 in H; congruence | reflexivity].
Qed.
Theorem C179_refuted : ~ C179_statement.
Proof.
  intros H. destruct (H "secondary1" [0; 0; 0; 0] eq_refl) as [a [b [c [d [_ [_ [_ [_ [E D]]]]]]]]]. injection E as <- <- <- <-. vm_compute in D. discriminate D.
Qed.

(** * Examples *)
Example C177_example : splits " eth0  00000000" ["eth0"; "00000000"].
Proof.
  apply (sp_word " " "eth0" "  " "00000000" ["00000000"]); try discriminate; try (apply check_word_ok; reflexivity); try (intros c Hc; cbn in Hc; repeat (destruct Hc as [ <- | Hc ]; [reflexivity|]); destruct Hc).
  apply (sp_last "" "00000000"); [apply all_nil | apply check_word_ok; reflexivity].
Qed.
Example C178_example : Forall2 proper_row [eth_line] [eth_row] /\ default_of [eth_row] = Some "eth0" /\ network_info (toy_env [eth_line]) = Ok ("192.168.0.7", "mac of eth0", "car").
Proof. split; [repeat constructor; apply toy_rows | split; vm_compute; reflexivity]. Qed.
Example C179_example : an_address "192.168.0.7" [192; 168; 0; 7].
Proof. exists 192, 168, 0, 7. unfold octet. repeat (split; [lia || reflexivity|]). vm_compute. reflexivity. Qed.
Print Assumptions C177_partial.
Print Assumptions C177_all.
Print Assumptions C177_refuted.
Print Assumptions C178_partial.
Print Assumptions C178_refuted.
Print Assumptions C178_reported.
Print Assumptions C179_partial.
Print Assumptions C179_refuted.
