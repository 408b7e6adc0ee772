(** Messages arrive in pieces: framing of the stream. *)
From Verif Require Import Base BufModel BufSpec BufProofs.

Opaque capacity.
Section F.
Context {ctx msg : Type} (ctx0 : ctx) (dec : ctx -> list byte -> dcode * Z * ctx * msg) (enc : msg -> list byte) (k : nat).
Context (R : ctx -> list byte -> Prop) (R0 : R ctx0 []).
Context (HD : forall c p m q, R c p -> enc m = p ++ q -> q <> [] ->
    (forall more, exists c', dec c (q ++ more) = (DOk, Z.of_nat (List.length q), c', m)) /\
    (forall l r, q = l ++ r -> r <> [] -> exists used c' m', dec c l = (DMore, Z.of_nat used, c', m') /\
       (used <= List.length l)%nat /\ (List.length l - used <= k)%nat /\ R c' (p ++ firstn used l))).
Context (handle : list msg -> msg -> hcode) (send_ok : list msg -> bool) (rai : bool).

(** One recv of data that fits. *)
Lemma recv_data b c d rs : wf b -> recv_ok b (RData d) = true -> exists b2, wf b2 /\ contents b2 = contents b ++ d /\
  read_msg dec b c (RData d :: rs) = (let '(code, used, c', m) := dec c (contents b2) in
     match consume b2 used with Throw _ => GThrow | Ok b3 => match code with DMore => read_msg dec b3 c' rs | _ => GMsg b3 (RData d) code m rs end end).
Proof.
  intros W H. cbn [read_msg]. rewrite H. cbn [negb do_recv]. unfold recv_ok in H. apply andb_true_iff in H. destruct H as (_ & H). apply Z.leb_le in H.
  destruct (put_ok b d W H) as (b2 & E & W2 & C2). rewrite E. exists b2. split; auto.
Qed.
Lemma fits b d : wf b -> d <> [] -> (List.length d <= capacity - List.length (contents b))%nat -> recv_ok b (RData d) = true.
Proof.
  intros W N L. unfold recv_ok. rewrite tail_space_eq by auto. pose proof (contents_length b W) as CL. destruct W as (_ & W).
  apply andb_true_iff. split; [apply Z.ltb_lt; destruct d; [congruence|simpl; lia]|]. apply Z.leb_le. lia.
Qed.
Lemma length0 {A} (l : list A) : List.length l = 0%nat -> l = []. Proof. destruct l; [auto|discriminate]. Qed.

(** A message that arrives in pieces of its own. *)
Lemma read_pieces m : forall ds b c p rs, wf b -> R c p -> enc m = p ++ contents b ++ List.concat ds -> (List.length (contents b) <= k)%nat ->
  ds <> [] -> (forall d, In d ds -> d <> [] /\ (List.length d <= capacity - k)%nat) ->
  exists b' d, read_msg dec b c (map RData ds ++ rs) = GMsg b' (RData d) DOk m rs /\ wf b' /\ contents b' = [].
Proof.
  induction ds as [|d ds IH]; intros b c p rs W Rc E K N S; [congruence|]. clear N. destruct (S d (or_introl eq_refl)) as (Nd & Ld).
  simpl map. rewrite <- app_comm_cons. destruct (recv_data b c d (map RData ds ++ rs) W) as (b2 & W2 & C2 & ->); [apply fits; auto; lia|].
  pose proof (contents_length b2 W2) as L2. simpl List.concat in E. destruct ds as [|d' ds'].
  - simpl in E. rewrite app_nil_r, <- C2 in E.
    assert (Nq : contents b2 <> []) by (rewrite C2; destruct (contents b), d; simpl; congruence).
    destruct (HD c p m _ Rc E Nq) as (H & _). destruct (H []) as (c' & Hd). rewrite app_nil_r in Hd. rewrite Hd.
    destruct (consume_ok b2 (Z.of_nat (List.length (contents b2))) W2) as (b3 & -> & W3 & C3); [lia|].
    exists b3, d. split; [reflexivity|]. split; auto. rewrite C3, Nat2Z.id. apply skipn_all.
  - assert (Nr : List.concat (d' :: ds') <> []).
    { destruct (S d' (or_intror (or_introl eq_refl))) as (Nd' & _). simpl. destruct d'; simpl; congruence. }
    rewrite (app_assoc (contents b)), <- C2 in E.
    destruct (HD c p m _ Rc E) as (_ & H); [destruct (contents b2); simpl; [exact Nr|discriminate]|].
    destruct (H (contents b2) _ eq_refl Nr) as (used & c' & m' & Hd & U1 & U2 & Rc'). rewrite Hd.
    destruct (consume_ok b2 (Z.of_nat used) W2) as (b3 & -> & W3 & C3); [lia|]. rewrite Nat2Z.id in C3.
    apply (IH b3 c' (p ++ firstn used (contents b2)) rs W3 Rc').
    + rewrite C3, E, <- !app_assoc. f_equal. rewrite app_assoc. now rewrite firstn_skipn.
    + rewrite C3, skipn_length. lia.
    + discriminate.
    + intros x Hx. apply S. now right.
Qed.
Theorem conversation : (forall m, enc m <> []) -> served handle send_ok rai -> forall ms css fuel b seen tail, Forall2 (pieces_of enc k) ms css -> (List.length (List.concat css) < fuel)%nat -> wf b -> contents b = [] ->
  exists fuel' b', wf b' /\ contents b' = [] /\ (fuel <= fuel' + List.length (List.concat css))%nat /\
  handle_conn ctx0 dec handle send_ok rai fuel b seen (map RData (List.concat css) ++ tail) = handle_conn ctx0 dec handle send_ok rai fuel' b' (seen ++ ms) tail.
Proof.
  intros Ne (HH & HS). induction ms as [|m ms IH]; intros css fuel b seen tail F Lf W C; inversion F as [|? cs ? css' (P1 & P2) F']; subst.
  - exists fuel, b. rewrite app_nil_r. simpl. split; auto. split; auto. split; [lia|auto].
  - destruct fuel as [|fuel]; [lia|]. simpl List.concat in *. rewrite map_app, <- app_assoc.
    assert (Nc : cs <> []) by (intros ->; apply (Ne m); now rewrite <- P1).
    destruct (read_pieces m cs b ctx0 [] (map RData (List.concat css') ++ tail) W R0) as (b' & d & E & W' & C'); auto.
    { rewrite C. simpl. congruence. } { rewrite C. simpl. lia. }
    cbn [handle_conn]. rewrite E, HS. rewrite app_length in *.
    assert (G : exists fuel' b'0, wf b'0 /\ contents b'0 = [] /\ (S fuel <= fuel' + (List.length cs + List.length (List.concat css')))%nat /\
       handle_conn ctx0 dec handle send_ok rai fuel b' (seen ++ [m]) (map RData (List.concat css') ++ tail) = handle_conn ctx0 dec handle send_ok rai fuel' b'0 (seen ++ m :: ms) tail).
    { destruct cs; [congruence|]. simpl in *. destruct (IH css' fuel b' (seen ++ [m]) tail F') as (f' & b2 & A1 & A2 & A3 & A4); auto; [lia|].
      exists f', b2. rewrite A4, <- app_assoc. split; auto. split; auto. split; [lia|reflexivity]. }
    destruct (HH seen m) as [-> | (-> & ->)]; exact G.
Qed.

(** However the bytes are split: what is handled is a prefix of what was sent. *)
Lemma read_any m : forall ds b c p q more future, wf b -> R c p -> enc m = p ++ q -> q <> [] -> contents b ++ List.concat ds ++ future = q ++ more ->
  match read_msg dec b c (map RData ds) with
  | GWait => True
  | GMsg b' (RData _) DOk m' rest => m' = m /\ wf b' /\ exists ds', rest = map RData ds' /\ contents b' ++ List.concat ds' ++ future = more
  | _ => False
  end.
Proof.
  induction ds as [|d ds IH]; intros b c p q more future W Rc E Nq S; [exact I|]. simpl map.
  destruct (recv_ok b (RData d)) eqn:RO; [|cbn [read_msg]; rewrite RO; exact I].
  destruct (recv_data b c d (map RData ds) W RO) as (b2 & W2 & C2 & ->). pose proof (contents_length b2 W2) as L2.
  simpl List.concat in S. rewrite <- app_assoc, app_assoc, <- C2 in S.
  destruct (HD c p m q Rc E Nq) as (H1 & H2). destruct (Nat.le_gt_cases (List.length q) (List.length (contents b2))) as [Hle|Hlt].
  - assert (Hq : contents b2 = q ++ skipn (List.length q) (contents b2)).
    { rewrite <- (firstn_skipn (List.length q) (contents b2)) at 1. f_equal.
      transitivity (firstn (List.length q) (contents b2 ++ List.concat ds ++ future)); [|rewrite S; rewrite firstn_app, Nat.sub_diag, firstn_all; simpl; apply app_nil_r].
      rewrite firstn_app. replace (List.length q - List.length (contents b2))%nat with 0%nat by lia. simpl. now rewrite app_nil_r. }
    destruct (H1 (skipn (List.length q) (contents b2))) as (c' & Hd). rewrite <- Hq in Hd. rewrite Hd.
    destruct (consume_ok b2 (Z.of_nat (List.length q)) W2) as (b3 & -> & W3 & C3); [lia|]. rewrite Nat2Z.id in C3.
    split; auto. split; auto. exists ds. split; auto. rewrite C3. rewrite Hq in S at 1. rewrite <- app_assoc in S. now apply app_inv_head in S.
  - assert (Hq : q = contents b2 ++ skipn (List.length (contents b2)) q).
    { rewrite <- (firstn_skipn (List.length (contents b2)) q) at 1. f_equal.
      transitivity (firstn (List.length (contents b2)) (q ++ more)); [|rewrite <- S; rewrite firstn_app, Nat.sub_diag, firstn_all; simpl; apply app_nil_r].
      rewrite firstn_app. replace (List.length (contents b2) - List.length q)%nat with 0%nat by lia. simpl. now rewrite app_nil_r. }
    assert (Nr : skipn (List.length (contents b2)) q <> []).
    { intros X. apply (f_equal (@List.length byte)) in X. rewrite skipn_length in X. simpl in X. lia. }
    destruct (H2 (contents b2) _ Hq Nr) as (used & c' & m' & Hd & U1 & U2 & Rc'). rewrite Hd.
    destruct (consume_ok b2 (Z.of_nat used) W2) as (b3 & -> & W3 & C3); [lia|]. rewrite Nat2Z.id in C3.
    apply (IH b3 c' (p ++ firstn used (contents b2)) (skipn used (contents b2) ++ skipn (List.length (contents b2)) q) more future W3 Rc').
    + rewrite E, Hq at 1. rewrite <- !app_assoc. f_equal. rewrite app_assoc. now rewrite firstn_skipn.
    + intros X. apply app_eq_nil in X. tauto.
    + rewrite C3. rewrite Hq in S. rewrite <- (firstn_skipn used (contents b2)) in S at 1 2. rewrite <- !app_assoc in S. apply app_inv_head in S.
      rewrite <- !app_assoc. exact S.
Qed.
Theorem any_pieces : (forall m, enc m <> []) -> forall fuel ms ds future b seen, wf b -> contents b ++ List.concat ds ++ future = List.concat (map enc ms) ->
  match handle_conn ctx0 dec handle send_ok rai fuel b seen (map RData ds) with
  | CThrow => False | CWait s | CDone _ s => exists n, s = seen ++ firstn n ms
  end.
Proof.
  intros Ne. induction fuel as [|fuel IH]; intros ms ds future b seen W S; [exists 0%nat; simpl; now rewrite app_nil_r|]. cbn [handle_conn].
  destruct ms as [|m ms].
  - simpl in S. apply app_eq_nil in S. destruct S as (S1 & S2). apply app_eq_nil in S2. destruct S2 as (S2 & _).
    assert (X : read_msg dec b ctx0 (map RData ds) = GWait).
    { destruct ds as [|d ds]; [reflexivity|]. simpl in S2. apply app_eq_nil in S2. destruct S2 as (-> & _). reflexivity. }
    rewrite X. exists 0%nat. now rewrite app_nil_r.
  - simpl in S. pose proof (read_any m ds b ctx0 [] (enc m) (List.concat (map enc ms)) future W R0 eq_refl (Ne m) S) as X.
    destruct (read_msg dec b ctx0 (map RData ds)) as [b' r code m' rest| |]; [|tauto|exists 0%nat; simpl; now rewrite app_nil_r].
    destruct r; [|tauto|tauto]. destruct code; [|tauto|tauto]. destruct X as (-> & W' & ds' & -> & S').
    assert (G1 : exists n, seen ++ [m] = seen ++ firstn n (m :: ms)) by (exists 1%nat; reflexivity).
    assert (G : match handle_conn ctx0 dec handle send_ok rai fuel b' (seen ++ [m]) (map RData ds') with
      | CThrow => False | CWait s | CDone _ s => exists n, s = seen ++ firstn n (m :: ms) end).
    { specialize (IH ms ds' future b' (seen ++ [m]) W' S'). destruct (handle_conn ctx0 dec handle send_ok rai fuel b' (seen ++ [m]) (map RData ds')); auto;
      destruct IH as (n & ->); exists (Datatypes.S n); simpl; now rewrite <- app_assoc. }
    destruct (handle seen m); [|destruct rai|]; try destruct (send_ok (seen ++ [m])); auto.
Qed.

(** The Primary's side. *)
Lemma rpc_pieces m : forall ds b c p rs, wf b -> R c p -> enc m = p ++ contents b ++ List.concat ds -> (List.length (contents b) <= k)%nat ->
  ds <> [] -> (forall d, In d ds -> d <> [] /\ (List.length d <= capacity - k)%nat) ->
  rpc_read dec b c (map RData ds ++ rs) = Ok (Some (Some m)).
Proof.
  induction ds as [|d ds IH]; intros b c p rs W Rc E K N S; [congruence|]. clear N. destruct (S d (or_introl eq_refl)) as (Nd & Ld).
  simpl map. rewrite <- app_comm_cons. cbn [rpc_read]. assert (RO : recv_ok b (RData d) = true) by (apply fits; auto; lia). rewrite RO. cbn [negb do_recv].
  unfold recv_ok in RO. apply andb_true_iff in RO. destruct RO as (_ & RO). apply Z.leb_le in RO.
  destruct (put_ok b d W RO) as (b2 & -> & W2 & C2).
  pose proof (contents_length b2 W2) as L2. simpl List.concat in E. destruct ds as [|d' ds'].
  - simpl in E. rewrite app_nil_r, <- C2 in E.
    assert (Nq : contents b2 <> []) by (rewrite C2; destruct (contents b), d; simpl; congruence).
    destruct (HD c p m _ Rc E Nq) as (H & _). destruct (H []) as (c' & Hd). rewrite app_nil_r in Hd. rewrite Hd.
    destruct (consume_ok b2 (Z.of_nat (List.length (contents b2))) W2) as (b3 & -> & W3 & C3); [lia|]. reflexivity.
  - assert (Nr : List.concat (d' :: ds') <> []).
    { destruct (S d' (or_intror (or_introl eq_refl))) as (Nd' & _). simpl. destruct d'; simpl; congruence. }
    rewrite (app_assoc (contents b)), <- C2 in E.
    destruct (HD c p m _ Rc E) as (_ & H); [destruct (contents b2); simpl; [exact Nr|discriminate]|].
    destruct (H (contents b2) _ eq_refl Nr) as (used & c' & m' & Hd & U1 & U2 & Rc'). rewrite Hd.
    destruct (consume_ok b2 (Z.of_nat used) W2) as (b3 & -> & W3 & C3); [lia|]. rewrite Nat2Z.id in C3.
    apply (IH b3 c' (p ++ firstn used (contents b2)) rs W3 Rc').
    + rewrite C3, E, <- !app_assoc. f_equal. rewrite app_assoc. now rewrite firstn_skipn.
    + rewrite C3, skipn_length. lia.
    + discriminate.
    + intros x Hx. apply S. now right.
Qed.
Lemma eof_ends : dec_ok dec -> forall fuel b seen, wf b -> handle_conn ctx0 dec handle send_ok rai (S fuel) b seen [REof] = CDone true seen.
Proof.
  intros D fuel b seen W. cbn [handle_conn read_msg recv_ok negb do_recv].
  rewrite have_ok; [|exact W|lia|destruct W as (_ & W); rewrite cap_val in W; lia]. destruct (Z.ltb_spec (Z.of_nat capacity) (b_written b + 0)); [destruct W; lia|].
  set (b2 := {| b_mem := b_mem b; b_written := b_written b + 0 |}). assert (W2 : wf b2) by (destruct W; split; simpl; [auto|lia]).
  pose proof (D ctx0 (contents b2)) as Db. destruct (dec ctx0 (contents b2)) as (((code & used) & c') & m). rewrite (contents_length b2 W2) in Db.
  destruct (consume_ok b2 used W2 Db) as (b3 & -> & _). destruct code; reflexivity.
Qed.
Theorem conversation_served ms css seen l : dec_ok dec -> (forall m, enc m <> []) -> served handle send_ok rai -> Forall2 (pieces_of enc k) ms css ->
  serve ctx0 dec handle send_ok rai seen (AConn (map RData (List.concat css) ++ [REof]) :: l) = serve ctx0 dec handle send_ok rai (seen ++ ms) l.
Proof.
  intros D Ne HS F. cbn [serve]. rewrite app_length, map_length. change (List.length [@REof]) with 1%nat.
  destruct (conversation Ne HS ms css (S (List.length (List.concat css) + 1)) dbuf_init seen [REof] F) as (f' & b' & W' & C' & Lf & ->); [lia|apply wf_init|reflexivity|].
  destruct f' as [|f']; [lia|]. now rewrite eof_ends.
Qed.
Theorem conversation_waits ms css seen : (forall m, enc m <> []) -> served handle send_ok rai -> Forall2 (pieces_of enc k) ms css ->
  handle_conn ctx0 dec handle send_ok rai (S (List.length (List.concat css))) dbuf_init seen (map RData (List.concat css)) = CWait (seen ++ ms).
Proof.
  intros Ne HS F. rewrite <- (app_nil_r (map RData (List.concat css))).
  destruct (conversation Ne HS ms css (S (List.length (List.concat css))) dbuf_init seen [] F) as (f' & b' & W' & C' & Lf & ->); [lia|apply wf_init|reflexivity|].
  destruct f'; reflexivity.
Qed.
End F.
