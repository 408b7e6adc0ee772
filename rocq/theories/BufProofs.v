(** Proofs about the stream buffer and the server. *)
From Verif Require Import Base BufModel BufSpec.

Definition wf (b : dbuf) : Prop := List.length (b_mem b) = capacity /\ 0 <= b_written b <= Z.of_nat capacity.
Lemma cap_val : Z.of_nat capacity = 4096. Proof. reflexivity. Qed.
Opaque capacity.
Lemma wf_init : wf dbuf_init.
Proof. split; simpl; [apply repeat_length|rewrite cap_val; lia]. Qed.
Lemma contents_length b : wf b -> Z.of_nat (List.length (contents b)) = b_written b.
Proof. intros (A & B). unfold contents. rewrite firstn_length, A. lia. Qed.
Lemma u64_small x : 0 <= x < 2 ^ 64 -> u64 x = x.
Proof. apply Z.mod_small. Qed.
Lemma tail_space_eq b : wf b -> tail_space b = Z.of_nat capacity - b_written b.
Proof. intros (_ & B). unfold tail_space. apply u64_small. rewrite cap_val in *. lia. Qed.
Lemma write_tail_wf b d : wf b -> Z.of_nat (List.length d) <= tail_space b -> wf (write_tail b d) /\ contents (write_tail b d) = contents b /\
  firstn (Z.to_nat (b_written b) + List.length d) (b_mem (write_tail b d)) = contents b ++ d.
Proof.
  intros W H. rewrite (tail_space_eq b W) in H. pose proof (contents_length b W) as L. destruct W as (A & B). unfold write_tail, contents in *; cbn [b_mem b_written].
  set (w := Z.to_nat (b_written b)) in *. assert (Lw : List.length (firstn w (b_mem b)) = w) by lia.
  split; [split; cbn [b_mem b_written]; [|exact B]|split].
  - rewrite !app_length, Lw, skipn_length, A. lia.
  - rewrite firstn_app, Lw, Nat.sub_diag. rewrite (firstn_O (d ++ _)), app_nil_r. now rewrite firstn_firstn, Nat.min_id.
  - rewrite app_assoc. rewrite firstn_app. rewrite app_length, Lw. replace (w + List.length d - (w + List.length d))%nat with 0%nat by lia. rewrite firstn_O, app_nil_r.
    apply firstn_all2. rewrite app_length, Lw. lia.
Qed.
Lemma have_ok b n : wf b -> 0 <= n -> b_written b + n < 2 ^ 64 -> have_enqueued b n =
   if Z.of_nat capacity <? b_written b + n then Throw EStd else Ok {| b_mem := b_mem b; b_written := b_written b + n |}.
Proof. intros (_ & B) H1 H2. unfold have_enqueued. rewrite u64_small by lia. reflexivity. Qed.
(** Storing data and announcing it. *)
Lemma put_ok b d : wf b -> Z.of_nat (List.length d) <= tail_space b -> exists b', have_enqueued (write_tail b d) (Z.of_nat (List.length d)) = Ok b' /\ wf b' /\ contents b' = contents b ++ d.
Proof.
  intros W H. destruct (write_tail_wf b d W H) as (W2 & C & F). pose proof H as H'. rewrite (tail_space_eq b W) in H'. destruct W as (A & B).
  rewrite have_ok; [|exact W2|lia|simpl; rewrite cap_val in *; lia]. cbn [b_written write_tail]. destruct (Z.ltb_spec (Z.of_nat capacity) (b_written b + Z.of_nat (List.length d))); [lia|].
  eexists. split; [reflexivity|]. split; [split; cbn [b_mem b_written]; [apply W2|lia]|]. unfold contents at 1; cbn [b_mem b_written].
  replace (Z.to_nat (b_written b + Z.of_nat (List.length d))) with (Z.to_nat (b_written b) + List.length d)%nat by lia. exact F.
Qed.
Lemma consume_ok b n : wf b -> 0 <= n <= b_written b -> exists b', consume b n = Ok b' /\ wf b' /\ contents b' = skipn (Z.to_nat n) (contents b).
Proof.
  intros W H. pose proof (contents_length b W) as L. unfold consume. destruct (Z.ltb_spec (b_written b) n); [lia|]. eexists. split; [reflexivity|].
  destruct W as (A & B). set (rest := skipn (Z.to_nat n) (contents b)). assert (LR : Z.of_nat (List.length rest) = b_written b - n) by (unfold rest; rewrite skipn_length; lia).
  rewrite u64_small by (rewrite cap_val in *; lia). split; [split; cbn [b_mem b_written]|].
  - rewrite app_length, skipn_length, A. lia.
  - lia.
  - unfold contents at 1; cbn [b_mem b_written]. replace (Z.to_nat (b_written b - n)) with (List.length rest) by lia. now rewrite firstn_app, Nat.sub_diag, firstn_O, app_nil_r, firstn_all.
Qed.
Lemma consume_bad b n : b_written b < n -> consume b n = Throw EStd.
Proof. intros H. unfold consume. destruct (Z.ltb_spec (b_written b) n); [reflexivity|lia]. Qed.

(** ** Refinement *)
(** A call as the model makes it: the producer fills the tail as far as there is room, and announces the number of bytes. *)
Definition real_op (q : qop) (b : dbuf) : list bop :=
  match q with
  | QPut d => if Z.of_nat (List.length d) <=? tail_space b then [BWrite d; BHave (Z.of_nat (List.length d))] else [BHave (Z.of_nat (List.length d))]
  | QGet n => [BConsume (Z.of_nat n)]
  end.
Lemma step_refines b o : wf b -> match o with QPut d => b_written b + Z.of_nat (List.length d) < 2 ^ 64 | QGet _ => True end ->
  let '(b', rs) := brun b (real_op o b) in let '(q', r) := qstep (contents b) o in wf b' /\ contents b' = q' /\ forallb (fun x => x) rs = r.
Proof.
  intros W S. pose proof (contents_length b W) as L. destruct o as [d|n]; cbn [real_op qstep].
  - destruct (Z.leb_spec (Z.of_nat (List.length d)) (tail_space b)) as [H|H]; rewrite (tail_space_eq b W) in H.
    + rewrite <- (tail_space_eq b W) in H. destruct (put_ok b d W H) as (b' & E & W' & C). rewrite (tail_space_eq b W) in H. cbn [brun bstep]. rewrite E.
      destruct (Nat.leb_spec (List.length (contents b) + List.length d) capacity); [|lia]. auto.
    + cbn [brun bstep]. rewrite have_ok; [|auto|lia|lia]. destruct (Z.ltb_spec (Z.of_nat capacity) (b_written b + Z.of_nat (List.length d))); [|lia].
      destruct (Nat.leb_spec (List.length (contents b) + List.length d) capacity); [lia|]. auto.
  - cbn [brun bstep]. destruct (Nat.leb_spec n (List.length (contents b))).
    + destruct (consume_ok b (Z.of_nat n) W ltac:(lia)) as (b' & E & W' & C). rewrite E. rewrite Nat2Z.id in C. auto.
    + rewrite consume_bad by lia. auto.
Qed.
(** Runs: each call of the specification is the calls of the model. *)
Fixpoint real_run (b : dbuf) (ops : list qop) : dbuf * list bool :=
  match ops with
  | [] => (b, [])
  | o :: ops' => let '(b1, rs) := brun b (real_op o b) in let '(b2, rs') := real_run b1 ops' in (b2, forallb (fun x => x) rs :: rs')
  end.
Definition sized (ops : list qop) : Prop := forall d, In (QPut d) ops -> Z.of_nat (List.length d) < 2 ^ 64 - 4096.
Theorem run_refines : forall ops b, wf b -> sized ops -> let '(b', rs) := real_run b ops in wf b' /\ qrun (contents b) ops = (contents b', rs).
Proof.
  induction ops as [|o ops IH]; intros b W S; [simpl; auto|]. cbn [real_run qrun].
  assert (P : match o with QPut d => b_written b + Z.of_nat (List.length d) < 2 ^ 64 | QGet _ => True end).
  { destruct o as [d|]; auto. specialize (S d (or_introl eq_refl)). destruct W as (_ & B). rewrite cap_val in B. lia. }
  pose proof (step_refines b o W P) as T. destruct (brun b (real_op o b)) as (b1, rs1). destruct (qstep (contents b) o) as (q1, r1). destruct T as (W1 & C1 & <-).
  specialize (IH b1 W1 ltac:(intros d Hd; apply S; now right)). destruct (real_run b1 ops) as (b2, rs2). destruct IH as (W2 & E). rewrite C1 in E. now rewrite E.
Qed.
Lemma skipn_add {A} (a : nat) : forall (l : list A) b, skipn (a + b) l = skipn b (skipn a l).
Proof. induction a as [|a IH]; intros l b; [reflexivity|]. destruct l; simpl; [now rewrite skipn_nil|apply IH]. Qed.
Lemma qrun_bytes : forall ops q q' rs, qrun q ops = (q', rs) -> q' = skipn (got_count ops rs) (q ++ put_bytes ops rs) /\
  (got_count ops rs <= List.length q + List.length (put_bytes ops rs))%nat /\ ((List.length q <= capacity)%nat -> (List.length q' <= capacity)%nat).
Proof.
  induction ops as [|o ops IH]; intros q q' rs H; cbn [qrun] in H; [injection H as <- <-; simpl; rewrite app_nil_r; auto with arith|].
  destruct (qstep q o) as (q1, r) eqn:S. destruct (qrun q1 ops) as (q2, rs2) eqn:R. injection H as <- <-. destruct (IH _ _ _ R) as (E & G & C). clear IH R.
  destruct o as [d|n]; cbn [qstep] in S.
  - destruct (Nat.leb_spec (List.length q + List.length d) capacity); injection S as <- <-; cbn [put_bytes got_count].
    + rewrite app_assoc. rewrite !app_length in *. split; [exact E|]. split; [lia|]. intros; apply C; lia.
    + auto.
  - destruct (Nat.leb_spec n (List.length q)); injection S as <- <-; cbn [put_bytes got_count].
    + rewrite skipn_length in *. split; [|split; [lia|intros; apply C; lia]]. rewrite E. rewrite skipn_add, (skipn_app n).
      replace (n - List.length q)%nat with 0%nat by lia. reflexivity.
    + auto.
Qed.

(** ** Server *)
Section Server.
Context {ctx msg : Type}.
Variables (ctx0 : ctx) (dec : ctx -> list byte -> dcode * Z * ctx * msg) (handle : list msg -> msg -> hcode) (send_ok : list msg -> bool) (rai : bool).
Hypothesis DEC : dec_ok dec.
Lemma recv_fits b r : wf b -> recv_ok b r = true -> r <> RErr -> exists b2, have_enqueued (fst (do_recv b r)) (snd (do_recv b r)) = Ok b2 /\ wf b2.
Proof.
  intros W H N. destruct r as [d| |]; [| |congruence]; cbn [do_recv fst snd recv_ok] in *.
  - apply andb_true_iff in H. destruct H as (_ & H). apply Z.leb_le in H. destruct (put_ok b d W H) as (b' & E & W' & _). eauto.
  - rewrite have_ok; [|auto|lia|destruct W as (_ & B); rewrite cap_val in B; lia]. destruct (Z.ltb_spec (Z.of_nat capacity) (b_written b + 0)); [destruct W; lia|].
    eexists. split; [reflexivity|]. destruct W. split; auto. cbn [b_written]. lia.
Qed.
Lemma read_no_throw : forall rs b c, wf b -> no_error rs -> match read_msg dec b c rs with GThrow => False | GMsg b' _ _ _ rest => wf b' /\ no_error rest /\ (List.length rest < List.length rs)%nat | GWait => True end.
Proof.
  induction rs as [|r rs IH]; intros b c W N; cbn [read_msg]; [exact I|]. destruct (recv_ok b r) eqn:RO; cbn [negb]; [|exact I].
  destruct (recv_fits b r W RO) as (b2 & E & W2); [intros ->; apply N; now left|]. destruct (do_recv b r) as (b1, n). cbn [fst snd] in E. rewrite E.
  pose proof (DEC c (contents b2)) as D. destruct (dec c (contents b2)) as (((code & used) & c') & m). rewrite (contents_length b2 W2) in D.
  destruct (consume_ok b2 used W2 D) as (b3 & E3 & W3 & _). rewrite E3. assert (N' : no_error rs) by (intros X; apply N; now right).
  destruct code, r; simpl; auto. specialize (IH b3 c' W3 N'). destruct (read_msg dec b3 c' rs); auto. destruct IH as (? & ? & ?). auto with arith.
Qed.
Lemma conn_no_throw : forall fuel b seen rs, wf b -> no_error rs -> match handle_conn ctx0 dec handle send_ok rai fuel b seen rs with
  | CThrow => False | CWait s => exists t, s = seen ++ t
  | CDone k s => (exists t, s = seen ++ t) /\ (k = false -> rai = true /\ exists t m, s = t ++ [m] /\ handle t m = HReboot) end.
Proof.
  induction fuel as [|fuel IH]; intros b seen rs W N; cbn [handle_conn]; [exists []; now rewrite app_nil_r|]. pose proof (read_no_throw rs b ctx0 W N) as R.
  assert (Z0 : exists t, seen = seen ++ t) by (exists []; now rewrite app_nil_r).
  destruct (read_msg dec b ctx0 rs) as [b' r code m rest| |]; auto. destruct R as (W' & N' & _).
  assert (K : match handle_conn ctx0 dec handle send_ok rai fuel b' (seen ++ [m]) rest with
     | CThrow => False | CWait s => exists t, s = seen ++ t
     | CDone k s => (exists t, s = seen ++ t) /\ (k = false -> rai = true /\ exists t m, s = t ++ [m] /\ handle t m = HReboot) end).
  { specialize (IH b' (seen ++ [m]) rest W' N'). destruct (handle_conn ctx0 dec handle send_ok rai fuel b' (seen ++ [m]) rest) as [|s|k s]; auto.
    - destruct IH as (t & ->). rewrite <- app_assoc. eauto.
    - destruct IH as ((t & ->) & ?). split; auto. rewrite <- app_assoc. eauto. }
  destruct r; [|split; auto; discriminate|split; auto; discriminate]. destruct code; [|split; auto; discriminate|split; auto; discriminate].
  destruct (handle seen m) eqn:Hd.
  - destruct (send_ok (seen ++ [m])); [exact K|split; eauto; discriminate].
  - destruct rai eqn:Ra; [split; eauto 6|]. destruct (send_ok (seen ++ [m])); [exact K|split; eauto; discriminate].
  - split; eauto. discriminate.
Qed.
Definition conns_no_error (l : list acc) : Prop := forall rs, In (AConn rs) l -> no_error rs.
Theorem serve_survives : forall l seen, conns_no_error l -> match serve ctx0 dec handle send_ok rai seen l with
  | SDied => False
  | SExit true s => rai = true /\ exists t m, s = t ++ [m] /\ handle t m = HReboot
  | SExit false _ => In AFail l
  | SServing _ => True end.
Proof.
  induction l as [|a l IH]; intros seen N; cbn [serve]; [exact I|]. destruct a as [|rs]; [now left|].
  pose proof (conn_no_throw (S (List.length rs)) dbuf_init seen rs wf_init (N rs (or_introl eq_refl))) as H.
  destruct (handle_conn ctx0 dec handle send_ok rai (S (List.length rs)) dbuf_init seen rs) as [|s|k s]; auto.
  destruct H as (_ & H). destruct k; [|auto]. specialize (IH s ltac:(intros r Hr; apply N; now right)).
  destruct (serve ctx0 dec handle send_ok rai s l) as [|rb s'|]; auto. destruct rb; auto. now right.
Qed.
(** The fuel of handle_conn is enough: it decreases with each message, of which there are no more than recv results. *)
Lemma read_shorter : forall rs b c, match read_msg dec b c rs with GMsg _ _ _ _ rest => (List.length rest < List.length rs)%nat | _ => True end.
Proof.
  induction rs as [|r rs IH]; intros b c; cbn [read_msg]; [exact I|]. destruct (negb (recv_ok b r)); [exact I|]. destruct (do_recv b r) as (b1, n).
  destruct (have_enqueued b1 n) as [b2|]; [|exact I]. destruct (dec c (contents b2)) as (((code & used) & c') & m). destruct (consume b2 used) as [b3|]; [|exact I].
  destruct code, r; simpl; auto. specialize (IH b3 c'). destruct (read_msg dec b3 c' rs); auto with arith.
Qed.
Theorem fuel_enough : forall f1 f2 b seen rs, (List.length rs < f1)%nat -> (List.length rs < f2)%nat ->
  handle_conn ctx0 dec handle send_ok rai f1 b seen rs = handle_conn ctx0 dec handle send_ok rai f2 b seen rs.
Proof.
  induction f1 as [|f1 IH]; intros f2 b seen rs H1 H2; [lia|]. destruct f2 as [|f2]; [lia|]. cbn [handle_conn].
  pose proof (read_shorter rs b ctx0) as R. destruct (read_msg dec b ctx0 rs) as [b' r code m rest| |]; auto. destruct r; auto. destruct code; auto.
  rewrite (IH f2 b' (seen ++ [m]) rest) by lia. reflexivity.
Qed.
(** A receive error throws exactly when no unread bytes are buffered. *)
Theorem error_effect b c rs : wf b -> (read_msg dec b c (RErr :: rs) = GThrow <-> contents b = []).
Proof.
  intros W. pose proof (contents_length b W) as L. destruct W as (A & B). cbn [read_msg recv_ok negb do_recv]. unfold have_enqueued.
  destruct (Z.eq_dec (b_written b) 0) as [E|E].
  - rewrite E. split; [intros _; destruct (contents b); auto; simpl in L; lia|reflexivity].
  - assert (u64 (b_written b + u64 (-1)) = b_written b - 1) as ->.
    { unfold u64. rewrite Zplus_mod_idemp_r. apply Z.mod_small. rewrite cap_val in B. lia. }
    destruct (Z.ltb_spec (Z.of_nat capacity) (b_written b - 1)); [lia|].
    assert (W2 : wf {| b_mem := b_mem b; b_written := b_written b - 1 |}) by (split; cbn [b_mem b_written]; auto; lia).
    pose proof (DEC c (contents {| b_mem := b_mem b; b_written := b_written b - 1 |})) as D. destruct (dec c _) as (((code & used) & c') & m).
    rewrite (contents_length _ W2) in D. destruct (consume_ok _ used W2 D) as (b3 & -> & _).
    split; [destruct code; discriminate|]. intros C. rewrite C in L. simpl in L. lia.
Qed.
Theorem rpc_no_throw : forall rs b c, wf b -> is_ok (rpc_read dec b c rs) = true.
Proof.
  induction rs as [|r rs IH]; intros b c W; [reflexivity|]. cbn [rpc_read].
  destruct r as [d| |]; [| |reflexivity];
    (match goal with |- context [recv_ok b ?r] => destruct (recv_ok b r) eqn:RO; cbn [negb]; [|reflexivity];
      destruct (recv_fits b r W RO) as (b2 & E & W2); [discriminate|]; destruct (do_recv b r) as (b1, n) end;
     cbn [fst snd] in E; rewrite E; pose proof (DEC c (contents b2)) as D; destruct (dec c (contents b2)) as (((code & used) & c') & m);
     rewrite (contents_length b2 W2) in D; destruct (consume_ok b2 used W2 D) as (b3 & E3 & W3 & _); rewrite E3; destruct code; auto).
Qed.
End Server.
