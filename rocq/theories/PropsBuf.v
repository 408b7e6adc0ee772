(** C27, C28: the stream buffer and the Secondary's server. *)
From Verif Require Import Base BufModel BufSpec BufProofs BufProofs2.

(** ** C27 *)
(** [QPut d]: the producer stores d behind the unread bytes and announces its length, or, if there is no room, only
    announces the length; [QGet n]: the consumer removes n bytes. A queue of bytes of the given capacity is what a user expects. *)
Definition C27_statement : Prop :=
  (forall ops, Forall (fun o => match o with QPut d => Z.of_nat (List.length d) < 2 ^ 64 | QGet _ => True end) ops ->
     let '(b, rs) := real_run dbuf_init ops in qrun [] ops = (contents b, rs)) /\
  (forall b n, List.length (b_mem b) = capacity -> 0 <= b_written b <= 4096 -> 0 <= n < 2 ^ 64 -> 4096 < b_written b + n -> have_enqueued b n = Throw EStd).
(** The sum in HaveEnqueued wraps around: announcing 2^64 - 1 bytes (what a failed recv converts to) removes a byte. *)
Theorem C27_refuted : ~ C27_statement.
Proof.
  intros (_ & H). specialize (H {| b_mem := repeat "a"%char capacity; b_written := 1 |} (2 ^ 64 - 1) (repeat_length _ _)). cbn [b_written] in H.
  specialize (H ltac:(lia) ltac:(lia) ltac:(lia)). discriminate.
Qed.
Print Assumptions C27_refuted.
(** With announced lengths below 2^64 - 4096, for every sequence of calls: the buffer is a queue with capacity 4096 that
    refuses, unchanged, what does not fit or is not there. *)
Theorem C27_partial ops : (forall d, In (QPut d) ops -> Z.of_nat (List.length d) < 2 ^ 64 - 4096) ->
  let '(b, rs) := real_run dbuf_init ops in qrun [] ops = (contents b, rs).
Proof. intros S. pose proof (run_refines ops dbuf_init wf_init S) as H. destruct (real_run dbuf_init ops) as (b, rs). apply H. Qed.
Print Assumptions C27_partial.
(** So the unread bytes are the accepted bytes without the removed ones, and never more than the capacity. *)
Theorem C27_bytes_partial ops : (forall d, In (QPut d) ops -> Z.of_nat (List.length d) < 2 ^ 64 - 4096) ->
  let '(b, rs) := real_run dbuf_init ops in contents b = skipn (got_count ops rs) (put_bytes ops rs) /\
    (got_count ops rs <= List.length (put_bytes ops rs))%nat /\ (List.length (contents b) <= 4096)%nat.
Proof.
  intros S. pose proof (C27_partial ops S) as H. destruct (real_run dbuf_init ops) as (b, rs). apply qrun_bytes in H. destruct H as (A & B & C). 
  split; [exact A|]. split; [exact B|]. apply (Nat2Z.inj_le _ 4096). specialize (C (Nat.le_0_l _)). apply Nat2Z.inj_le in C. exact C.
Qed.
Print Assumptions C27_bytes_partial.
(** Which lengths are taken wrongly, and what happens then: exactly those for which the sum reaches 2^64; unread bytes at
    the end are dropped. *)
Theorem C27_exact b n : List.length (b_mem b) = capacity -> 0 <= b_written b <= 4096 -> 0 <= n < 2 ^ 64 -> 4096 < b_written b + n ->
  have_enqueued b n = if b_written b + n <? 2 ^ 64 then Throw EStd else Ok {| b_mem := b_mem b; b_written := b_written b + n - 2 ^ 64 |}.
Proof.
  intros A B C D. destruct (Z.ltb_spec (b_written b + n) (2 ^ 64)).
  - rewrite have_ok; [|split; [exact A|exact B]|lia|lia]. destruct (Z.ltb_spec (Z.of_nat capacity) (b_written b + n)); [reflexivity|]. rewrite cap_val in *. lia.
  - unfold have_enqueued. assert (u64 (b_written b + n) = b_written b + n - 2 ^ 64) as ->.
    { unfold u64. replace (b_written b + n) with (b_written b + n - 2 ^ 64 + 1 * 2 ^ 64) at 1 by lia. rewrite Z.mod_add by lia. apply Z.mod_small. lia. }
    destruct (Z.ltb_spec (Z.of_nat capacity) (b_written b + n - 2 ^ 64)); [rewrite cap_val in *; lia|reflexivity].
Qed.
Print Assumptions C27_exact.
Definition buf_history := [QPut ["a"; "b"; "c"]%char; QGet 2; QPut ["d"]%char; QGet 5; QPut (repeat "x"%char 4095); QGet 1].
Example C27_nonvacuous : snd (real_run dbuf_init buf_history) = [true; true; true; false; false; true] /\ contents (fst (real_run dbuf_init buf_history)) = ["d"%char].
Proof. vm_compute. auto. Qed.

(** ** C28 *)
Definition C28_statement : Prop := forall (ctx msg : Type) ctx0 (dec : ctx -> list byte -> dcode * Z * ctx * msg) handle send_ok rai seen l, dec_ok dec ->
  match serve ctx0 dec handle send_ok rai seen l with
  | SDied => False
  | SExit true s => rai = true /\ exists t m, s = t ++ [m] /\ handle t m = HReboot
  | SExit false _ => In AFail l
  | SServing _ => True
  end.
(** A receive error with no unread bytes throws std::logic_error out of run(). *)
Theorem C28_refuted : ~ C28_statement.
Proof.
  intros H. specialize (H unit unit tt (fun _ _ => (DMore, 0, tt, tt)) (fun _ _ => HOk) (fun _ => true) false [] [AConn [RErr]]). apply H.
  intros c x. lia.
Qed.
Print Assumptions C28_refuted.
(** Without receive errors: for every decoder, handler, chunking of the data and sequence of connections the server goes on
    unless a message asked for a reboot (and the server is configured to) or accept failed. *)
Theorem C28_partial {ctx msg : Type} ctx0 (dec : ctx -> list byte -> dcode * Z * ctx * msg) handle send_ok rai seen l : dec_ok dec ->
  (forall rs, In (AConn rs) l -> ~ In RErr rs) ->
  match serve ctx0 dec handle send_ok rai seen l with
  | SDied => False
  | SExit true s => rai = true /\ exists t m, s = t ++ [m] /\ handle t m = HReboot
  | SExit false _ => In AFail l
  | SServing _ => True
  end.
Proof. intros D N. exact (serve_survives ctx0 dec handle send_ok rai D l seen N). Qed.
Print Assumptions C28_partial.
(** A receive error kills the server exactly when the buffer holds no unread bytes. *)
Theorem C28_error_effect {ctx msg : Type} (dec : ctx -> list byte -> dcode * Z * ctx * msg) b c rs : dec_ok dec -> List.length (b_mem b) = capacity -> 0 <= b_written b <= 4096 ->
  (read_msg dec b c (RErr :: rs) = GThrow <-> contents b = []).
Proof. intros D A B. apply error_effect; [exact D|split; [exact A|exact B]]. Qed.
Print Assumptions C28_error_effect.
(** The bound on the number of messages of a connection used by the model does not matter. *)
Theorem C28_fuel {ctx msg : Type} ctx0 (dec : ctx -> list byte -> dcode * Z * ctx * msg) handle send_ok rai f1 f2 b seen rs : (List.length rs < f1)%nat -> (List.length rs < f2)%nat ->
  handle_conn ctx0 dec handle send_ok rai f1 b seen rs = handle_conn ctx0 dec handle send_ok rai f2 b seen rs.
Proof. apply fuel_enough. Qed.
Print Assumptions C28_fuel.
(** The Primary's side tests for the error first and never throws. *)
Theorem C28_primary_side {ctx msg : Type} (dec : ctx -> list byte -> dcode * Z * ctx * msg) c rs : dec_ok dec -> is_ok (rpc_read dec dbuf_init c rs) = true.
Proof. intros D. apply rpc_no_throw; [exact D|exact wf_init]. Qed.
Print Assumptions C28_primary_side.
(** A toy protocol: a message is two bytes. The second byte "r" asks for a reboot. *)
Definition toy_dec (c : list byte) (l : list byte) : dcode * Z * list byte * list byte :=
  match (c ++ l) with
  | a :: b :: _ => (DOk, 2 - Z.of_nat (List.length c), [], [a; b])
  | x => (DMore, Z.of_nat (List.length l), x, [])
  end.
Definition toy_handle (_ : list (list byte)) (m : list byte) : hcode := match m with [_; "r"%char] => HReboot | _ => HOk end.
Example C28_nonvacuous : serve [] (fun c l => if Nat.leb 2 (List.length c) then (DFail, 0, [], []) else toy_dec c l) toy_handle (fun _ => true) true []
     [AConn [RData ["a"]%char; RData ["b"; "c"]%char; RData ["d"]%char; REof]; AConn [RData ["x"; "r"]%char]; AConn []] = SExit true [["a"; "b"]; ["c"; "d"]; ["x"; "r"]]%char.
Proof. vm_compute. reflexivity. Qed.
Example C28_toy_dec_ok : dec_ok (fun c l => if Nat.leb 2 (List.length c) then (DFail, 0, [], []) else toy_dec c l).
Proof.
  intros c l. destruct (Nat.leb_spec 2 (List.length c)); [lia|]. unfold toy_dec. destruct c as [|a [|b c]]; simpl in *; [|destruct l; simpl; lia|lia].
  destruct l as [|x [|y l]]; simpl; lia.
Qed.

(** ** C68 *)
(** Messages of two bytes, and a decoder for them that keeps the first byte in its context. *)
Definition enc2 (m : byte * byte) : list byte := [fst m; snd m].
Definition dec2 (c l : list byte) : dcode * Z * list byte * (byte * byte) :=
  match c, l with
  | [], a :: b :: _ => (DOk, 2, [], (a, b))
  | [], [a] => (DMore, 1, [a], ("0", "0")%char)
  | a :: _, b :: _ => (DOk, 1, [], (a, b))
  | _, [] => (DMore, 0, c, ("0", "0")%char)
  end.
Lemma frames2 : frames enc2 0 [] dec2.
Proof.
  exists (fun c p => c = p). split; [reflexivity|]. intros c p (a, b) q -> E N. unfold enc2 in E. simpl in E.
  destruct p as [|x [|y p]]; simpl in E.
  - subst q. split; [intros more; eexists; reflexivity|]. intros [|x [|y l]] r E Nr; simpl in E.
    + exists 0%nat, [], ("0", "0")%char. repeat split; auto.
    + exists 1%nat, [x], ("0", "0")%char. repeat split; auto.
    + destruct l; [simpl in E; congruence|discriminate].
  - injection E as E1 E2. subst q. split; [intros more; subst; eexists; reflexivity|]. intros [|y l] r E Nr; simpl in E.
    + exists 0%nat, [x], ("0", "0")%char. repeat split; auto.
    + destruct l; [simpl in E; congruence|discriminate].
  - destruct p, q; try discriminate. congruence.
Qed.
Lemma dec2_ok : dec_ok dec2.
Proof. intros [|a c] [|x [|y l]]; simpl; lia. Qed.
(** The full property: once all bytes of some messages have arrived, in whatever pieces, all of them have been handled. *)
Definition C68_statement : Prop := forall ctx msg enc k (ctx0 : ctx) dec (handle : list msg -> msg -> hcode) send_ok rai ms ds,
  frames enc k ctx0 dec -> served handle send_ok rai -> List.concat ds = List.concat (map enc ms) ->
  (forall d, In d ds -> d <> [] /\ (List.length d <= capacity - k)%nat) ->
  handle_conn ctx0 dec handle send_ok rai (S (List.length ds)) dbuf_init [] (map RData ds) = CWait ms.
(** Two messages that arrive together: the second one is not handled until something else arrives. *)
Theorem C68_refuted : ~ C68_statement.
Proof.
  intros H. specialize (H _ _ enc2 0%nat [] dec2 (fun _ _ => HOk) (fun _ => true) false [("a", "b"); ("c", "d")]%char [["a"; "b"; "c"; "d"]%char] frames2).
  lapply H; [clear H; intros H|split; [left; reflexivity|reflexivity]]. lapply H; [clear H; intros H|reflexivity].
  lapply H; [clear H; intros H; vm_compute in H; discriminate|].
  intros d [<-|[]]. split; [discriminate|]. apply Nat.leb_le. vm_compute. reflexivity.
Qed.
Print Assumptions C68_refuted.
(** If no message is sent before the previous one was received, as the Primary does: every message is handled, in order,
    once, however its bytes are split; when the peer closes the connection the server goes on with the next one. *)
Theorem C68_conversation_partial {ctx msg} enc k (ctx0 : ctx) dec (handle : list msg -> msg -> hcode) send_ok rai ms pieces seen l :
  frames enc k ctx0 dec -> dec_ok dec -> (forall m, enc m <> []) -> served handle send_ok rai -> Forall2 (pieces_of enc k) ms pieces ->
  handle_conn ctx0 dec handle send_ok rai (S (List.length (List.concat pieces))) dbuf_init seen (map RData (List.concat pieces)) = CWait (seen ++ ms) /\
  serve ctx0 dec handle send_ok rai seen (AConn (map RData (List.concat pieces) ++ [REof]) :: l) = serve ctx0 dec handle send_ok rai (seen ++ ms) l.
Proof.
  intros (R & R0 & HD) D Ne HS F. split.
  - exact (conversation_waits ctx0 dec enc k R R0 HD handle send_ok rai ms pieces seen Ne HS F).
  - exact (conversation_served ctx0 dec enc k R R0 HD handle send_ok rai ms pieces seen l D Ne HS F).
Qed.
Print Assumptions C68_conversation_partial.
(** In any case the messages handled are the first ones sent: none is lost between others, repeated, invented or reordered.
    [future]: bytes still under way. *)
Theorem C68_prefix {ctx msg} enc k (ctx0 : ctx) dec (handle : list msg -> msg -> hcode) send_ok rai fuel ms ds future seen :
  frames enc k ctx0 dec -> (forall m, enc m <> []) -> List.concat ds ++ future = List.concat (map enc ms) ->
  match handle_conn ctx0 dec handle send_ok rai fuel dbuf_init seen (map RData ds) with
  | CThrow => False | CWait s | CDone _ s => exists n, s = seen ++ firstn n ms
  end.
Proof.
  intros (R & R0 & HD) Ne E. exact (any_pieces ctx0 dec enc k R R0 HD handle send_ok rai Ne fuel ms ds future dbuf_init seen wf_init E).
Qed.
Print Assumptions C68_prefix.
(** The Primary reads the answer it is sent, however it is split. *)
Theorem C68_answer {ctx msg} (enc : msg -> list byte) k (ctx0 : ctx) dec m pieces rest :
  frames enc k ctx0 dec -> enc m <> [] -> pieces_of enc k m pieces -> rpc_read dec dbuf_init ctx0 (map RData pieces ++ rest) = Ok (Some (Some m)).
Proof.
  intros (R & R0 & HD) Ne (P1 & P2). apply (rpc_pieces dec enc k R HD m pieces dbuf_init ctx0 [] rest wf_init R0).
  - symmetry. exact P1.
  - apply Nat.le_0_l.
  - intros ->. apply Ne. now rewrite <- P1.
  - exact P2.
Qed.
Print Assumptions C68_answer.
Example C68_nonvacuous : Forall2 (pieces_of enc2 0) [("a", "b"); ("c", "d")]%char [[["a"]; ["b"]]; [["c"; "d"]]]%char /\
  frames enc2 0 [] dec2 /\ dec_ok dec2 /\ (forall m, enc2 m <> []) /\ served (fun (_ : list (byte * byte)) _ => HOk) (fun _ => true) true.
Proof.
  split; [|split; [exact frames2|split; [exact dec2_ok|split; [discriminate|split; [left; reflexivity|reflexivity]]]]].
  assert (X : forall l : list byte, (List.length l <= 2)%nat -> (List.length l <= capacity - 0)%nat) by (intros l H; transitivity 2%nat; [exact H|apply Nat.leb_le; vm_compute; reflexivity]).
  apply Forall2_cons; [|apply Forall2_cons; [|apply Forall2_nil]]; (split; [reflexivity|]); intros p H; simpl in H; repeat destruct H as [<-|H]; try destruct H;
    (split; [discriminate|apply X; simpl; lia]).
Qed.
