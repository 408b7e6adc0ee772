(** The stream buffer (/repo/src/libaktualizr/utilities/dequeue_buffer.{h,cc}), the Secondary's TCP server
    (/repo/src/aktualizr_secondary/secondary_tcp_server.cc) and the Primary's side of a request
    (/repo/src/libaktualizr-posix/asn1/asn1_message.cc:55-90). *)
From Verif Require Import Base.

Definition byte := ascii.
Definition u64 (x : Z) : Z := x mod 2 ^ 64.                                (* size_t *)
Definition capacity : nat := 64 * 64.                                      (* dequeue_buffer.h:51: std::array<char, 4096> *)
(** dequeue_buffer.h:50-51. The array is zero initialised. The sentinel that the assertions look at is not modelled: it
    detects writes past the array, which the contract of Tail() forbids. *)
Record dbuf := { b_mem : list byte; b_written : Z }.
Definition dbuf_init : dbuf := {| b_mem := repeat "000"%char capacity; b_written := 0 |}.
(** dequeue_buffer.cc:6-14: what a consumer sees from Head(). *)
Definition contents (b : dbuf) : list byte := firstn (Z.to_nat (b_written b)) (b_mem b).
(** 38-41 *)
Definition tail_space (b : dbuf) : Z := u64 (Z.of_nat capacity - b_written b).
(** A producer (recv) stores data at Tail() (32-36); it must not store more than TailSpace() bytes. *)
Definition write_tail (b : dbuf) (d : list byte) : dbuf :=
  let w := Z.to_nat (b_written b) in
  {| b_mem := firstn w (b_mem b) ++ d ++ skipn (w + List.length d) (b_mem b); b_written := b_written b |}.
(** 43-52 *)
Definition have_enqueued (b : dbuf) (n : Z) : res dbuf :=
  if Z.of_nat capacity <? u64 (b_written b + n) then Throw EStd
  else Ok {| b_mem := b_mem b; b_written := u64 (b_written b + n) |}.
(** 16-31. std::copy moves the unread bytes to the front; what was behind them stays. *)
Definition consume (b : dbuf) (n : Z) : res dbuf :=
  if b_written b <? n then Throw EStd
  else let rest := skipn (Z.to_nat n) (contents b) in
       Ok {| b_mem := rest ++ skipn (List.length rest) (b_mem b); b_written := u64 (b_written b - n) |}.

(** Calls on a buffer. An error leaves the buffer as it was: both functions test before they write. *)
Inductive bop := BWrite (d : list byte) | BHave (n : Z) | BConsume (n : Z).
Definition bstep (b : dbuf) (o : bop) : dbuf * bool (* false: an exception *) :=
  match o with
  | BWrite d => (write_tail b d, true)
  | BHave n => match have_enqueued b n with Ok b' => (b', true) | Throw _ => (b, false) end
  | BConsume n => match consume b n with Ok b' => (b', true) | Throw _ => (b, false) end
  end.
Fixpoint brun (b : dbuf) (ops : list bop) : dbuf * list bool :=
  match ops with [] => (b, []) | o :: ops' => let '(b1, r) := bstep b o in let '(b2, rs) := brun b1 ops' in (b2, r :: rs) end.

(** ** The TCP server *)
(** recv: data (at least one byte, at most TailSpace), orderly shutdown by the peer, error. *)
Inductive recv := RData (d : list byte) | REof | RErr.
Inductive dcode := DOk | DMore | DFail.                                    (* asn_dec_rval_t: RC_OK, RC_WMORE, RC_FAIL *)
Inductive hcode := HOk | HReboot | HUnknown.                               (* msg_handler.h MsgHandler::ReturnCode *)

Section Server.
Context {ctx msg : Type}.
(** ber_decode (generated code, not modelled): from the decoding context and the unread bytes to a code, the number of
    bytes consumed, the context and the message. *)
Variable ctx0 : ctx.
Variable dec : ctx -> list byte -> dcode * Z * ctx * msg.
(** handleMsg (msg_handler.cc:11-26) on a message, with everything it may depend on in a history of earlier messages;
    sendResponseMessage (secondary_tcp_server.cc:178-197). *)
Variable handle : list msg -> msg -> hcode.
Variable send_ok : list msg -> bool.
Variable reboot_after_install : bool.

(** secondary_tcp_server.cc:116-121: read until a message is decoded or an error occurs. The list holds the answers of
    the coming recv calls; when it is empty the thread waits in recv. *)
Inductive got := GMsg (b : dbuf) (r : recv) (c : dcode) (m : msg) (rest : list recv) | GThrow | GWait.
Definition do_recv (b : dbuf) (r : recv) : dbuf * Z :=
  match r with RData d => (write_tail b d, Z.of_nat (List.length d)) | REof => (b, 0) | RErr => (b, u64 (-1)) end.
(** What recv may answer: at least one byte and no more than it was asked for. Answers against this do not occur; the
    model treats them as if the thread waited forever. *)
Definition recv_ok (b : dbuf) (r : recv) : bool :=
  match r with RData d => (0 <? Z.of_nat (List.length d)) && (Z.of_nat (List.length d) <=? tail_space b) | _ => true end.
Fixpoint read_msg (b : dbuf) (c : ctx) (rs : list recv) : got :=
  match rs with
  | [] => GWait
  | r :: rs' =>
      if negb (recv_ok b r) then GWait else
      let '(b1, n) := do_recv b r in
      match have_enqueued b1 n with
      | Throw _ => GThrow
      | Ok b2 => let '(code, used, c', m) := dec c (contents b2) in
                 match consume b2 used with
                 | Throw _ => GThrow
                 | Ok b3 => match code, r with
                            | DMore, RData _ => read_msg b3 c' rs'
                            | _, _ => GMsg b3 r code m rs'
                            end
                 end
      end
  end.
(** 98-169. Result of a connection: an exception, still waiting, or finished (with the value of keep_running_server). [seen]:
    messages handled so far. *)
Inductive conn := CThrow | CWait (seen : list msg) | CDone (keep : bool) (seen : list msg).
Fixpoint handle_conn (fuel : nat) (b : dbuf) (seen : list msg) (rs : list recv) : conn :=
  match fuel with
  | O => CWait seen
  | S f =>
      match read_msg b ctx0 rs with
      | GThrow => CThrow
      | GWait => CWait seen
      | GMsg _ REof _ _ _ => CDone true seen
      | GMsg _ RErr _ _ _ => CDone true seen
      | GMsg b' (RData _) DOk m rest =>
          let seen' := seen ++ [m] in
          match handle seen m with
          | HReboot => let s := send_ok seen' in
                       if reboot_after_install then CDone false seen'
                       else if s then handle_conn f b' seen' rest else CDone true seen'
          | HOk => if send_ok seen' then handle_conn f b' seen' rest else CDone true seen'
          | HUnknown => CDone true seen'
          end
      | GMsg _ (RData _) _ _ _ => CDone true seen
      end
  end.
(** 32-84: accept gives a connection or fails. *)
Inductive acc := AFail | AConn (rs : list recv).
Inductive srv := SDied (* exception out of run() *) | SExit (rebooting : bool) (seen : list msg) | SServing (seen : list msg).
Fixpoint serve (seen : list msg) (l : list acc) : srv :=
  match l with
  | [] => SServing seen
  | AFail :: _ => SExit false seen
  | AConn rs :: l' => match handle_conn (S (List.length rs)) dbuf_init seen rs with
                      | CThrow => SDied
                      | CWait s => SServing s
                      | CDone true s => serve s l'
                      | CDone false s => SExit true s
                      end
  end.

(** asn1_message.cc:69-90, Asn1Rpc: the Primary's reading of a response. None: still waiting. Some None: no message
    (PR_NOTHING). *)
Fixpoint rpc_read (b : dbuf) (c : ctx) (rs : list recv) : res (option (option msg)) :=
  match rs with
  | [] => Ok None
  | RErr :: _ => Ok (Some None)
  | r :: rs' =>
      if negb (recv_ok b r) then Ok None else
      let '(b1, n) := do_recv b r in
      match have_enqueued b1 n with
      | Throw e => Throw e
      | Ok b2 => let '(code, used, c', m) := dec c (contents b2) in
                 match consume b2 used with
                 | Throw e => Throw e
                 | Ok b3 => match code, r with
                            | DMore, RData _ => rpc_read b3 c' rs'
                            | DOk, _ => Ok (Some (Some m))
                            | _, _ => Ok (Some None)
                            end
                 end
      end
  end.
End Server.
Arguments got : clear implicits. Arguments conn : clear implicits. Arguments srv : clear implicits.
