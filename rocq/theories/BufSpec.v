(** Specification of the stream buffer and of the server. *)
From Verif Require Import Base BufModel.

(** A queue of bytes with a capacity: append at the end, remove at the front, refuse what does not fit or is not there. *)
Inductive qop := QPut (d : list byte) | QGet (n : nat).
Definition qstep (q : list byte) (o : qop) : list byte * bool :=
  match o with
  | QPut d => if Nat.leb (List.length q + List.length d) capacity then (q ++ d, true) else (q, false)
  | QGet n => if Nat.leb n (List.length q) then (skipn n q, true) else (q, false)
  end.
Fixpoint qrun (q : list byte) (ops : list qop) : list byte * list bool :=
  match ops with [] => (q, []) | o :: ops' => let '(q1, r) := qstep q o in let '(q2, rs) := qrun q1 ops' in (q2, r :: rs) end.
(** Bytes accepted and bytes removed by a run. *)
Fixpoint put_bytes (ops : list qop) (rs : list bool) : list byte :=
  match ops, rs with QPut d :: ops', true :: rs' => d ++ put_bytes ops' rs' | _ :: ops', _ :: rs' => put_bytes ops' rs' | _, _ => [] end.
Fixpoint got_count (ops : list qop) (rs : list bool) : nat :=
  match ops, rs with QGet n :: ops', true :: rs' => n + got_count ops' rs' | _ :: ops', _ :: rs' => got_count ops' rs' | _, _ => 0 end.

(** The decoder consumes a number of the bytes it was given. *)
Definition dec_ok {ctx msg} (dec : ctx -> list byte -> dcode * Z * ctx * msg) : Prop :=
  forall c l, let '(_, used, _, _) := dec c l in 0 <= used <= Z.of_nat (List.length l).
Definition no_error (rs : list recv) : Prop := ~ In RErr rs.

(** [enc m] is the encoding of a message. The decoder takes messages apart: fed, in any pieces, with the bytes of messages
    it reports each message at its last byte, never reads into the next one, and keeps asking for more before. [R c p]: in
    context [c] it has consumed the bytes [p] of a message. It leaves at most [k] bytes of an incomplete message unread. *)
Definition frames {ctx msg} (enc : msg -> list byte) (k : nat) (ctx0 : ctx) (dec : ctx -> list byte -> dcode * Z * ctx * msg) : Prop :=
  exists R : ctx -> list byte -> Prop, R ctx0 [] /\
  forall c p m q, R c p -> enc m = p ++ q -> q <> [] ->
    (forall more, exists c', dec c (q ++ more) = (DOk, Z.of_nat (List.length q), c', m)) /\
    (forall l r, q = l ++ r -> r <> [] -> exists used c' m', dec c l = (DMore, Z.of_nat used, c', m') /\
       (used <= List.length l)%nat /\ (List.length l - used <= k)%nat /\ R c' (p ++ firstn used l)).
(** The pieces in which one message arrives. *)
Definition pieces_of {msg} (enc : msg -> list byte) (k : nat) (m : msg) (ps : list (list byte)) : Prop :=
  List.concat ps = enc m /\ forall p, In p ps -> p <> [] /\ (List.length p <= capacity - k)%nat.
(** Every message is understood and answered, none makes the server reboot. *)
Definition served {msg} (handle : list msg -> msg -> hcode) (send_ok : list msg -> bool) (reboot_after_install : bool) : Prop :=
  (forall seen m, handle seen m = HOk \/ handle seen m = HReboot /\ reboot_after_install = false) /\ forall seen, send_ok seen = true.
