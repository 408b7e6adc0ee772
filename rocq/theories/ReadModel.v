(** Reading a stored image through the C interface: /repo/src/libaktualizr-c/libaktualizr-c.cc:198-233. *)
From Coq Require Import Ascii.
From Verif Require Import Base.
Local Open Scope list_scope.

(** The std::ifstream behind a handle (libstdc++, not part of /repo): what is left of the file, whether the stream is good, and after how
    many more bytes the disk fails, if it does. *)
Record handle := { h_rest : list ascii; h_good : bool; h_fails : option nat }.

(** std::istream::read(buf, n) followed by gcount(): the bytes delivered.  A stream that is not good delivers nothing; fewer than n bytes
    left: all of them, and the stream is not good any more; a failing disk or a negative n: nothing, and the stream is not good. *)
Definition stream_read (h : handle) (n : Z) : handle * list ascii :=
  if negb (h_good h) then (h, [])
  else if n <? 0 then ({| h_rest := h_rest h; h_good := false; h_fails := h_fails h |}, [])
  else
    let k := Z.to_nat (Z.min n (Z.of_nat (List.length (h_rest h)))) in
    if match h_fails h with Some f => Nat.ltb f k | None => false end
    then ({| h_rest := h_rest h; h_good := false; h_fails := h_fails h |}, [])
    else ({| h_rest := skipn k (h_rest h); h_good := n <=? Z.of_nat (List.length (h_rest h));
             h_fails := match h_fails h with Some f => Some (f - k)%nat | None => None end |}, firstn k (h_rest h)).

(** static_cast<std::streamsize>(size_t) on 64 bits *)
Definition to_streamsize (size : Z) : Z := if size <? 2 ^ 63 then size else size - 2 ^ 64.

(** libaktualizr-c.cc:213-222 Aktualizr_read_stored_target; [buf]: the buffer is not null.  The number returned is the length of the
    piece. *)
Definition read_stored_target (h : option handle) (buf : bool) (size : Z) : option handle * list ascii :=
  match h with
  | Some s => if buf then let (s', got) := stream_read s (to_streamsize size) in (Some s', got) else (h, [])
  | None => (h, [])
  end.

(** libaktualizr-c.cc:198-211 Aktualizr_open_stored_target; [file]: the content of the stored file, nothing if opening it throws;
    [target]: the argument is not null. *)
Definition open_stored_target (target : bool) (file : option (list ascii)) (fails : option nat) : option handle :=
  if target then match file with Some c => Some {| h_rest := c; h_good := true; h_fails := fails |} | None => None end else None.

(** A program that reads with buffers of the given sizes, one after the other. *)
Fixpoint read_all (h : option handle) (sizes : list Z) : option handle * list (list ascii) :=
  match sizes with
  | [] => (h, [])
  | n :: r => let (h1, p) := read_stored_target h true n in let (h2, ps) := read_all h1 r in (h2, p :: ps)
  end.
