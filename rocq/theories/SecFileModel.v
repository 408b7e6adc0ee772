(** The Secondary's file update agent (/repo/src/aktualizr_secondary/update_agent_file.cc:29-143) and the Primary's upload
    (/repo/src/libaktualizr-posix/ipuptanesecondary.cc:405-458).
    Simplifications: sizes do not wrap at 2^64; messages are dropped from results. *)
From Verif Require Import Base Json TufModel CodecModel DlModel.

(** A MultiPartHasher (crypto.h:26-72): its algorithm and the bytes fed since it was made, or, once a digest was taken
    (which finalises and wipes the state of libsodium's hash), the bytes fed since then. *)
Record hasher := { hs_type : htype; hs_data : string; hs_final : bool }.
(** [a_target]: target_filepath_, the installed image; [a_new]: new_target_filepath_; [a_hasher]: None is the null pointer. *)
Record agent := { a_target : option string; a_new : option string; a_hasher : option hasher; a_name : string }.

(** What happens to the bytes of one request: all are written; a prefix is and the stream reports it; a prefix is and
    nothing notices (small writes are buffered and flushed by close(), whose result is not looked at). *)
Inductive wr := WAll | WShort (k : nat) | WLost (k : nat).
Inductive aresult := AOk | AFail | AThrow | AUndefined.
Fixpoint stake (n : nat) (s : string) : string :=
  match n, s with S n', String c s' => String c (stake n' s') | _, _ => "" end.

Section Agent.
Context (E : Env).
(** The digest a finalised hasher gives: unspecified. *)
Context (stale : htype -> string -> hash).

Definition hasher_digest (h : hasher) : hash :=
  if hs_final h then stale (hs_type h) (hs_data h)
  else match digest E (hs_type h) (hs_data h) with Some x => x | None => stale (hs_type h) (hs_data h) end.
(** crypto.cc:671-684 MultiPartHasher::create on hashes()[0] (update_agent_file.cc:140-143): null for an unknown type. *)
Definition make_hasher (t : target) : option hasher :=
  match t_hashes t with
  | h :: _ => match h_type h with HUnknown => None | ty => Some {| hs_type := ty; hs_data := ""; hs_final := false |} end
  | [] => None
  end.
Definition a_size (a : agent) : Z := match a_new a with Some c => Z.of_nat (String.length c) | None => 0 end.
Definition content (o : option string) : string := match o with Some c => c | None => "" end.

(** 81-138 receiveData. [opened]: opening and tellp work. Opening with ios::app creates the file. hashes()[0] of an empty
    vector and a null hasher are undefined behaviour; the bytes are on the disk by then. *)
Definition receive (t : target) (data : string) (opened : bool) (w : wr) (a : agent) : agent * aresult :=
  if negb opened then (a, AFail)
  else
    let a0 := {| a_target := a_target a; a_new := Some (content (a_new a)); a_hasher := a_hasher a; a_name := a_name a |} in
    let size := a_size a in
    if t_length t <=? size then (a0, AFail)
    else if (size =? 0) && match t_hashes t with [] => true | _ => false end then (a0, AUndefined)
    else
      let h := if size =? 0 then make_hasher t else a_hasher a in
      let stored := match w with WAll => data | WShort k => stake k data | WLost k => stake k data end in
      let a1 := {| a_target := a_target a; a_new := Some (append (content (a_new a)) stored); a_hasher := h; a_name := a_name a |} in
      match w with
      | WShort k => if Nat.ltb k (String.length data) then (a1, AFail)
                    else match h with None => (a1, AUndefined)
                         | Some x => ({| a_target := a_target a; a_new := a_new a1; a_hasher := Some {| hs_type := hs_type x; hs_data := append (hs_data x) data; hs_final := hs_final x |}; a_name := a_name a |}, AOk) end
      | _ => match h with None => (a1, AUndefined)
             | Some x => ({| a_target := a_target a; a_new := a_new a1; a_hasher := Some {| hs_type := hs_type x; hs_data := append (hs_data x) data; hs_final := hs_final x |}; a_name := a_name a |}, AOk) end
      end.

Definition finalise (h : hasher) : hasher := {| hs_type := hs_type h; hs_data := ""; hs_final := true |}.
(** 29-71 install. [renamed]: rename works (otherwise it throws and changes nothing; rename is atomic). After a successful
    rename the new file is gone and the target file exists (58-66). *)
Definition install (t : target) (renamed : bool) (a : agent) : agent * aresult :=
  match a_new a with
  | None => (a, AFail)
  | Some c =>
      if negb (Z.of_nat (String.length c) =? t_length t) then ({| a_target := a_target a; a_new := None; a_hasher := a_hasher a; a_name := a_name a |}, AFail)
      else match a_hasher a with
           | None => (a, AUndefined)
           | Some h =>
               let a1 := {| a_target := a_target a; a_new := a_new a; a_hasher := Some (finalise h); a_name := a_name a |} in
               if negb (match_hash t (hasher_digest h)) then (a1, AFail)
               else if negb renamed then (a1, AThrow)
               else ({| a_target := Some c; a_new := None; a_hasher := None; a_name := t_filename t |}, AOk)
           end
  end.
(** A restart of the process: files stay, the hasher is gone. *)
Definition restart (a : agent) : agent := {| a_target := a_target a; a_new := a_new a; a_hasher := None; a_name := a_name a |}.

Inductive aop := ARecv (t : target) (data : string) (opened : bool) (w : wr) | AInstall (t : target) (renamed : bool) | ARestart.
(** Undefined behaviour and exceptions end the process: what follows is a restart. *)
Definition astep (a : agent) (o : aop) : agent * aresult :=
  match o with
  | ARecv t d op w => let '(a', r) := receive t d op w a in (match r with AUndefined | AThrow => restart a' | _ => a' end, r)
  | AInstall t rn => let '(a', r) := install t rn a in (match r with AUndefined | AThrow => restart a' | _ => a' end, r)
  | ARestart => (restart a, AOk)
  end.
Definition arun (a : agent) (ops : list aop) : agent := fold_left (fun a o => fst (astep a o)) ops a.
Definition agent_init (image : option string) (name : string) : agent := {| a_target := image; a_new := None; a_hasher := None; a_name := name |}.
End Agent.

(** ** The Primary's upload: ipuptanesecondary.cc:405-433. [ack n]: the Secondary accepts the n-th request. The reader gives
    1024 bytes or what is left. Result: the chunks sent and whether the upload succeeded; None: still running after [fuel]
    requests. *)
Definition chunk : nat := 1024.
Fixpoint sskip (n : nat) (s : string) : string := match n, s with S n', String _ s' => sskip n' s' | _, _ => s end.
Fixpoint upload_loop (fuel : nat) (ack : nat -> bool) (len : Z) (n : nat) (image : string) (total : Z) (sent : list string) : option (list string * bool) :=
  if total <? len then
    match fuel with
    | O => None
    | S f => let c := stake chunk image in
             let total' := total + Z.of_nat (String.length c) in
             if ack n then upload_loop f ack len (S n) (sskip chunk image) total' (sent ++ [c])
             else Some (sent ++ [c], false)
    end
  else Some (sent, total =? len).
Definition upload (fuel : nat) (ack : nat -> bool) (t : target) (image : string) : option (list string * bool) :=
  upload_loop fuel ack (t_length t) 0 image 0 [].
