(** The stream of CER tokens: /repo/src/libaktualizr-posix/asn1/asn1-cerstream.cc and asn1-cerstream.h (Serializer, Deserializer, implicit).
    The tokens themselves are in CerModel.
    Simplifications: as in CerModel; the variables read into are a list of what each >> puts into its variable; counters do not overflow. *)
From Verif Require Import Base CerModel.

(** ** Writing *)
Inductive wop := WTag (t : Z) | WInt (n : Z) | WBool (b : bool) | WStr (s : bytes) | WSeq | WEnd | WExpl (tag cls : Z).
(** Serializer: result and last_type (asn1-cerstream.h:119-120). *)
Record ser := { w_out : bytes; w_last : Z }.
Definition ser0 : ser := {| w_out := []; w_last := kCerUnknown |}.
Definition add (b : bytes) (s : ser) : ser := {| w_out := w_out s ++ b; w_last := w_last s |}.
(** asn1-cerstream.cc:5-51 *)
Definition wstep (s : ser) (o : wop) : ser :=
  match o with
  | WInt n => add (encode_integer n) s
  | WBool b => add (encode_integer (if b then 1 else 0)) s
  | WStr v => add (encode_string v (w_last s)) s
  | WTag t => {| w_out := w_out s ++ [Z.land t 255]; w_last := t |}
  | WSeq => add [48; 128] s
  | WEnd => add [0; 0] s
  | WExpl tag cls => add [Z.lor (Z.land (Z.lor tag cls) 255) 32; 128] s
  end.
Definition write (ops : list wop) : bytes := w_out (fold_left wstep ops ser0).

(** ** Reading *)
Inductive rop := RTag (t : Z) | RInt | RBool | RStr | RSeq | REnd | RRest | RExpl (tag cls : Z) | RPeek | ROpt | REndOpt.
(** What is put into a variable; [VKept]: the variable is left alone. *)
Inductive val := VInt (z : Z) | VBool (b : bool) | VStr (s : bytes) | VPresent (b : bool) | VTag (tag cls : Z) | VKept.
(** Deserializer (asn1-cerstream.h:141-149) *)
Record des := { d_data : bytes; d_lens : list Z; d_cons : list Z; d_int : Z; d_str : bytes; d_optc : Z; d_optf : bool; d_optp : bool }.
Definition des0 (b : bytes) : des :=
  {| d_data := b; d_lens := []; d_cons := []; d_int := 0; d_str := []; d_optc := 0; d_optf := false; d_optp := false |}.

(** [RErr]: deserialization_error; [REsc]: another exception (substr) or undefined behaviour; [RLoop]: no end. *)
Inductive out (A : Type) := RDone (a : A) | RErr | REsc | RLoop.
Arguments RDone {A} a.
Arguments RErr {A}.
Arguments REsc {A}.
Arguments RLoop {A}.

Section Read.
(** Whether char is signed, as in CerModel. *)
Context (sgn : bool).
Definition token (b : bytes) : dres := decode_token sgn (List.length b + 3) b.

Definition set_opt (f p : bool) (d : des) : des :=
  {| d_data := d_data d; d_lens := d_lens d; d_cons := d_cons d; d_int := d_int d; d_str := d_str d; d_optc := d_optc d; d_optf := f; d_optp := p |}.
Definition set_optc (n : Z) (f : bool) (d : des) : des :=
  {| d_data := d_data d; d_lens := d_lens d; d_cons := d_cons d; d_int := d_int d; d_str := d_str d; d_optc := n; d_optf := f; d_optp := d_optp d |}.
Definition set_params (ip : option Z) (sp : option bytes) (d : des) : des :=
  {| d_data := d_data d; d_lens := d_lens d; d_cons := d_cons d; d_int := match ip with Some z => z | None => d_int d end;
     d_str := match sp with Some s => s | None => d_str d end; d_optc := d_optc d; d_optf := d_optf d; d_optp := d_optp d |}.
Definition set_stacks (l c : list Z) (d : des) : des :=
  {| d_data := d_data d; d_lens := l; d_cons := c; d_int := d_int d; d_str := d_str d; d_optc := d_optc d; d_optf := d_optf d; d_optp := d_optp d |}.
Definition set_data (b : bytes) (d : des) : des :=
  {| d_data := b; d_lens := d_lens d; d_cons := d_cons d; d_int := d_int d; d_str := d_str d; d_optc := d_optc d; d_optf := d_optf d; d_optp := d_optp d |}.
(** data = data.substr(endpos) *)
Definition advance (e : Z) (d : des) : out des := if blen (d_data d) <? e then REsc else RDone (set_data (drop e (d_data d)) d).

Definition in_opt (d : des) : bool := negb (d_optc d =? 0).
(** 76, 109: inside an OPTIONAL that is not present *)
Definition skipping (d : des) : bool := in_opt d && negb (d_optp d) && negb (d_optf d).
(** 82-86, 117-121, 208-212: the first token of an OPTIONAL is another one *)
Definition missing (d : des) : out des := if in_opt d && d_optf d then RDone (set_opt false false d) else RErr.
(** 90-93, 124-127 *)
Definition found (d : des) : des := if in_opt d && d_optf d then set_opt false true d else d.
Definition opush (n : Z) (d : des) : des := set_stacks (n :: d_lens d) (0 :: d_cons d) d.

(** asn1-cerstream.cc:74-103 operator>>(ASN1_UniversalTag) *)
Definition read_tag (t : Z) (d : des) : out des :=
  if skipping d then RDone d else
  match token (d_data d) with
  | DTok tg e ip sp =>
      let d := set_params ip sp d in
      if negb (tg =? t) then missing d else
      let d := found d in
      match d_lens d, d_cons d with
      | l :: _, c :: cs =>
          if 0 <? l then if l <? c + e then RErr else advance e (set_stacks (d_lens d) (c + e :: cs) d) else advance e d
      | _, _ => advance e d
      end
  | DFuel => RLoop
  | _ => REsc
  end.
(** 116-134, 204-224: seq and expl, with the full tag *)
Definition read_open (full : Z) (d : des) : out des :=
  match token (d_data d) with
  | DTok tg e ip _ =>
      if negb (tg =? full) then missing d else
      match advance e (found d) with
      | RDone d' => RDone (opush (match ip with Some n => n | None => 0 end) d')
      | x => x
      end
  | DFuel => RLoop
  | _ => REsc
  end.
(** 158-161, 197-200 *)
Definition close (cons_len : Z) (l c : list Z) (d : des) : des :=
  match l, c with
  | _ :: _, c0 :: cs => set_stacks l (c0 + (cons_len + 2) :: cs) d
  | _, _ => set_stacks l c d
  end.
(** 136-163: endseq, endexpl *)
Definition read_end (d : des) : out des :=
  match d_lens d, d_cons d with
  | len :: ls, k :: cs =>
      if 0 <=? len then if k =? len then RDone (close k ls cs d) else RErr
      else match token (d_data d) with
           | DTok tg e _ _ =>
               if negb (tg =? kCerEnd) then RErr else
               match advance e d with RDone d' => RDone (close (k + e) ls cs d') | x => x end
           | DFuel => RLoop
           | _ => REsc
           end
  | _, _ => REsc
  end.
(** 170-178: the rest of a sequence of known length *)
Fixpoint rest_known (fuel : nat) (len k : Z) (d : des) : out (Z * des) :=
  if len <=? k then if k =? len then RDone (k, d) else RErr else
  match fuel with
  | O => RLoop
  | S f =>
      match token (d_data d) with
      | DTok tg e _ _ =>
          if tg =? kCerUnknown then RErr else
          match advance e d with RDone d' => rest_known f len (k + e) d' | RErr => RErr | REsc => REsc | RLoop => RLoop end
      | DFuel => RLoop
      | _ => REsc
      end
  end.
(** 180-195: of unknown length *)
Fixpoint rest_open (fuel : nat) (nested k : Z) (d : des) : out (Z * des) :=
  match fuel with
  | O => RLoop
  | S f =>
      match d_data d with
      | [] => RErr
      | _ =>
          match token (d_data d) with
          | DTok tg e ip _ =>
              match advance e d with
              | RDone d' =>
                  if tg =? kCerUnknown then RErr
                  else if tg =? kCerSequence then rest_open f (if match ip with Some n => n =? -1 | None => false end then nested + 1 else nested) (k + e) d'
                  else if tg =? kCerEnd then if nested =? 0 then RDone (k + e, d') else rest_open f (nested - 1) (k + e) d'
                  else rest_open f nested (k + e) d'
              | RErr => RErr | REsc => REsc | RLoop => RLoop
              end
          | DFuel => RLoop
          | _ => REsc
          end
      end
  end.
(** 165-202: restseq *)
Definition read_rest (d : des) : out des :=
  match d_lens d, d_cons d with
  | len :: ls, k :: cs =>
      let fuel := (2 * List.length (d_data d) + 2)%nat in
      match (if 0 <=? len then rest_known fuel len k d else rest_open fuel 0 k d) with
      | RDone (k', d') => RDone (close k' ls cs d')
      | RErr => RErr | REsc => REsc | RLoop => RLoop
      end
  | _, _ => REsc
  end.

(** asn1-cerstream.cc:53-279 *)
Definition rstep (d : des) (o : rop) : out (des * list val) :=
  let lift (x : out des) := match x with RDone d' => RDone (d', []) | RErr => RErr | REsc => REsc | RLoop => RLoop end in
  let here (v : val) := RDone (d, [if (d_optc d =? 0) || d_optp d then v else VKept]) in
  match o with
  | RInt => here (VInt (d_int d))
  | RBool => here (VBool (negb (d_int d =? 0)))
  | RStr => here (VStr (d_str d))
  | RTag t => lift (read_tag t d)
  | REndOpt => RDone (set_optc (d_optc d - 1) (d_optf d) d, [VPresent (d_optp d)])
  | _ =>
      if skipping d then RDone (d, []) else
      match o with
      | RSeq => lift (read_open kCerSequence d)
      | RExpl tag cls => lift (read_open (Z.land (Z.lor tag cls) 255) d)
      | REnd => lift (read_end d)
      | RRest => lift (read_rest d)
      | RPeek =>
          match token (d_data d) with
          | DTok tg e ip _ =>
              if tg =? kCerUnknown then RErr else
              match advance e (found d) with
              | RDone d' => RDone (opush (match ip with Some n => n | None => 0 end) d', [VTag (Z.land tg 31) (Z.land tg 192)])
              | RErr => RErr | REsc => REsc | RLoop => RLoop
              end
          | DFuel => RLoop
          | _ => REsc
          end
      | _ => RDone (set_optc (d_optc d + 1) true d, [])
      end
  end.
Fixpoint rsteps (d : des) (l : list rop) : out (des * list val) :=
  match l with
  | [] => RDone (d, [])
  | o :: l' =>
      match rstep d o with
      | RDone (d', v) => match rsteps d' l' with RDone (d'', v') => RDone (d'', v ++ v') | x => x end
      | x => x
      end
  end.
Definition read (l : list rop) (b : bytes) : out (list val) :=
  match rsteps (des0 b) l with RDone (_, v) => RDone v | RErr => RErr | REsc => REsc | RLoop => RLoop end.
End Read.
