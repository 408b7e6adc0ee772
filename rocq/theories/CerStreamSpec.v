(** What is written to and read from a stream of CER tokens: fields, sequences, explicit tags and OPTIONAL parts; the calls that write and read
    them; the values expected. *)
From Verif Require Import Base CerModel CerProofs CerProofs2 CerStreamModel.

Inductive field := FInt (tag n : Z) | FBool (tag : Z) (b : bool) | FStr (tag : Z) (s : bytes).
Inductive item := IField (f : field) | ISeq (l : list item) | IExpl (tag cls : Z) (l : list item) | IOpt (present : bool) (l : list item).

(** ser << implicit<tag>(value) *)
Definition wfield (f : field) : list wop :=
  match f with FInt t n => [WTag t; WInt n] | FBool t b => [WTag t; WBool b] | FStr t s => [WTag t; WStr s] end.
(** des >> implicit<tag>(variable) *)
Definition rfield (f : field) : list rop :=
  match f with FInt t _ => [RTag t; RInt] | FBool t _ => [RTag t; RBool] | FStr t _ => [RTag t; RStr] end.
Definition vfield (f : field) : list val :=
  match f with FInt _ n => [VInt n] | FBool _ b => [VBool b] | FStr _ s => [VStr s] end.
Definition ftag (f : field) : Z := match f with FInt t _ | FBool t _ | FStr t _ => t end.

Fixpoint wops (i : item) : list wop :=
  match i with
  | IField f => wfield f
  | ISeq l => WSeq :: List.concat (map wops l) ++ [WEnd]
  | IExpl t c l => WExpl t c :: List.concat (map wops l) ++ [WEnd]
  | IOpt p l => if p then List.concat (map wops l) else []
  end.
Fixpoint rops (i : item) : list rop :=
  match i with
  | IField f => rfield f
  | ISeq l => RSeq :: List.concat (map rops l) ++ [REnd]
  | IExpl t c l => RExpl t c :: List.concat (map rops l) ++ [REnd]
  | IOpt _ l => ROpt :: List.concat (map rops l) ++ [REndOpt]
  end.
(** In an OPTIONAL that is not there the variables keep their values. *)
Definition gone (v : val) : val := match v with VPresent _ => VPresent false | _ => VKept end.
Fixpoint vals (i : item) : list val :=
  match i with
  | IField f => vfield f
  | ISeq l => List.concat (map vals l)
  | IExpl _ _ l => List.concat (map vals l)
  | IOpt p l => (if p then List.concat (map vals l) else map gone (List.concat (map vals l))) ++ [VPresent p]
  end.

Definition is_byte (b : Z) : Prop := 0 <= b < 256.
(** Fields whose tag has the right kind; integers are int32_t. *)
Definition fine_field (f : field) : Prop :=
  match f with
  | FInt t n => int_tag t /\ -2147483648 <= n < 2147483648
  | FBool t _ => int_tag t
  | FStr t s => string_tag t /\ Forall is_byte s
  end.
Definition fine_expl (t c : Z) : Prop := 0 <= t <= 30 /\ (c = 64 \/ c = 128 \/ c = 192).
Fixpoint fine (i : item) : Prop :=
  match i with
  | IField f => fine_field f
  | ISeq l => fold_right (fun x P => fine x /\ P) True l
  | IExpl t c l => fine_expl t c /\ fold_right (fun x P => fine x /\ P) True l
  | IOpt _ l => l <> [] /\ fold_right (fun x P => fine x /\ P) True l
  end.

(** Fields that the tokens carry faithfully (C37): integers of one byte, or others where char is unsigned; strings of at most 1000 bytes. *)
Definition good_field (sgn : bool) (f : field) : Prop :=
  match f with
  | FInt t n => int_tag t /\ (-128 <= n <= 127 \/ (sgn = false /\ -2147483648 <= n < 2147483648 /\ cer_int_ok n))
  | FBool t _ => int_tag t
  | FStr t s => string_tag t /\ Forall is_byte s /\ blen s <= 1000
  end.

(** Fields, some of them OPTIONAL, and at the end perhaps a sequence or explicit tag around more of the same. *)
Inductive chain := CNil | CField (f : field) (c : chain) | COpt (present : bool) (f : field) (c : chain) | CSeq (c : chain) | CExpl (tag cls : Z) (c : chain).
Fixpoint items (c : chain) : list item :=
  match c with
  | CNil => []
  | CField f c => IField f :: items c
  | COpt p f c => IOpt p [IField f] :: items c
  | CSeq c => [ISeq (items c)]
  | CExpl t k c => [IExpl t k (items c)]
  end.
(** The tag that comes next: 0 for the end. *)
Fixpoint next_tag (c : chain) : Z :=
  match c with
  | CNil => 0
  | CField f _ => ftag f
  | COpt p f c => if p then ftag f else next_tag c
  | CSeq _ => 16
  | CExpl t k _ => Z.lor t k
  end.
Fixpoint good (sgn : bool) (c : chain) : Prop :=
  match c with
  | CNil => True
  | CField f c => good_field sgn f /\ good sgn c
  | COpt p f c => good_field sgn f /\ (p = false -> next_tag c <> ftag f) /\ good sgn c
  | CSeq c => good sgn c
  | CExpl t k c => fine_expl t k /\ good sgn c
  end.

(** ** The same in DER: lengths are given. Written independently of the serializer, but for the fields. *)
Definition der_field (f : field) : bytes :=
  match f with
  | FInt t n => t :: encode_integer n
  | FBool t b => t :: encode_integer (if b then 1 else 0)
  | FStr t s => t :: encode_length (blen s) ++ s
  end.
Definition der_wrap (b : Z) (body : bytes) : bytes := b :: encode_length (blen body) ++ body.
Fixpoint der (i : item) : bytes :=
  match i with
  | IField f => der_field f
  | ISeq l => der_wrap 48 (List.concat (map der l))
  | IExpl t c l => der_wrap (t + c + 32) (List.concat (map der l))
  | IOpt p l => if p then List.concat (map der l) else []
  end.
(** A part inside a sequence: sequences in it have at most 127 bytes and no part is OPTIONAL. *)
Fixpoint inner (sgn : bool) (i : item) : Prop :=
  match i with
  | IField f => good_field sgn f
  | ISeq l => blen (List.concat (map der l)) <= 127 /\ fold_right (fun x P => inner sgn x /\ P) True l
  | IExpl t c l => fine_expl t c /\ blen (List.concat (map der l)) <= 127 /\ fold_right (fun x P => inner sgn x /\ P) True l
  | IOpt _ _ => False
  end.
(** A part outside of every sequence. *)
Definition outer (sgn : bool) (i : item) : Prop :=
  match i with
  | IField f => good_field sgn f
  | ISeq l => blen (List.concat (map der l)) <= 65535 /\ fold_right (fun x P => inner sgn x /\ P) True l
  | IExpl t c l => fine_expl t c /\ blen (List.concat (map der l)) <= 65535 /\ fold_right (fun x P => inner sgn x /\ P) True l
  | IOpt _ _ => False
  end.
