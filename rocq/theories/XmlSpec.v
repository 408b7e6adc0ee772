(** What the conversion of an element is to contain (C197). *)
From Coq Require Import Ascii.
From Verif Require Import Base Json TufModel XmlModel.

(** The children with a name, in the order of the document. *)
Fixpoint named (n : string) (l : list (string * tree)) : list tree :=
  match l with [] => [] | (k, t) :: l' => if String.eqb k n then t :: named n l' else named n l' end.
(** The attributes of an element. *)
Definition attributes (t : tree) : list (string * string) :=
  map (fun a => (fst a, t_data (snd a))) (List.concat (map t_kids (named "<xmlattr>" (t_kids t)))).
(** A name an element, or the node of a comment, can have. *)
Definition ordinary (n : string) : Prop :=
  n <> "" /\ n <> "<xmlattr>" /\ (forall s, n <> String "@" s) /\ (forall s, n <> String "#" s).
Definition names_ok (t : tree) : Prop := forall k c, In (k, c) (t_kids t) -> k = "<xmlattr>" \/ ordinary k.

Definition none_one_many (l : list json) : option json :=
  match l with [] => None | [x] => Some x | _ => Some (JArr l) end.

(** Nested at most [n] deep. *)
Inductive fits : nat -> tree -> Prop :=
| fits_S n t : (forall k c, In (k, c) (t_kids t) -> k <> "<xmlattr>" -> fits n c) -> fits (S n) t.
