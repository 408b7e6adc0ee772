(** The description of the build that garage-push sends along: /repo/src/libaktualizr/utilities/xml2json.h. *)
From Verif Require Import Base Json TufModel GenModel.

(** boost::property_tree::ptree as read_xml fills it: text and named children; the attributes of an element are the children of a child
    called "<xmlattr>", a comment is a child called "<xmlcomment>". *)
Inductive tree := Tree (data : string) (kids : list (string * tree)).
Definition t_data (t : tree) : string := match t with Tree d _ => d end.
Definition t_kids (t : tree) : list (string * tree) := match t with Tree _ k => k end.

(** xml2json.h:10-18 addSubArray.  The object is its list of members, in the order JsonCpp keeps them; none: the null value. *)
Definition add_sub (d : list (string * json)) (key : string) (arr : list json) : list (string * json) :=
  match arr with
  | [] => d
  | [x] => oput key x d
  | _ => oput key (JArr arr) d
  end.

(** xml2json.h:38 ordered_begin: the children by name, those of one name in the order of the document. *)
Fixpoint ins (x : string * tree) (l : list (string * tree)) : list (string * tree) :=
  match l with
  | [] => [x]
  | y :: l' => if str_ltb (fst y) (fst x) then y :: ins x l' else x :: l
  end.
Definition ordered (l : list (string * tree)) : list (string * tree) := fold_right ins [] l.

(** xml2json.h:44-49 *)
Definition add_attrs (out : list (string * json)) (l : list (string * tree)) : list (string * json) :=
  fold_left (fun o a => oput (append "@" (fst a)) (JStr (t_data (snd a))) o) l out.

(** xml2json.h:38-60: the loop; [key], [lst] are cur. *)
Fixpoint collect (conv : tree -> res json) (out : list (string * json)) (key : string) (lst : list json) (l : list (string * tree))
  : res (list (string * json) * string * list json) :=
  match l with
  | [] => Ok (out, key, lst)
  | (val, sub) :: l' =>
      if String.eqb val "<xmlattr>" then collect conv (add_attrs out (t_kids sub)) key lst l'
      else
        let out' := if String.eqb key "" then out else if String.eqb key val then out else add_sub out key lst in
        let lst' := if String.eqb key "" then lst else if String.eqb key val then lst else [] in
        do j <- conv sub; collect conv out' val (lst' ++ [j]) l'
  end.

(** xml2json.h:20 *)
Definition MAX_DEPTH : nat := 10%nat.

(** xml2json.h:22-80 treeJson; [left] = MAX_DEPTH + 1 - depth. *)
Fixpoint tree_json (left : nat) (t : tree) : res json :=
  match left with
  | O => Throw EStd
  | S n =>
      do r <- collect (tree_json n) [] "" [] (ordered (t_kids t));
      match r with
      | (out, key, lst) =>
          let out := if String.eqb key "" then out else add_sub out key lst in
          let obj (m : list (string * json)) := match m with [] => JNull | _ => JObj m end in
          if String.eqb (t_data t) "" then Ok (obj out)
          else match t_kids t with
               | [] => Ok (JStr (t_data t))
               | _ => Ok (obj (oput "#text" (JStr (t_data t)) out))
               end
      end
  end.

(** xml2json.h:82-97 xml2json; [doc]: what read_xml made of the text, nothing if it could not be read. *)
Definition xml2json (doc : option tree) : res json :=
  match doc with
  | None => Throw EStd
  | Some pt => if Nat.eqb (List.length (t_kids pt)) 1 then tree_json (S MAX_DEPTH) pt else Throw EStd
  end.
