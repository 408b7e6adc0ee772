(** What a reader expects of update campaigns, without reference to the code's way of reading them. *)
From Verif Require Import Base Json CampModel.

(** A campaign object that the API can hold: a non-empty identifier and name, an int64_t size, two ints. *)
Definition holdable (c : campaign) : Prop :=
  ca_id c <> "" /\ ca_name c <> "" /\ min_int64 <= ca_size c <= max_int64 /\
  min_int <= ca_inst c <= max_int /\ min_int <= ca_prep c <= max_int.

(** The values given for a metadata type in a campaign's metadata, in order. *)
Definition given (t : string) (ms : list json) : list json :=
  flat_map (fun m => match m with
                     | JObj l => match aget "type" l with
                                 | Some (JStr t') => if String.eqb t' t
                                                     then [match aget "value" l with Some v => v | None => JNull end]
                                                     else []
                                 | _ => []
                                 end
                     | _ => []
                     end) ms.

(** A campaign as the server publishes it; what is optional may be missing. *)
Record published := {
  p_id : string; p_name : string; p_size : option Z; p_auto : option bool;
  p_desc : option string; p_inst : option Z; p_prep : option Z }.

Definition opt {A} (d : A) (o : option A) : A := match o with Some a => a | None => d end.
Definition as_list {A} (o : option A) : list A := match o with Some a => [a] | None => [] end.

(** The campaign a user of the API must be shown for it. *)
Definition shown (p : published) : campaign :=
  {| ca_id := p_id p; ca_name := p_name p; ca_size := opt 0 (p_size p); ca_auto := opt false (p_auto p);
     ca_desc := opt "" (p_desc p); ca_inst := opt 0 (p_inst p); ca_prep := opt 0 (p_prep p) |}.

(** JSON that publishes a campaign, with anything else beside it: further members, further metadata of other types and
    metadata that are no objects. *)
Definition publishes (j : json) (p : published) : Prop :=
  exists l ms, j = JObj l /\
    aget "id" l = Some (JStr (p_id p)) /\ p_id p <> "" /\
    aget "name" l = Some (JStr (p_name p)) /\ p_name p <> "" /\
    aget "size" l = option_map JInt (p_size p) /\ min_int64 <= opt 0 (p_size p) <= max_int64 /\
    aget "autoAccept" l = option_map JBool (p_auto p) /\
    (aget "metadata" l = Some (JArr ms) \/ aget "metadata" l = None /\ ms = []) /\
    given "DESCRIPTION" ms = map JStr (as_list (p_desc p)) /\
    given "ESTIMATED_INSTALLATION_DURATION" ms = map (fun n => JStr (to_dec n)) (as_list (p_inst p)) /\
    given "ESTIMATED_PREPARATION_DURATION" ms = map (fun n => JStr (to_dec n)) (as_list (p_prep p)) /\
    min_int <= opt 0 (p_inst p) <= max_int /\ min_int <= opt 0 (p_prep p) <= max_int.

(** The text of a number: a decimal numeral that fits an int. *)
Definition number (j : json) : Prop := exists n, (j = JStr (to_dec n) \/ j = JInt n) /\ min_int <= n <= max_int.

Definition no_text (o : option json) : Prop :=
  o = None \/ o = Some JNull \/ o = Some (JStr "") \/ (exists l, o = Some (JArr l)) \/ (exists l, o = Some (JObj l)).

(** JSON that is no campaign. *)
Inductive malformed : json -> Prop :=
| mal_object j : (forall l, j <> JObj l) -> malformed j
| mal_id l : no_text (aget "id" l) -> malformed (JObj l)
| mal_name l : no_text (aget "name" l) -> malformed (JObj l)
| mal_size l n : aget "size" l = Some (JInt n) -> ~ min_int64 <= n <= max_int64 -> malformed (JObj l)
| mal_size_text l s : aget "size" l = Some (JStr s) -> malformed (JObj l)
| mal_twice l ms t v w r : aget "metadata" l = Some (JArr ms) ->
    In t ["DESCRIPTION"; "ESTIMATED_INSTALLATION_DURATION"; "ESTIMATED_PREPARATION_DURATION"] ->
    given t ms = v :: w :: r -> malformed (JObj l)
| mal_number l ms t v : aget "metadata" l = Some (JArr ms) ->
    In t ["ESTIMATED_INSTALLATION_DURATION"; "ESTIMATED_PREPARATION_DURATION"] ->
    In v (given t ms) -> ~ number v -> malformed (JObj l).

(** The same without the two cases the program misses: a repeated entry whose first occurrence says nothing (the empty
    text, the number 0), and a text that only begins with a number. *)
Definition begins_number (s : string) : Prop :=
  exists c s', s = String c s' /\ (nat_of_ascii c <= 32 \/ c = "+"%char \/ c = "-"%char \/ 48 <= nat_of_ascii c <= 57)%nat.
Inductive malformed_plainly : json -> Prop :=
| plain_object j : (forall l, j <> JObj l) -> malformed_plainly j
| plain_id l : no_text (aget "id" l) -> malformed_plainly (JObj l)
| plain_name l : no_text (aget "name" l) -> malformed_plainly (JObj l)
| plain_size l n : aget "size" l = Some (JInt n) -> ~ min_int64 <= n <= max_int64 -> malformed_plainly (JObj l)
| plain_size_text l s : aget "size" l = Some (JStr s) -> malformed_plainly (JObj l)
| plain_desc_twice l ms s w r : aget "metadata" l = Some (JArr ms) ->
    given "DESCRIPTION" ms = JStr s :: w :: r -> s <> "" -> malformed_plainly (JObj l)
| plain_number_twice l ms t n w r : aget "metadata" l = Some (JArr ms) ->
    In t ["ESTIMATED_INSTALLATION_DURATION"; "ESTIMATED_PREPARATION_DURATION"] ->
    given t ms = JStr (to_dec n) :: w :: r -> n <> 0 -> malformed_plainly (JObj l)
| plain_number l ms t s : aget "metadata" l = Some (JArr ms) ->
    In t ["ESTIMATED_INSTALLATION_DURATION"; "ESTIMATED_PREPARATION_DURATION"] ->
    In (JStr s) (given t ms) -> ~ begins_number s -> malformed_plainly (JObj l)
| plain_number_big l ms t n : aget "metadata" l = Some (JArr ms) ->
    In t ["ESTIMATED_INSTALLATION_DURATION"; "ESTIMATED_PREPARATION_DURATION"] ->
    In (JStr (to_dec n)) (given t ms) -> ~ min_int <= n <= max_int -> malformed_plainly (JObj l).

(** A server's list: campaigns and malformed entries in any order; [ps] are the campaigns in it. *)
Inductive server_list (bad : json -> Prop) : list json -> list published -> Prop :=
| sl_nil : server_list bad [] []
| sl_good j p js ps : publishes j p -> server_list bad js ps -> server_list bad (j :: js) (p :: ps)
| sl_bad j js ps : bad j -> server_list bad js ps -> server_list bad (j :: js) ps.
