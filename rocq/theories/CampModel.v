(** Update campaigns: /repo/src/libaktualizr/campaign/campaign.cc and include/libaktualizr/campaign.h. *)
From Verif Require Import Base Json CodecModel.

(** campaign.h:48-54 *)
Record campaign := {
  ca_id : string; ca_name : string; ca_size : Z; ca_auto : bool;
  ca_desc : string; ca_inst : Z; ca_prep : Z }.

Definition k_desc : string := "DESCRIPTION".
Definition k_inst : string := "ESTIMATED_INSTALLATION_DURATION".
Definition k_prep : string := "ESTIMATED_PREPARATION_DURATION".

Definition is_empty (s : string) : bool := String.eqb s "".

(** The three members set from the metadata (description and the two durations). *)
Definition meta := (string * Z * Z)%type.

(** campaign.cc:27-46: the body of the loop over the metadata. *)
Definition meta_step (o : json) (m : meta) : res meta :=
  let '(d, i, p) := m in
  if negb (jis_object o) then Ok m                                  (* 28-30 *)
  else
    do t <- jget "type" o;
    do v <- jget "value" o;
    if jeq_str t k_desc then                                        (* 32-36 *)
      if negb (is_empty d) then Throw EStd else do s <- jas_string v; Ok (s, i, p)
    else if jeq_str t k_inst then                                   (* 37-41 *)
      if negb (i =? 0) then Throw EStd else do s <- jas_string v; do n <- stoi s; Ok (d, n, p)
    else if jeq_str t k_prep then                                   (* 42-46 *)
      if negb (p =? 0) then Throw EStd else do s <- jas_string v; do n <- stoi s; Ok (d, i, n)
    else Ok m.

Fixpoint meta_all (l : list (string * json)) (m : meta) : res meta :=
  match l with [] => Ok m | (_, o) :: l' => do m' <- meta_step o m; meta_all l' m' end.

(** json.get(k, default) *)
Definition jget_or (k : string) (dflt j : json) : res json :=
  do b <- jmember k j; if b then jget k j else Ok dflt.

(** campaign.cc:7-48, the constructor before its handlers. *)
Definition campaign_of (j : json) : res campaign :=
  if negb (jis_object j) then Throw EStd else
  do jid <- jget "id" j; do id <- jas_string jid;
  if is_empty id then Throw EStd else
  do jname <- jget "name" j; do name <- jas_string jname;
  if is_empty name then Throw EStd else
  do jsz <- jget_or "size" (JInt 0) j; do size <- jas_int64 jsz;
  do ja <- jget_or "autoAccept" (JBool false) j; do auto <- jas_bool ja;
  do jm <- jget "metadata" j;
  do m <- meta_all (jiter jm) ("", 0, 0);
  Ok {| ca_id := id; ca_name := name; ca_size := size; ca_auto := auto;
        ca_desc := fst (fst m); ca_inst := snd (fst m); ca_prep := snd m |}.

(** campaign.cc:50-55: every exception becomes CampaignParseError, here None. *)
Definition parse (j : json) : option campaign :=
  match campaign_of j with Ok c => Some c | Throw _ => None end.

(** Json::UInt(size): conversion of an int64_t to unsigned int. *)
Definition to_uint (z : Z) : Z := z mod 4294967296.

(** campaign.cc:58-71 getJson.  Members in the order of JsonCpp's map. *)
Definition get_json (c : campaign) : json :=
  let item t v := JObj [("type", JStr t); ("value", JStr v)] in
  JObj [("autoAccept", JBool (ca_auto c)); ("id", JStr (ca_id c));
        ("metadata", JArr [item k_desc (ca_desc c); item k_inst (to_dec (ca_inst c)); item k_prep (to_dec (ca_prep c))]);
        ("name", JStr (ca_name c)); ("size", JInt (to_uint (ca_size c)))].

(** campaign.cc:90-97: what cannot be parsed is logged and left out. *)
Fixpoint parse_all (l : list json) : list campaign :=
  match l with
  | [] => []
  | j :: l' => match parse j with Some c => c :: parse_all l' | None => parse_all l' end
  end.

(** campaign.cc:73-98 campaignsFromJson. *)
Definition campaigns_from_json (j : json) : list campaign :=
  if negb (jis_object j) then [] else
  match jget "campaigns" j with
  | Ok (JArr l) => parse_all l
  | _ => []
  end.

(** campaign.cc:100-109 JsonFromCampaigns, for an [out] that was null before. *)
Definition json_from_campaigns (l : list campaign) : json :=
  match l with [] => JNull | _ => JObj [("campaigns", JArr (map get_json l))] end.
