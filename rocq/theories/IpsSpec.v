(** What a user expects of the configured IP Secondaries. *)
From Verif Require Import Base Json CodecModel IpsModel.

(** ** The configuration file *)
Definition addr_text (c : string * Z) : string := append (fst c) (String ":" (to_dec (snd c))).
(** The object for IP Secondaries with these address texts, and anything else beside. *)
Definition lists (m : list (string * json)) (addrs : list string) : Prop :=
  aget "secondaries" m = Some (JArr (map (fun a => JObj [("addr", JStr a)]) addrs)) /\
  (exists p, aget "secondaries_wait_port" m = Some (JInt p) /\ 0 <= p <= 65535) /\
  (exists t, aget "secondaries_wait_timeout" m = Some (JInt t) /\ 0 <= t <= max_int).

(** ** Starting *)
Definition at_addr (s : ipsec) : string * Z := (is_ip s, is_port s).

(** An answer whose identifiers have lengths that the types allow. *)
Definition fits (a : answer) : Prop :=
  match a with
  | Reply s h _ => (1 <= String.length s <= 64)%nat /\ (String.length h <= 200)%nat
  | _ => True
  end.

(** No two configured addresses look the same when address and port are written without a separator. *)
Definition tell_apart (cfgs : list (string * Z)) : Prop :=
  forall c d, In c cfgs -> In d cfgs -> append (fst c) (to_dec (snd c)) = append (fst d) (to_dec (snd d)) -> c = d.
(** Only configured Secondaries connect while the Primary waits, and with proper identifiers. *)
Definition own_connections (cfgs : list (string * Z)) (evs : list wevent) : Prop :=
  forall ip port a, In (Conn ip port a) evs -> In (ip, port) cfgs /\ fits a.

(** A stored Secondary: its identity and the address under which it was stored. *)
Definition stored_at (st : store) (c : string * Z) (serial hw : string) : Prop :=
  exists i, In i (load_infos st) /\ in_serial i = serial /\ in_hw i = hw /\ in_extra i = XAddr (fst c) (snd c).

(** Every stored Secondary that answers, answers with the serial it was stored with.  A single Secondary stored without an
    address is taken for the single configured one. *)
Definition unreplaced (net : string -> Z -> answer) (cfgs : list (string * Z)) (st : store) : Prop :=
  forall ip port i s h k, In (ip, port) cfgs -> In i (load_infos st) -> (in_extra i = XAddr ip port \/
      (in_extra i = XNone /\ List.length cfgs = 1%nat /\ List.length (load_infos st) = 1%nat)) ->
    net ip port = Reply s h k -> s = in_serial i.

(** Nobody answers. *)
Definition offline : string -> Z -> answer := fun _ _ => NoConnect.
