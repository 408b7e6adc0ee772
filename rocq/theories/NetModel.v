(** Network helpers: /repo/src/libaktualizr/utilities/utils.cc:217-242 (extractField), 373-449 (getNetworkInfo, getHostname),
    969-988 (ConnectionSocket), libaktualizr/primary/sotauptaneclient.cc:191-216 (whether anything is reported).
    Simplifications: texts have no NUL; the files in /proc and /sys and getifaddrs are given as data; isspace is that of the C locale. *)
From Verif Require Import Base CodecModel.

(** utils.cc:221-224, 233-235 *)
Fixpoint skip_sp (s : string) : string := match s with String c r => if is_space c then skip_sp r else s | EmptyString => s end.
(** 227-229 and 238-240: the word at the beginning and what comes after it. *)
Fixpoint word (s : string) : string * string :=
  match s with String c r => if is_space c then (EmptyString, s) else let (w, t) := word r in (String c w, t) | EmptyString => (EmptyString, EmptyString) end.
Fixpoint fields_from (s : string) (k : nat) : res string :=
  match k with
  | O => Ok (fst (word s))
  | S k' => match word s with (EmptyString, _) => Throw EStd | (_, t) => fields_from (skip_sp t) k' end
  end.
(** 217-242 *)
Definition extract_field (s : string) (k : nat) : res string := fields_from (skip_sp s) k.

(** istream::getline into a buffer of 200 characters: None if it fails (nothing left or the line is too long). *)
Definition newline : ascii := "010"%char.
Fixpoint upto_newline (s : string) : string * string :=
  match s with EmptyString => (EmptyString, EmptyString) | String c r => if Ascii.eqb c newline then (EmptyString, r) else let (l, t) := upto_newline r in (String c l, t) end.
Definition getline (s : string) : option (string * string) :=
  match s with
  | EmptyString => None
  | _ => let (l, r) := upto_newline s in if Nat.ltb (String.length l) 200 then Some (l, r) else None
  end.
(** 389-397; every getline that works takes at least one character, so that the length of the text is enough fuel. *)
Fixpoint scan_routes (fuel : nat) (s : string) : res string :=
  match fuel with
  | O => Ok ""
  | S n => match getline s with
           | None => Ok ""
           | Some (l, r) => do name <- extract_field l 0; do dest <- extract_field l 1; if String.eqb dest "00000000" then Ok name else scan_routes n r
           end
  end.
(** 373-397: the name of the interface, empty if there is none. *)
Definition default_interface (content : string) : res string :=
  match getline content with None => Ok "" | Some (_, r) => scan_routes (String.length r) r end.
Record netenv := {
  e_routes : string;                                (* /proc/net/route *)
  e_addrs : option (list (string * option string)); (* getifaddrs: name, and the address if it is an IPv4 one; None: it failed *)
  e_mac : string -> string;                         (* /sys/class/net/<name>/address without white space at the end *)
  e_host : option string }.                         (* gethostname *)
(** 399-441: address, MAC and host name. The loop over the addresses does not stop at the first one. *)
Definition last_ipv4 (name : string) (l : list (string * option string)) : string :=
  fold_left (fun acc x => match x with (n, Some a) => if String.eqb name n then a else acc | _ => acc end) l "".
Definition network_info (e : netenv) : res (string * string * string) :=
  do name <- default_interface (e_routes e);
  let host := match e_host e with Some h => h | None => "" end in
  if String.eqb name "" then Ok ("", "", host)
  else Ok (match e_addrs e with Some l => last_ipv4 name l | None => "" end, e_mac e name, host).
(** sotauptaneclient.cc:191-202: what would be reported. *)
Definition reported (enabled : bool) (e : netenv) : option (string * string * string) :=
  if enabled then match network_info e with Ok x => Some x | Throw _ => None end else None.

(** inet_pton(AF_INET) as in glibc: [done] octets, the current one and whether it has a digit. *)
Definition digit (c : ascii) : option Z := let n := Z.of_nat (nat_of_ascii c) in if (48 <=? n) && (n <=? 57) then Some (n - 48) else None.
Fixpoint pton_from (done : list Z) (cur : Z) (saw : bool) (s : string) : option (list Z) :=
  match s with
  | EmptyString => if saw && Nat.eqb (List.length done) 3 then Some (done ++ [cur]) else None
  | String c r =>
      match digit c with
      | Some d =>
          if saw && (cur =? 0) then None
          else if 255 <? cur * 10 + d then None
          else if negb saw && Nat.leb 4 (List.length done) then None
          else pton_from done (cur * 10 + d) true r
      | None =>
          if Ascii.eqb c "." && saw && Nat.ltb (List.length done) 3 then pton_from (done ++ [cur]) 0 false r else None
      end
  end.
Definition inet_pton (s : string) : option (list Z) := pton_from [] 0 false s.
(** utils.cc:969-977: inet_pton answers 0 for a text that is no address, and -1 only for an unknown family; sin_addr stays zero then. *)
Definition connection_address (ip : string) : res (list Z) := match inet_pton ip with Some a => Ok a | None => Ok [0; 0; 0; 0] end.
