(** The IP Secondaries of the Primary's executable: /repo/src/aktualizr_primary/secondary_config.cc (IP part) and secondary.cc,
    /repo/src/libaktualizr-posix/ipuptanesecondary.cc:12-95, /repo/src/libaktualizr/storage/sqlstorage.cc:186-210, 255-295,
    873-918, /repo/src/libaktualizr/primary/initializer.cc:212-293.
    Simplifications: virtual Secondaries, log messages and SQL errors are left out. *)
From Verif Require Import Base Json CodecModel.

(** ** The configuration file *)

(** std::stoul *)
Definition stoul (s : string) : res Z :=
  let wrap neg o := match o with
                    | Some z => if z <=? max_uint64 then Ok (if (neg : bool) then (- z) mod 18446744073709551616 else z) else Throw EStd
                    | None => Throw EStd
                    end in
  match skip_space s with
  | String "-" s' => wrap true (scan_number s')
  | String "+" s' => wrap false (scan_number s')
  | s' => wrap false (scan_number s')
  end.

(** secondary_config.cc:81-91 getIPAndPort; the conversion to uint16_t. *)
Definition ip_and_port (addr : string) : res (string * Z) :=
  match split_first ":" addr with
  | None => Throw EStd
  | Some (ip, rest) => do n <- stoul rest; Ok (ip, n mod 65536)
  end.

Fixpoint ip_list (l : list (string * json)) : res (list (string * Z)) :=
  match l with
  | [] => Ok []
  | (_, j) :: l' =>
      do a <- jget "addr" j; do s <- jas_string a; do x <- ip_and_port s; do r <- ip_list l'; Ok (x :: r)
  end.
(** secondary_config.cc:93-112 createIPSecondariesCfg: the addresses (the port and the time to wait are left out). *)
Definition parse_ip_config (j : json) : res (list (string * Z)) :=
  do p <- jget "secondaries_wait_port" j; do _ <- jas_range 0 4294967295 p;
  do t <- jget "secondaries_wait_timeout" j; do _ <- jas_int t;
  do s <- jget "secondaries" j;
  ip_list (jiter s).

(** ** Secondaries *)

(** An IpUptaneSecondary: address, serial, hardware identifier, public key (None: of unknown type). *)
Record ipsec := { is_ip : string; is_port : Z; is_serial : string; is_hw : string; is_key : option string }.

(** What a connection to a Secondary brings: none; no proper answer to the question for information; an answer. *)
Inductive answer := NoConnect | Silent | Reply (serial hw : string) (key : option string).

(** EcuSerial::Unknown(), HardwareIdentifier::Unknown(). *)
Definition unknown : string := "Unknown".
Definition serial_fits (s : string) : bool := let n := Z.of_nat (String.length s) in (1 <=? n) && (n <=? 64).
Definition hw_fits (s : string) : bool := Z.of_nat (String.length s) <=? 200.

(** ipuptanesecondary.cc:30-52 create, on an open connection. *)
Definition create (ip : string) (port : Z) (a : answer) : res ipsec :=
  match a with
  | Reply s h k => if serial_fits s && hw_fits h then Ok {| is_ip := ip; is_port := port; is_serial := s; is_hw := h; is_key := k |}
                   else Throw EStd
  | _ => Ok {| is_ip := ip; is_port := port; is_serial := unknown; is_hw := unknown; is_key := None |}
  end.
(** ipuptanesecondary.cc:13-28 connectAndCreate *)
Definition connect_and_create (ip : string) (port : Z) (a : answer) : res (option ipsec) :=
  match a with NoConnect => Ok None | _ => do s <- create ip port a; Ok (Some s) end.
(** ipuptanesecondary.cc:54-91 connectAndCheck: differences are only logged. *)
Definition connect_and_check (ip : string) (port : Z) (serial hw : string) (key : option string) (a : answer) : option ipsec :=
  let stored := Some {| is_ip := ip; is_port := port; is_serial := serial; is_hw := hw; is_key := key |} in
  match connect_and_create ip port a with
  | Ok (Some s) => match is_key s with None => None | Some _ => Some s end
  | Ok None => stored
  | Throw _ => stored
  end.

(** ** Storage *)

(** secondary_ecus.extra: empty, the JSON of an address, or other JSON. *)
Inductive extra := XNone | XAddr (ip : string) (port : Z) | XOther.
(** A row of secondary_ecus. *)
Record row := { rw_key : option string; rw_extra : extra }.
(** ecus without the Primary, in order, and secondary_ecus. *)
Record store := { st_ecus : list (string * string); st_rows : list (string * row) }.
(** SecondaryInfo *)
Record info := { in_serial : string; in_hw : string; in_key : option string; in_extra : extra }.

(** sqlstorage.cc:255-295 loadSecondariesInfo *)
Definition load_infos (st : store) : list info :=
  map (fun e => match aget (fst e) (st_rows st) with
                | Some r => {| in_serial := fst e; in_hw := snd e; in_key := rw_key r; in_extra := rw_extra r |}
                | None => {| in_serial := fst e; in_hw := snd e; in_key := None; in_extra := XNone |}
                end) (st_ecus st).
(** sqlstorage.cc:186-210 saveSecondaryData *)
Definition save_data (serial : string) (x : extra) (st : store) : store :=
  {| st_ecus := st_ecus st;
     st_rows := aset serial {| rw_key := match aget serial (st_rows st) with Some r => rw_key r | None => None end; rw_extra := x |}
                  (st_rows st) |}.

(** ** createIPSecondaries, secondary.cc:162-226 *)

(** secondary.cc:137 SecondaryWaiter::key *)
Definition wkey (ip : string) (port : Z) : string := append ip (to_dec port).

Definition extra_is (ip : string) (port : Z) (x : extra) : bool :=
  match x with XAddr i p => String.eqb i ip && (p =? port) | _ => false end.

(** secondary.cc:169-222, one configured Secondary.  [infos]: the stored Secondaries, loaded before; [one]: exactly one
    Secondary is configured and one stored. *)
Definition create_one (net : string -> Z -> answer) (infos : list info) (one : bool) (cfg : string * Z)
  (acc : list ipsec * list string * store) : res (list ipsec * list string * store) :=
  let '(result, waiting, st) := acc in
  let '(ip, port) := cfg in
  let check i st' :=
    match connect_and_check ip port (in_serial i) (in_hw i) (in_key i) (net ip port) with
    | None => Throw EStd                                                        (* 213-216 *)
    | Some s => Ok (result ++ [s], waiting, st')
    end in
  match find (fun i => extra_is ip port (in_extra i)) infos with
  | Some i => check i st                                                        (* 204-207 *)
  | None =>
      match (if one then infos else []) with
      | {| in_serial := s; in_hw := h; in_key := k; in_extra := XNone |} :: _ =>   (* 179-190 *)
          check {| in_serial := s; in_hw := h; in_key := k; in_extra := XNone |} (save_data s (XAddr ip port) st)
      | _ =>                                                                    (* 191-203 *)
          do c <- connect_and_create ip port (net ip port);
          match c with
          | None => Ok (result, wkey ip port :: waiting, st)
          | Some s => Ok (result ++ [s], waiting, save_data (is_serial s) (XAddr ip port) st)
          end
      end
  end.
Fixpoint create_loop (net : string -> Z -> answer) (infos : list info) (one : bool) (cfgs : list (string * Z))
  (acc : list ipsec * list string * store) : res (list ipsec * list string * store) :=
  match cfgs with
  | [] => Ok acc
  | c :: cfgs' => do acc' <- create_one net infos one c acc; create_loop net infos one cfgs' acc'
  end.

(** What happens while the Primary waits: a connection from an address, or a failing accept. *)
Inductive wevent := Conn (ip : string) (port : Z) (a : answer) | AcceptError.
(** secondary.cc:80-135: SecondaryWaiter::wait.  When nothing more happens, or after a failing accept, the timer expires and
    the wait throws. *)
Fixpoint wait (evs : list wevent) (acc : list ipsec * list string * store) : res (list ipsec * store) :=
  let '(result, waiting, st) := acc in
  match waiting with
  | [] => Ok (result, st)
  | _ =>
      match evs with
      | [] => Throw EStd
      | AcceptError :: _ => Throw EStd
      | Conn ip port a :: evs' =>
          let '(result', st') := match create ip port a with
                                 | Ok s => (result ++ [s], save_data (is_serial s) (XAddr ip port) st)
                                 | Throw _ => (result, st)                      (* 121-123 *)
                                 end in
          wait evs' (result', filter (fun k => negb (String.eqb k (wkey ip port))) waiting, st')
      end
  end.

Definition create_ip (net : string -> Z -> answer) (evs : list wevent) (cfgs : list (string * Z)) (st : store)
  : res (list ipsec * store) :=
  let infos := load_infos st in
  let one := (Nat.eqb (List.length cfgs) 1 && Nat.eqb (List.length infos) 1)%bool in
  do acc <- create_loop net infos one cfgs ([], [], st);
  wait evs acc.

(** sotauptaneclient.cc:27-36 addSecondary for each of them (secondary.cc:56-60). *)
Fixpoint add_all (l : list ipsec) (known : list string) : res unit :=
  match l with
  | [] => Ok tt
  | s :: l' => if mem_str (is_serial s) known then Throw EStd else add_all l' (is_serial s :: known)
  end.
(** secondary.cc:46-67 initSecondaries; an exception ends the program (main.cc:123-131). *)
Definition init_secondaries (net : string -> Z -> answer) (evs : list wevent) (cfgs : list (string * Z)) (st : store)
  : res (list ipsec * store) :=
  do r <- create_ip net evs cfgs st; do_ add_all (fst r) []; Ok r.

(** initializer.cc:257-260 after initSecondaryInfo (266-293): the ECUs are stored, keys of rows that have none are added.
    Simplification: in the order of the configuration instead of that of the serials; also done when nothing changed. *)
Definition save_info (s : ipsec) (rows : list (string * row)) : list (string * row) :=
  match aget (is_serial s) rows with
  | Some r => aset (is_serial s) {| rw_key := match rw_key r with Some k => Some k | None => is_key s end; rw_extra := rw_extra r |} rows
  | None => aset (is_serial s) {| rw_key := is_key s; rw_extra := XNone |} rows
  end.
Definition register (l : list ipsec) (st : store) : store :=
  {| st_ecus := map (fun s => (is_serial s, is_hw s)) l; st_rows := fold_left (fun rows s => save_info s rows) l (st_rows st) |}.
