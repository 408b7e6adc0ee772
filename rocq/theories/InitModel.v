(** Provisioning: /repo/src/libaktualizr/primary/initializer.cc (whole file), over device_info, tls_creds, primary_keys, ecus,
    secondary_ecus and ecu_report_counter (storage/sqlstorage.cc:733-830, 873-918).
    The constructor is a sequence of steps, each with at most one durable effect (a database write or a request to the
    server); a crash leaves the effect of a prefix of them.
    Simplifications: serials in the configuration are distinct and not empty; database writes succeed; credentials are the device id they were issued for;
    a key is its key id; misconfigured_ecus (initializer.cc:98-109) and the removal of the provisioning archive (174-185) are left out;
    the records of all Secondaries are written in one step (each run adds the missing ones);
    an answer of the server that is not understood counts as no answer. *)
From Verif Require Import Base.

Inductive pmode := Shared | DeviceCred.
Record pconf := { g_mode : pmode; g_id : string; g_serial : string; g_hw : string; g_secs : list (string * string) }.
(** What happens to a request: answered, carried out but the answer is lost, not carried out. *)
Inductive net := NOk | NLost | NDown.
Inductive status := Running | Failed | Done.
(** Storage; server; the process. [n_seq]: names generated so far. [p_resp]: credentials received. *)
Record ist := {
  n_id : option string; n_reg : bool; n_tls : option string; n_key : option string; n_ecus : list (string * string);
  n_info : list string; n_cnt : list string;
  s_dev : list string; s_ecu : list string; n_seq : nat;
  p_resp : option string; p_occ : bool; p_reg : bool; p_posted : bool; p_due : bool; p_status : status }.
Definition upd_id (id : option string) (seq : nat) (s : ist) : ist :=
  {| n_id := id; n_reg := false; n_tls := n_tls s; n_key := n_key s; n_ecus := n_ecus s; n_info := n_info s; n_cnt := n_cnt s; s_dev := s_dev s; s_ecu := s_ecu s;
     n_seq := seq; p_resp := p_resp s; p_occ := false; p_reg := p_reg s; p_posted := p_posted s; p_due := p_due s; p_status := p_status s |}.
Definition upd_status (x : status) (s : ist) : ist :=
  {| n_id := n_id s; n_reg := n_reg s; n_tls := n_tls s; n_key := n_key s; n_ecus := n_ecus s; n_info := n_info s; n_cnt := n_cnt s; s_dev := s_dev s; s_ecu := s_ecu s;
     n_seq := n_seq s; p_resp := p_resp s; p_occ := p_occ s; p_reg := p_reg s; p_posted := p_posted s; p_due := p_due s; p_status := x |}.
Definition upd_tls (t r : option string) (s : ist) : ist :=
  {| n_id := n_id s; n_reg := n_reg s; n_tls := t; n_key := n_key s; n_ecus := n_ecus s; n_info := n_info s; n_cnt := n_cnt s; s_dev := s_dev s; s_ecu := s_ecu s;
     n_seq := n_seq s; p_resp := r; p_occ := p_occ s; p_reg := p_reg s; p_posted := p_posted s; p_due := p_due s; p_status := p_status s |}.
Definition upd_server (dev : list string) (resp : option string) (occ : bool) (s : ist) : ist :=
  {| n_id := n_id s; n_reg := n_reg s; n_tls := n_tls s; n_key := n_key s; n_ecus := n_ecus s; n_info := n_info s; n_cnt := n_cnt s; s_dev := dev; s_ecu := s_ecu s;
     n_seq := n_seq s; p_resp := resp; p_occ := occ; p_reg := p_reg s; p_posted := p_posted s; p_due := p_due s; p_status := p_status s |}.
Definition upd_key (k : string) (s : ist) : ist :=
  {| n_id := n_id s; n_reg := n_reg s; n_tls := n_tls s; n_key := Some k; n_ecus := n_ecus s; n_info := n_info s; n_cnt := n_cnt s; s_dev := s_dev s; s_ecu := s_ecu s;
     n_seq := n_seq s; p_resp := p_resp s; p_occ := p_occ s; p_reg := p_reg s; p_posted := p_posted s; p_due := p_due s; p_status := p_status s |}.
Definition upd_preg (b : bool) (s : ist) : ist :=
  {| n_id := n_id s; n_reg := n_reg s; n_tls := n_tls s; n_key := n_key s; n_ecus := n_ecus s; n_info := n_info s; n_cnt := n_cnt s; s_dev := s_dev s; s_ecu := s_ecu s;
     n_seq := n_seq s; p_resp := p_resp s; p_occ := p_occ s; p_reg := b; p_posted := p_posted s; p_due := p_due s; p_status := p_status s |}.
Definition upd_info (l : list string) (s : ist) : ist :=
  {| n_id := n_id s; n_reg := n_reg s; n_tls := n_tls s; n_key := n_key s; n_ecus := n_ecus s; n_info := l; n_cnt := n_cnt s; s_dev := s_dev s; s_ecu := s_ecu s;
     n_seq := n_seq s; p_resp := p_resp s; p_occ := p_occ s; p_reg := p_reg s; p_posted := p_posted s; p_due := p_due s; p_status := p_status s |}.
Definition upd_ecus (l : list (string * string)) (srv : list string) (posted due : bool) (s : ist) : ist :=
  {| n_id := n_id s; n_reg := n_reg s; n_tls := n_tls s; n_key := n_key s; n_ecus := l; n_info := n_info s; n_cnt := n_cnt s; s_dev := s_dev s; s_ecu := srv;
     n_seq := n_seq s; p_resp := p_resp s; p_occ := p_occ s; p_reg := p_reg s; p_posted := posted; p_due := due; p_status := p_status s |}.
Definition upd_regflag (s : ist) : ist :=
  {| n_id := n_id s; n_reg := true; n_tls := n_tls s; n_key := n_key s; n_ecus := n_ecus s; n_info := n_info s; n_cnt := n_cnt s; s_dev := s_dev s; s_ecu := s_ecu s;
     n_seq := n_seq s; p_resp := p_resp s; p_occ := p_occ s; p_reg := p_reg s; p_posted := p_posted s; p_due := false; p_status := p_status s |}.
Definition upd_cnt (l : list string) (s : ist) : ist :=
  {| n_id := n_id s; n_reg := n_reg s; n_tls := n_tls s; n_key := n_key s; n_ecus := n_ecus s; n_info := n_info s; n_cnt := l; s_dev := s_dev s; s_ecu := s_ecu s;
     n_seq := n_seq s; p_resp := p_resp s; p_occ := p_occ s; p_reg := p_reg s; p_posted := p_posted s; p_due := p_due s; p_status := p_status s |}.

Section Steps.
(** [names i]: the i-th name genPrettyName makes up; [newkey]: the key pair that would be generated; [strict]: the server
    refuses to register the ECUs of a device a second time. *)
Context (names : nat -> string) (newkey : string) (strict : bool) (c : pconf).
Definition mem (x : string) (l : list string) : bool := existsb (String.eqb x) l.
(** A step is only taken if no exception was thrown before. *)
Definition guard (f : ist -> ist) (s : ist) : ist := match p_status s with Running => f s | _ => s end.
(** initializer.cc:13-40 initDeviceId (the certificate gives the name it was issued for) *)
Definition st_device (s : ist) : ist :=
  match n_id s with
  | Some _ => s
  | None =>
      if negb (String.eqb (g_id c) "") then upd_id (Some (g_id c)) (n_seq s) s
      else match n_tls s with
           | Some cn => upd_id (Some cn) (n_seq s) s
           | None => match g_mode c with
                     | Shared => upd_id (Some (names (n_seq s))) (S (n_seq s)) s
                     | DeviceCred => upd_status Failed s
                     end
           end
  end.
(** 133-163: POST /devices *)
Definition st_post (n : net) (s : ist) : ist :=
  match n_tls s with
  | Some _ => s
  | None =>
      match g_mode c, n_id s, n with
      | DeviceCred, _, _ | _, None, _ | _, _, NDown => upd_status Failed s
      | Shared, Some id, NOk => if mem id (s_dev s) then upd_server (s_dev s) None true s else upd_server (id :: s_dev s) (Some id) false s
      | Shared, Some id, NLost => upd_status Failed (upd_server (if mem id (s_dev s) then s_dev s else id :: s_dev s) None false s)
      end
  end.
(** 165-175 *)
Definition st_store (s : ist) : ist := match p_resp s with Some id => upd_tls (Some id) None s | None => s end.
(** 325-331: ServerOccupied *)
Definition st_reset (s : ist) : ist := if p_occ s then upd_id None (n_seq s) s else s.
(** 346: all attempts used up *)
Definition st_check (s : ist) : ist := match n_tls s with Some _ => s | None => upd_status Failed s end.
(** 114-125 *)
Definition st_key (s : ist) : ist := match n_key s with Some _ => s | None => upd_key newkey s end.
(** 45-111 initEcuSerials *)
Definition pair_in (x : string * string) (l : list (string * string)) : bool := existsb (fun y => String.eqb (fst x) (fst y) && String.eqb (snd x) (snd y)) l.
Definition new_serials (key : string) : list (string * string) := ((if String.eqb (g_serial c) "" then key else g_serial c), g_hw c) :: g_secs c.
Definition same_ecus (a b : list (string * string)) : bool := forallb (fun x => pair_in x b) a && forallb (fun x => pair_in x a) b.
Definition key_of (s : ist) : string := match n_key s with Some k => k | None => "" end.
Definition st_serials (s : ist) : ist :=
  upd_preg (match n_ecus s with [] => true | l => negb (same_ecus (new_serials (key_of s)) l) end) s.
(** 266-293 initSecondaryInfo *)
Definition add_info (s : ist) : list string := filter (fun x => negb (mem x (n_info s))) (map fst (g_secs c)) ++ n_info s.
Definition st_info (s : ist) : ist := if p_reg s then s else upd_info (add_info s) s.
(** 212-255: POST to the registration endpoint (made over TLS, with the Primary's key) *)
Definition st_ecupost (n : net) (s : ist) : ist :=
  if negb (p_reg s) then s
  else match n_id s, n_tls s, n_key s, n with
       | None, _, _, _ | _, None, _, _ | _, _, None, _ | _, _, _, NDown => upd_status Failed s
       | Some id, _, _, _ =>
           if strict && mem id (s_ecu s) then upd_status Failed s
           else let s' := upd_ecus (n_ecus s) (if mem id (s_ecu s) then s_ecu s else id :: s_ecu s) true (p_due s) s in
                match n with NOk => s' | _ => upd_status Failed s' end
       end.
(** 257, 258-260, 261: only after a request that was answered. [p_due]: the registration has to be recorded. *)
Definition st_ecustore (s : ist) : ist := if p_posted s then upd_ecus (new_serials (key_of s)) (s_ecu s) false true s else s.
Definition st_infostore (s : ist) : ist := if p_due s then upd_info (add_info s) s else s.
Definition st_regflag (s : ist) : ist := if p_due s then upd_regflag s else s.
(** 295-309 *)
Definition st_counter (s : ist) : ist :=
  if existsb (fun e => mem (fst e) (n_cnt s)) (n_ecus s) then s
  else match n_ecus s with [] => upd_status Failed s | e :: _ => upd_cnt (fst e :: n_cnt s) s end.
(** 312-347: three attempts to get credentials, then the rest. *)
Definition attempt (n : net) : list (ist -> ist) := [st_device; st_post n; st_store; st_reset].
Definition steps (n : nat -> net) : list (ist -> ist) :=
  map guard (attempt (n 0%nat) ++ attempt (n 1%nat) ++ attempt (n 2%nat) ++
    [st_check; st_key; st_serials; st_info; st_ecupost (n 3%nat); st_ecustore; st_infostore; st_regflag; st_counter; upd_status Done]).
(** A new process. *)
Definition boot (s : ist) : ist :=
  {| n_id := n_id s; n_reg := n_reg s; n_tls := n_tls s; n_key := n_key s; n_ecus := n_ecus s; n_info := n_info s; n_cnt := n_cnt s; s_dev := s_dev s; s_ecu := s_ecu s;
     n_seq := n_seq s; p_resp := None; p_occ := false; p_reg := false; p_posted := false; p_due := false; p_status := Running |}.
Definition exec (l : list (ist -> ist)) (s : ist) : ist := fold_left (fun x f => f x) l s.
(** Initialisation that crashes after [k] steps; [n]: the fate of the requests. *)
Record iop := { i_crash : nat; i_net : nat -> net }.
Definition initialise (s : ist) (o : iop) : ist := exec (firstn (i_crash o) (steps (i_net o))) (boot s).
Definition irun (s : ist) (ops : list iop) : ist := fold_left initialise ops s.
End Steps.
Definition blank (tls : option string) (dev ecu : list string) : ist :=
  {| n_id := None; n_reg := false; n_tls := tls; n_key := None; n_ecus := []; n_info := []; n_cnt := []; s_dev := dev; s_ecu := ecu; n_seq := 0;
     p_resp := None; p_occ := false; p_reg := false; p_posted := false; p_due := false; p_status := Running |}.
