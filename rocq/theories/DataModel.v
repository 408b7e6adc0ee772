(** Reporting of device data: /repo/src/libaktualizr/primary/sotauptaneclient.cc:136-241 (reportHwInfo, reportInstalledPackages,
    reportNetworkInfo, reportAktualizrConfiguration), 808-819 (sendDeviceData, the start of fetchMeta) and the table device_data,
    storage/sqlstorage.cc:1635-1666.
    Simplifications: a JSON document is its canonical text, which is both what is hashed and what is sent (httpclient.cc:177-181);
    reading the table does not fail; a write of the table that fails throws, which is [f_dies] (the call ends there). *)
From Verif Require Import Base TufModel.

Inductive kind := KHardware | KPackages | KNetwork | KConfig.
(** the data_type column *)
Definition key (k : kind) : string :=
  match k with KHardware => "hardware_info" | KPackages => "installed_packages" | KNetwork => "network_info" | KConfig => "configuration" end.

(** What becomes of one upload: the server takes it over, the client gets an answer that isOk (httpinterface.h:29), the process dies
    after the answer and before the hash is stored. *)
Record fate := { f_taken : bool; f_ok : bool; f_dies : bool }.
(** An upload: sort of data, text, fate. *)
Definition upload := (kind * string * fate)%type.
(** The table device_data, and all uploads made so far, the newest first. *)
Record dst := { d_tab : list (string * string); d_sent : list upload }.
Definition dst0 : dst := {| d_tab := []; d_sent := [] |}.

(** What the device can tell at one moment: custom hardware info (None: Json::Value::empty), lshw's (None: empty), the package
    manager's list (None: getInstalledPackages throws), network info (None: getNetworkInfo throws), the configuration's text, and
    the two switches of config.telemetry. *)
Record facts := { fc_custom : option string; fc_lshw : option string; fc_packages : option string; fc_network : option string;
                  fc_config : string; fc_report_network : bool; fc_report_config : bool }.

(** How a call goes on: normally, or it ends (process dead or exception). *)
Inductive out := Go | Dead | Thrown.

Section Data.
Context (sha : string -> string).   (* boost::algorithm::hex(Crypto::sha256digest(data)) *)
Definition new_hash (body : string) : hash := mk_hash_t Sha256 (sha body).

(** The upload and what follows it. sotauptaneclient.cc:166-169, 182-185, 209-212, 233-236; INSERT OR REPLACE, sqlstorage.cc:1635-1644. *)
Definition put (k : kind) (body : string) (w : fate) (s : dst) : dst * out :=
  let sent := (k, body, w) :: d_sent s in
  if f_dies w then ({| d_tab := d_tab s; d_sent := sent |}, Dead)
  else ({| d_tab := if f_ok w then aset (key k) (h_val (new_hash body)) (d_tab s) else d_tab s; d_sent := sent |}, Go).

(** 175-189, 203-215, 226-240: the upload is made unless a hash is stored and equals the new one. *)
Definition report (k : kind) (body : string) (w : fate) (s : dst) : dst * out :=
  match aget (key k) (d_tab s) with
  | Some h => if hash_eqb (new_hash body) (mk_hash_t Sha256 h) then (s, Go) else put k body w s
  | None => put k body w s
  end.

(** 141-173 *)
Definition report_hw (f : facts) (w : fate) (s : dst) : dst * out :=
  let stored := match aget (key KHardware) (d_tab s) with Some h => h | None => "" end in
  let send body := if hash_eqb (new_hash body) (mk_hash_t Sha256 stored) then (s, Go) else put KHardware body w s in
  match fc_custom f with
  | Some c => send c
  | None => if negb (String.eqb stored "") then (s, Go)
            else match fc_lshw f with Some l => send l | None => (s, Go) end
  end.
(** 175-189; getInstalledPackages is called first. *)
Definition report_packages (f : facts) (w : fate) (s : dst) : dst * out :=
  match fc_packages f with Some p => report KPackages p w s | None => (s, Thrown) end.
(** 191-216 *)
Definition report_network (f : facts) (w : fate) (s : dst) : dst * out :=
  if negb (fc_report_network f) then (s, Go)
  else match fc_network f with Some n => report KNetwork n w s | None => (s, Go) end.
(** 218-241 *)
Definition report_config (f : facts) (w : fate) (s : dst) : dst * out :=
  if negb (fc_report_config f) then (s, Go) else report KConfig (fc_config f) w s.

Definition next (r : dst * out) (k : dst -> dst * out) : dst * out :=
  match r with (s, Go) => k s | (s, o) => (s, o) end.
(** 808-812 sendDeviceData; [w]: the fate of the upload of each sort (at most one is made per call). *)
Definition send_device_data (f : facts) (w : kind -> fate) (s : dst) : dst * out :=
  next (report_hw f (w KHardware) s) (fun s =>
  next (report_packages f (w KPackages) s) (fun s =>
  next (report_network f (w KNetwork) s) (fun s =>
  report_config f (w KConfig) s))).
(** 816-819: a check for updates reports the network. *)
Inductive op := OSend (f : facts) (w : kind -> fate) | OCheck (f : facts) (w : kind -> fate).
Definition step (o : op) (s : dst) : dst * out :=
  match o with OSend f w => send_device_data f w s | OCheck f w => report_network f (w KNetwork) s end.
(** A history; a process that died is started again, the table persists. *)
Definition run (h : list op) (s : dst) : dst := fold_left (fun s o => fst (step o s)) h s.
End Data.
