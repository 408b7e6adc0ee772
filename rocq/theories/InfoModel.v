(** aktualizr-info: /repo/src/aktualizr_info/main.cc:18-380. *)
From Verif Require Import Base.

(** The options that select an output; old and misspelt names (71-78) count as the name they stand for. *)
Inductive opt := ONameOnly | OTlsCreds | OTlsCa | OTlsCert | OTlsKey | OEcuKeys | OEcuPub | OEcuPriv | OImageRoot | OImageTargets | ODelegation
  | ODirectorRoot | ODirectorTargets | OImageSnapshot | OImageTimestamp.
(** One ECU of the database: serial, hardware id, installed and pending image (hash, file name). *)
Record ecu_info := { x_serial : string; x_hw : string; x_current : option (string * string); x_pending : option (string * string) }.
(** What the database and the package manager hold; a text that is not there reads as empty. [n_serials]: None if loading fails;
    [n_misconfigured]: serial, hardware id, is it an old one? *)
Record info := { n_device : option string; n_ca : string; n_cert : string; n_pkey : string; n_pub : string; n_priv : string;
  n_director_root : option string; n_image_root : string; n_image_targets : string; n_director_targets : string; n_snapshot : string; n_timestamp : string;
  n_delegations : option (list (string * string)); n_registered : bool; n_serials : option (list ecu_info); n_misconfigured : list (string * string * bool);
  n_running : option string; n_pending : option string }.

(** The options that need metadata, 236-322. *)
Definition metadata (n : info) (text : list string) : list string := match n_director_root n with None => ["Metadata is not available"] | Some _ => text end.
(** 18-35 *)
Definition delegation_lines (n : info) : list string :=
  match n_delegations n with
  | None => ["Failed to load delegations"]
  | Some [] => ["Delegations are not present"]
  | Some l => map (fun d => append (fst d) (append ": " (snd d))) l
  end.

(** 340-380: general information. *)
Definition image_lines (what : string) (v : option (string * string)) : list string :=
  match v with Some (h, f) => [append "   " (append what (append " image hash: " h)); append "   " (append what (append " image filename: " f))] | None => [] end.
Definition ecu_lines (k : nat) (e : ecu_info) : list string :=
  [append (to_dec (Z.of_nat k)) (append ") serial ID: " (x_serial e)); append "   hardware ID: " (x_hw e)] ++
  match x_current e, x_pending e with
  | None, None => ["   no details about installed nor pending images"]
  | c, p => image_lines "installed" c ++ image_lines "pending" p
  end.
Fixpoint secondary_lines (k : nat) (l : list ecu_info) : list string := match l with [] => [] | e :: l' => ecu_lines k e ++ secondary_lines (S k) l' end.
Definition yes_no (b : bool) : string := if b then "yes" else "no".
Definition general (n : info) : list string :=
  let device := match n_device n with Some _ => true | None => false end in
  let tls := (negb (String.eqb (n_ca n) "") || negb (String.eqb (n_cert n) "") || negb (String.eqb (n_pkey n) ""))%bool in
  let keys := (negb (String.eqb (n_pub n) "") && negb (String.eqb (n_priv n) ""))%bool in
  let secondary := (negb device && negb tls && keys)%bool in                                  (* 328-330 *)
  let name := if secondary then "Secondary" else "Primary" in
  (if secondary then [] else match n_device n with None => ["Couldn't load device ID"] | Some d => [append "Device ID: " d] end) ++
  match n_serials n with
  | None => ["Couldn't load ECU serials"]
  | Some [] => [append name " serial is not found"]
  | Some (e :: _) => [append name (append " ECU serial ID: " (x_serial e)); append name (append " ECU hardware ID: " (x_hw e))]
  end ++
  match n_serials n with Some (_ :: e :: l) => "Secondaries:" :: secondary_lines 1 (e :: l) | _ => [] end ++
  match n_misconfigured n with
  | [] => []
  | l => "Removed or unregistered ECUs (deprecated):" ::
      map (fun '(s, h, old) => append "   '" (append s (append "' with hardware_id '" (append h (append "' " (if (old : bool) then "has been removed from config" else "not registered yet")))))) l
  end ++
  (if secondary then [] else [append "Provisioned on server: " (yes_no (n_registered n))]) ++
  [append "Fetched metadata: " (yes_no (match n_director_root n with Some _ => true | None => false end))] ++
  [match n_running n with Some h => append "Current " (append name (append " ECU running version: " h)) | None => append "No currently running version on " (append name " ECU") end] ++
  match n_pending n with Some h => [append "Pending " (append name (append " ECU version: " h))] | None => [] end.

(** 148-326: the lines put out. *)
Definition put (given : opt -> bool) (o : opt) (lines : list string) : list string := if given o then lines else [].
Definition run_info (n : info) (given : opt -> bool) : list string :=
  match given ONameOnly, n_device n with
  | true, Some d => [d]                                                                       (* 152-155 *)
  | _, _ =>
      let before := put given OTlsCreds ["Root CA certificate:"; n_ca n; "Client certificate:"; n_cert n; "Client private key:"; n_pkey n] ++
                    put given OTlsCa [n_ca n] ++ put given OTlsCert [n_cert n] ++ put given OTlsKey [n_pkey n] ++
                    put given OEcuKeys ["Public key:"; n_pub n; "Private key:"; n_priv n] in
      if given OEcuPub then before ++ [n_pub n] else                                          (* 222-227: return *)
      let rest := put given OEcuPriv [n_priv n] ++
                  put given OImageRoot (metadata n [n_image_root n]) ++ put given OImageTargets (metadata n [n_image_targets n]) ++
                  put given ODelegation (metadata n (delegation_lines n)) ++
                  put given ODirectorRoot (metadata n [match n_director_root n with Some r => r | None => "" end]) ++
                  put given ODirectorTargets (metadata n [n_director_targets n]) ++
                  put given OImageSnapshot (metadata n [n_snapshot n]) ++ put given OImageTimestamp (metadata n [n_timestamp n]) in
      if existsb given [OTlsCreds; OTlsCa; OTlsCert; OTlsKey; OEcuKeys; OEcuPriv; OImageRoot; OImageTargets; ODelegation; ODirectorRoot; ODirectorTargets; OImageSnapshot; OImageTimestamp]
      then before ++ rest else general n                                                      (* 324-326: cmd_trigger *)
  end.

(** 127-145: waiting for the provisioning.  An attempt: does the database open, is the device registered, is there Director metadata; each reading may fail.
    The result: does the loop end within these attempts, with the last values? *)
Record attempt := { a_open : bool; a_registered : res bool; a_metadata : res bool }.
Fixpoint wait_loop (registered meta : bool) (l : list attempt) : option (list attempt) :=
  if (registered && meta)%bool then Some l else
  match l with
  | [] => None
  | a :: l' =>
      if negb (a_open a) then wait_loop registered meta l' else
      match a_registered a with
      | Throw _ => wait_loop registered meta l'
      | Ok r => match a_metadata a with Throw _ => wait_loop r meta l' | Ok m => wait_loop r m l' end
      end
  end.
