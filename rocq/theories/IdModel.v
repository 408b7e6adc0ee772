(** The identity of an IP Secondary: /repo/src/aktualizr_secondary/aktualizr_secondary.cc:12-21 (constructor, publicKey), 127-158
    (uptaneInitialize), 211-223 (getInfoHdlr), with libaktualizr/crypto/keymanager.cc:298-344 (keys in the storage, not on a token),
    libaktualizr/storage/sqlstorage.cc:75-140 (storePrimaryKeys, loadPrimaryKeys), 874-949 (storeEcuSerials, loadEcuSerials).
    Simplifications: keys of the source "file" only; the table of ECUs of a Secondary has one row at most, because
    uptaneInitialize is its only writer; reading the storage works. *)
From Verif Require Import Base.

(** The tables primary_keys and ecus. *)
Record iddb := { k_keys : option (string * string); k_ecu : option (string * string) }.
Definition iddb_empty : iddb := {| k_keys := None; k_ecu := None |}.
(** What a start depends on: the configured serial number and hardware id (aktualizr_secondary_config.cc:18-19, 77-82), the host name
    (utils.cc:443-449; empty when unknown), the key pair that Crypto::generateKeyPair would make (None: it fails), whether storing
    the keys and the row works (both only log a failure: sqlstorage.cc:80-83, 889-910), and whether the process is killed after the
    keys were stored. *)
Record istart := { i_serial : string; i_hw : string; i_host : string; i_gen : option (string * string);
                   i_keys_stored : bool; i_ecu_stored : bool; i_killed : bool }.
(** What the Secondary presents: serial, hardware id, and the public key (None: every question for it throws). *)
Record ident := { p_serial : string; p_hw : string; p_key : option string }.
Inductive iout := IRun (p : ident) | IThrow | IKilled.

Section Id.
Context (keyid : string -> string).     (* PublicKey::KeyId: the SHA-256 of the key, 64 digits *)

(** keymanager.cc:298-312 generateUptaneKeyPair *)
Definition key_pair (e : istart) (d : iddb) : iddb * option string :=
  match k_keys d with
  | Some (pub, priv) => (d, if String.eqb pub "" && String.eqb priv "" then None else Some pub)
  | None => match i_gen e with
            | Some (pub, priv) => ((if i_keys_stored e then {| k_keys := Some (pub, priv); k_ecu := k_ecu d |} else d),
                                   if String.eqb pub "" && String.eqb priv "" then None else Some pub)
            | None => (d, None)
            end
  end.
(** keymanager.cc:328-344 UptanePublicKey *)
Definition stored_public (d : iddb) : option string := match k_keys d with Some (pub, _) => Some pub | None => None end.
(** types.h:346-360, 315-329: the lengths of serial numbers and hardware ids; otherwise an exception. *)
Definition serial_ok (s : string) : bool := Nat.leb 1 (String.length s) && Nat.leb (String.length s) 64.
Definition hw_ok (s : string) : bool := Nat.leb (String.length s) 200.

(** aktualizr_secondary.cc:12-19, 127-158 *)
Definition start (e : istart) (d : iddb) : iddb * iout :=
  let '(d1, pub) := key_pair e d in
  match pub with
  | None => (d1, IThrow)
  | Some "" => (d1, IThrow)
  | Some _ =>
      if i_killed e then (d1, IKilled) else
      match k_ecu d1 with
      | Some (serial, hw) => (d1, IRun {| p_serial := serial; p_hw := hw; p_key := stored_public d1 |})
      | None =>
          let serial := match i_serial e with
                        | EmptyString => match stored_public d1 with Some k => Some (keyid k) | None => None end
                        | s => Some s
                        end in
          match serial with
          | None => (d1, IThrow)
          | Some serial =>
              let hw := match i_hw e with EmptyString => i_host e | h => h end in
              match hw with
              | EmptyString => (d1, IThrow)
              | _ => if serial_ok serial && hw_ok hw
                     then let d2 := if i_ecu_stored e then {| k_keys := k_keys d1; k_ecu := Some (serial, hw) |} else d1 in
                          (d2, IRun {| p_serial := serial; p_hw := hw; p_key := stored_public d2 |})
                     else (d1, IThrow)
              end
          end
      end
  end.
Fixpoint starts (l : list istart) (d : iddb) : iddb * list iout :=
  match l with [] => (d, []) | e :: l' => let '(d1, o) := start e d in let '(d2, os) := starts l' d1 in (d2, o :: os) end.
End Id.
