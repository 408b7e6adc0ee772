(** What a user expects of aktualizr-cert-provider. *)
From Verif Require Import Base CodecModel ArcModel ArcSpec TufModel RepoModel InstModel ConvModel CertModel.

Inductive kind := KKey | KCert | KCa | KUrl.
(** What is asked for. *)
Definition asked (o : opts) (k : kind) : Prop := match k with KKey | KCert => True | KCa => o_ca o = true | KUrl => o_url o = true end.
(** Where it belongs: the directory given, or that of the configuration, and the names of the configuration. *)
Definition directory (o : opts) : string :=
  match o_dir o, o_config o with
  | Some d, _ => d
  | None, Some k => if String.eqb (k_base k) "" then if String.eqb (k_path k) "" then "/var/sota/import" else k_path k else k_base k
  | None, None => "/var/sota/import"
  end.
Definition name (o : opts) (k : kind) : string :=
  let pick c f g := if String.eqb (f c) "" then g c else f c in
  match o_config o, k with
  | None, KKey => "pkey.pem" | None, KCert => "client.pem" | None, KCa => "root.crt" | None, KUrl => "gateway.url"
  | Some c, KKey => pick c k_ipkey k_spkey
  | Some c, KCert => pick c k_icert k_scert
  | Some c, KCa => pick c k_ica k_sca
  | Some c, KUrl => pick c k_url (fun _ => "gateway.url")
  end.
Definition place (o : opts) (k : kind) : string := based (directory o) (name o k).
(** No two of the files have the same place. *)
Definition apart (o : opts) (f : string -> string) : Prop :=
  forall k k', asked o k -> asked o k' -> f (place o k) = f (place o k') -> k = k'.

(** The credentials were issued by the server for the device, or generated and signed with the fleet CA. *)
Definition device_name (E : env) (o : opts) : string := match o_cn o with Some n => n | None => v_name E end.
Definition issued (E : env) (o : opts) (key cert : string) : Prop :=
  (o_fleet_ca o = "" /\ exists shared body t, v_post E (append (server_url E (o_creds o)) "/devices") (device_name E o) shared = Some body /\
     v_p12 E body = Some t /\ t_pkey t = key /\ t_cert t = cert) \/
  (o_fleet_ca o <> "" /\ o_fleet_key o <> "" /\ exists c st org, v_gen E c st org (device_name E o) (o_bits o) (o_days o) = Ok (key, cert)).

(** The words of a command as the shell sees them: only blanks are considered. *)
Definition words (s : string) : list string := filter (fun w => negb (String.eqb w "")) (split_all " " s).
