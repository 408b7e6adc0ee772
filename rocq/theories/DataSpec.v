(** Specification for the reporting of device data, in terms of the uploads only. *)
From Verif Require Import Base TufModel DataModel.

Definition kind_eqb (a b : kind) : bool := String.eqb (key a) (key b).
Definition u_kind (u : upload) : kind := fst (fst u).
Definition u_body (u : upload) : string := snd (fst u).
Definition u_fate (u : upload) : fate := snd u.

(** The newest upload of a sort with a property. *)
Fixpoint newest (p : fate -> bool) (k : kind) (l : list upload) : option string :=
  match l with
  | [] => None
  | u :: l' => if kind_eqb (u_kind u) k && p (u_fate u) then Some (u_body u) else newest p k l'
  end.
(** What the server holds. *)
Definition held (k : kind) (l : list upload) : option string := newest f_taken k l.
(** What the device knows the server to hold: the client saw a positive answer and lived on. *)
Definition acked (k : kind) (l : list upload) : option string := newest (fun w => f_ok w && negb (f_dies w)) k l.

(** The server takes over what it answers positively. *)
Definition honest (w : kind -> fate) : Prop := forall k, f_ok (w k) = true -> f_taken (w k) = true.
(** No positive answer is lost: what the server takes over is answered positively, and the client lives to note it. *)
Definition noted (w : kind -> fate) : Prop := forall k, f_taken (w k) = true -> f_ok (w k) = true /\ f_dies (w k) = false.
Definition fates (o : op) : kind -> fate := match o with OSend _ w | OCheck _ w => w end.

(** Same SHA-256, as far as the client compares. *)
Definition same (sha : string -> string) (a b : string) : Prop := to_upper (sha a) = to_upper (sha b).

(** What a call of SendDeviceData has to make known, given all earlier uploads [l]: the custom hardware info or, if none was given
    and none has ever been confirmed, lshw's; the packages; network and configuration if switched on. *)
Definition wanted (f : facts) (l : list upload) (k : kind) : option string :=
  match k with
  | KHardware => match fc_custom f with
                 | Some c => Some c
                 | None => match acked KHardware l with Some _ => None | None => fc_lshw f end
                 end
  | KPackages => fc_packages f
  | KNetwork => if fc_report_network f then fc_network f else None
  | KConfig => if fc_report_config f then Some (fc_config f) else None
  end.
(** A check for updates reports the network only. *)
Definition wanted_by (o : op) (l : list upload) (k : kind) : option string :=
  match o with
  | OSend f _ => wanted f l k
  | OCheck f _ => match k with KNetwork => wanted f l k | _ => None end
  end.
