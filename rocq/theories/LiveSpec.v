(** Specification of an installation in which all cooperate. *)
From Verif Require Import Base Json TufModel MetaStore RepoModel CodecModel DlModel DlSpec InstModel InstSpec DevModel DevSpec ClientModel UpdModel UpdSpec CycModel CycSpec.

(** The answer is kOk, with any description. *)
Definition says_ok (r : res ires) : Prop := exists text, r = Ok (mk_ires (num kOk) text).
(** Every Secondary answers a ping in one of the first rounds, and the deadline passes later. *)
Definition all_answer (P : primary) (rounds : list (string -> bool)) : Prop :=
  exists before after, rounds = before ++ after /\ after <> [] /\ forall ecu, secondary P ecu -> exists up, In up before /\ up ecu = true.
(** The Roots of a repository that a Secondary misses are stored by the Primary, or served. *)
Definition roots_available (E : Env) (P : primary) (W : UpdModel.world) (srv : server) (d : db) : Prop :=
  forall rp tr ecu, secondary P ecu -> exists sv, e_rootver W tr ecu rp = Ok sv /\
    (0 < sv -> forall last v, newest_root E d rp last -> sv < v <= last -> exists root, root_at d srv rp v root).
(** The ECUs do what they are asked to: the Secondaries are reachable and accept Roots, metadata and images; the package manager
    of the Primary and the Secondaries install. *)
Definition ecus_cooperate (E : Env) (P : primary) (W : UpdModel.world) (srv : server) (d : db) : Prop :=
  all_answer P (e_pings W) /\ roots_available E P W srv d /\
  (forall tr ecu rp root, secondary P ecu -> says_ok (e_putroot W tr ecu rp root)) /\
  (forall tr ecu t, secondary P ecu -> says_ok (e_putmeta W tr ecu t)) /\
  (forall t, says_ok (e_pm W t)) /\ (forall n, says_ok (e_send W n)) /\ (forall n, says_ok (e_install W n)).
(** All ECUs of the vehicle are in the table of ECUs; the hardware id of the Primary is known. *)
Definition registered (P : primary) (d : dev) : Prop :=
  pr_hw P <> "Unknown" /\ (forall ecu, ecu = pr_serial P \/ secondary P ecu -> In ecu (map fst (v_ecus d))).
(** The version of the ECU is [t], and nothing is pending for it. *)
Definition runs (loadc : string -> option json) (d : idb) (ecu : string) (t : target) : Prop :=
  exists x, load_installed loadc ecu d = Ok (Some x, None) /\ same_key x t.

(** ** Downloads *)
(** The [i]-th target can be downloaded: the server has its image and sends it, the disk works, and its hash tells its length; an
    OSTree commit for the Primary is pulled and found. *)
Definition downloadable (E : Env) (P : primary) (W : cworld) (i : nat) (t : target) : Prop :=
  x_keys W i = true /\
  (is_ostree t = true -> targets_ecu t (pr_serial P) -> pr_ostree P = true /\ pull_worked (x_pull W i) /\ x_commit W t = Ok true) /\
  (is_ostree t = false -> sound_target E t /\ snd (x_fetch W i 0) = true /\
     exists image, describes_image E t image /\ forall n, honest (fst (x_fetch W i n)) t image /\ healthy (fst (x_fetch W i n))).
Definition downloads_work (E : Env) (P : primary) (W : cworld) (d : dstate) (l : list target) : Prop :=
  (forall i t, nth_error l i = Some t -> downloadable E P W i t) /\ ForallOrdPairs (apart d) l /\ disks_good W /\ x_fuel W <> 0%nat /\ w_read (x_verify W) = true.
