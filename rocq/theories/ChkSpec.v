(** What the update check should find: the targets that are news for one of the ECUs they are assigned to. *)
From Verif Require Import Base Json TufModel TufSpec MetaStore RepoModel RepoSpec ClientModel ClientSpec.

(** [selected P l l0]: [l0] consists of the members of [l] that satisfy [P], in the order of [l], each as often as in [l]. *)
Inductive selected {A} (P : A -> Prop) : list A -> list A -> Prop :=
| sel_nil : selected P [] []
| sel_keep x l l0 : P x -> selected P l l0 -> selected P (x :: l) (x :: l0)
| sel_drop x l l0 : ~ P x -> selected P l l0 -> selected P (x :: l) l0.

(** Some ECU the target is assigned to is not known to run it. *)
Definition wanted (v : vehicle) (t : target) : Prop := exists serial hw, In (serial, hw) (t_ecus t) /\ news_for v t serial.
(** An assignment of an image to an ECU, written once for each target listing it. *)
Definition assignments (ts : list target) : list (target * string) := flat_map (fun t => map (fun e => (t, fst e)) (t_ecus t)) ts.
(** Nothing known to be installed has the name of [t] but another content or hardware id. *)
Definition no_clash (v : vehicle) (t : target) : Prop :=
  forall serial hw c, In (serial, hw) (t_ecus t) -> v_installed v serial = Ok (Some (Some c)) ->
    t_filename c = t_filename t -> same_target c t.
(** The tables of installed versions answer (no exception, rows readable). *)
Definition installed_answers (v : vehicle) : Prop := forall serial, exists c, v_installed v serial = Ok (Some c).
(** The Image repository's top-level Targets list the target. *)
Definition listed (top : targets) (t : target) : Prop := exists i, In i (tg_targets top) /\ same_target i t.
