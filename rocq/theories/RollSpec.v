(** Specification of the rollback. *)
From Verif Require Import Base RollModel.

(** A device as it leaves the factory: one image, no update under way. *)
Definition factory (c : string) : rdev :=
  {| r_env := {| u_count := 0; u_upgrade := false; u_rollback := false |}; r_deps := [c]; r_booted := 0%nat; r_running := false |}.
(** All the commands that set variables of U-Boot succeed. *)
Definition no_failure (o : rop) : Prop :=
  match o with RStart _ f | RInstall _ _ f _ => forall b, In b f -> b = false | _ => True end.
(** No update is attempted. *)
Definition no_update (o : rop) : Prop := match o with RInstall _ _ _ _ => False | _ => True end.
(** No update is attempted, or the attempt fails. *)
Definition no_new_image (o : rop) : Prop := match o with RInstall _ _ _ ok => ok = false | _ => True end.
(** The number of boots in a history. *)
Fixpoint boots_in (ops : list rop) : Z := match ops with [] => 0 | RBoot :: l => 1 + boots_in l | _ :: l => boots_in l end.
(** The machine is booted [n] times. *)
Definition after_boots (m : rmode) (limit : Z) (n : nat) (d : rdev) : rdev := Nat.iter n (uboot m limit) d.
(** Every boot is followed by a start of the client that is not interrupted. *)
Inductive attended : list rop -> Prop :=
| att_nil : attended []
| att_boot k f ops : (1 <= k)%nat -> attended ops -> attended (RBoot :: RStart k f :: ops)
| att_start k f ops : attended ops -> attended (RStart k f :: ops)
| att_kill ops : attended ops -> attended (RKill :: ops).
(** The words joined by spaces. *)
Fixpoint spaced (l : list string) : string :=
  match l with [] => "" | [x] => x | x :: l' => append x (String " " (spaced l')) end.
