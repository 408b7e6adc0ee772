(** Specification of schema migration. *)
From Verif Require Import Base MigModel.
Section S.
Context {B : Type}.
(** Every script leads to the version it is for: forward script [k] to [k], rollback script [k] to [k - 1], the schema to the current one. *)
Definition well_numbered (S : soft B) : Prop :=
  0 < cur S /\ sc_to (schema S) = cur S /\
  (forall k s, nth_error (migs S) k = Some s -> sc_to s = Z.of_nat k) /\
  (forall k s, nth_error (rolls S) k = Some (Some s) -> sc_to s = Z.of_nat k - 1).
Definition stored_numbered (d : db B) : Prop := forall t k s, v_back d = Some t -> zget k t = Some s -> sc_to s = k - 1.
(** [upgrade S v d d']: the scripts for [v + 1], ..., the current version all work, one after the other. *)
Inductive upgrade (S : soft B) : Z -> db B -> db B -> Prop :=
| up_done : forall d, upgrade S (cur S) d d
| up_step : forall k s d d1 d2, 0 <= k + 1 -> k < cur S -> nth_error (migs S) (Z.to_nat (k + 1)) = Some s -> exec s d = Some d1 ->
    upgrade S (k + 1) d1 d2 -> upgrade S k d d2.
(** [downgrade v d w d']: the rollback scripts stored in the database for [v], ..., [w + 1] work; each is forgotten after its use, if there still is a place where it could be stored. *)
Definition forget (k : Z) (d : db B) : db B :=
  {| v_tables := v_tables d; v_ver := v_ver d; v_back := match v_back d with Some t => Some (zdel k t) | None => None end; v_rest := v_rest d |}.
Inductive downgrade : Z -> db B -> Z -> db B -> Prop :=
| dn_done : forall v d, downgrade v d v d
| dn_step : forall v s t d d1 w d2, v_back d = Some t -> zget v t = Some s -> exec s d = Some d1 -> w < v ->
    downgrade (v - 1) (forget v d1) w d2 -> downgrade v d w d2.
(** The database is at version [v]. *)
Definition at_version (d : db B) (v : Z) : Prop := v_tables d = true /\ v_ver d = Some v.
(** Two databases with the same content, up to rollback scripts. *)
Definition same_content (d e : db B) : Prop := v_tables d = v_tables e /\ v_ver d = v_ver e /\ v_rest d = v_rest e.
(** The rollback scripts of the new version can be stored. *)
Definition can_store (S : soft B) (d : db B) : Prop :=
  rolls S = [] \/ (cur S + 1 <= Z.of_nat (List.length (rolls S)) /\ v_back d <> None).
End S.
