(** Specification of provisioning. *)
From Verif Require Import Base InitModel.

Definition complete (net_ : nat -> net) : iop := {| i_crash := 22; i_net := net_ |}.
Definition online : nat -> net := fun _ => NOk.
(** What a user sees of the stored state. *)
Record stored := { d_id : option string; d_reg : bool; d_tls : option string; d_key : option string; d_ecus : list (string * string); d_info : list string; d_cnt : list string }.
Definition store_of (s : ist) : stored := {| d_id := n_id s; d_reg := n_reg s; d_tls := n_tls s; d_key := n_key s; d_ecus := n_ecus s; d_info := n_info s; d_cnt := n_cnt s |}.
Definition server_of (s : ist) : list string * list string := (s_dev s, s_ecu s).
(** Everything provisioning has to leave behind. *)
Definition provisioned (c : pconf) (s : ist) : Prop :=
  exists id cn key, n_id s = Some id /\ n_tls s = Some cn /\ n_key s = Some key /\ n_ecus s <> [] /\ same_ecus (new_serials c key) (n_ecus s) = true /\
    (forall x, In x (g_secs c) -> In (fst x) (n_info s)) /\ exists e, In e (n_ecus s) /\ In (fst e) (n_cnt s).
(** No crash between a request carried out by the server and storing its outcome, or before the registration is recorded. *)
Definition harmless (o : iop) : Prop := ~ In (i_crash o) [2; 6; 10; 17; 18; 19]%nat /\ forall i, i_net o i <> NLost.
