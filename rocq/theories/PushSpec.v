(** Specification of uploading. *)
From Verif Require Import Base PushModel.
(** The server has reported the object as present: a HEAD request was answered 200, or an upload was answered 204 or 409, for the right URL. *)
Definition reported (tr : list tev) (o : obj) : Prop := In (THeadAns o 200 true) tr \/ In (TPostAns o 204 true) tr \/ In (TPostAns o 409 true) tr.
(** The server has reported the object as missing. *)
Definition reported_missing (tr : list tev) (o : obj) : Prop := In (THeadAns o 404 true) tr.
(** The objects that are needed: the commit, and what the missing ones refer to. *)
Inductive needed (R : repo) (tr : list tev) (root : obj) : obj -> Prop :=
| need_root : needed R tr root root
| need_kid : forall o c, needed R tr root o -> reported_missing tr o -> In c (kids R o) -> needed R tr root c.
Inductive reachable (R : repo) (root : obj) : obj -> Prop :=
| rch_root : reachable R root root
| rch_kid : forall o c, reachable R root o -> In c (kids R o) -> reachable R root c.
(** Every upload comes after the server reported all objects it refers to. *)
Definition ordered (R : repo) (tr : list tev) : Prop :=
  forall l1 o l2, tr = l1 ++ TPost o :: l2 -> forall c, In c (kids R o) -> reported l1 c.
(** No cycles. *)
Definition acyclic (R : repo) : Prop := exists rank : obj -> nat, forall o c, In c (kids R o) -> (rank c < rank o)%nat.
(** Every answer the server gives is one of the expected ones. *)
Definition well_behaved (tr : list tev) : Prop :=
  (forall o c u, In (THeadAns o c u) tr -> u = true /\ (c = 200 \/ c = 404)) /\
  (forall o c u, In (TPostAns o c u) tr -> u = true /\ (c = 204 \/ c = 409)).
(** The number of answers so far. *)
Definition is_answer (e : tev) : bool := match e with THeadAns _ _ _ | TPostAns _ _ _ => true | _ => false end.
Definition answers (tr : list tev) : nat := List.length (filter is_answer tr).
(** The commit and everything it refers to is in the source repository, and in [U]. *)
Definition complete (R : repo) (root : obj) (U : list obj) : Prop :=
  have R root = true /\ In root U /\ forall o c, In o U -> In c (kids R o) -> In c U /\ have R c = true.
(** The requests that were sent and not yet answered. *)
Definition is_open (tr : list tev) (o : obj) : Prop :=
  exists l1 e l2, tr = l1 ++ e :: l2 /\ (e = THead o \/ e = TPost o) /\ forall c u, ~ In (THeadAns o c u) l2 /\ ~ In (TPostAns o c u) l2.
