(** Specification of uploads to and installs on a Secondary with a file update agent. *)
From Verif Require Import Base Json TufModel CodecModel DlModel DlSpec SecFileModel.

(** The hashes of the target are those of data of its length. *)
Definition consistent (E : Env) (t : target) : Prop := forall c, matches_target E t c -> size c = t_length t.
(** The target does not list what a wiped hash state happens to produce. *)
Definition no_stale_match (stale : htype -> string -> hash) (t : target) : Prop := forall ty d, ~ In (stale ty d) (t_hashes t).
(** No write error goes unnoticed. *)
Definition no_silent_loss (ops : list aop) : Prop := forall t d op k, ~ In (ARecv t d op (WLost k)) ops.
(** All requests of an upload succeed locally. *)
Definition uploads (t : target) (chunks : list string) : list aop := map (fun c => ARecv t c true WAll) chunks.
Fixpoint results (E : Env) stale (a : agent) (ops : list aop) : list aresult :=
  match ops with [] => [] | o :: ops' => snd (astep E stale a o) :: results E stale (fst (astep E stale a o)) ops' end.
