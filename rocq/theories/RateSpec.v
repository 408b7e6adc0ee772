(** Specification of upload rate control. *)
From Verif Require Import Base RateModel.
(** The completions that count: those of requests started after the last one that counted had ended. *)
Fixpoint counted (last : Z) (h : list event) : list bool :=
  match h with
  | [] => []
  | (s, f, ok) :: h' => if last <? s then ok :: counted f h' else counted last h'
  end.
(** One more after a success, half after a failure, within 1 and [cap]. *)
Definition next_limit (cap c : Z) (ok : bool) : Z := if ok then Z.min (c + 1) cap else Z.max 1 (c / 2).
Definition limit (cap : Z) (rs : list bool) : Z := fold_left (next_limit cap) rs 1.
(** [ends_with_failures cap n rs]: the last [n] results are failures, all of them at a limit of one. *)
Definition ends_with_failures (cap : Z) (n : nat) (rs : list bool) : Prop :=
  exists p, rs = p ++ repeat false n /\ limit cap p = 1.
