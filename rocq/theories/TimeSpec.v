(** Calendar time (proleptic Gregorian, UTC), independent of the code. *)
From Verif Require Import Base.

Record civil := { cy : Z; cmo : Z; cd : Z; ch : Z; cmi : Z; cs : Z }.

Definition leap (y : Z) : bool := (y mod 4 =? 0) && (negb (y mod 100 =? 0) || (y mod 400 =? 0)).
Definition month_len (y m : Z) : Z :=
  match m with
  | 2 => if leap y then 29 else 28
  | 4 | 6 | 9 | 11 => 30
  | _ => 31
  end.
Definition civil_valid (c : civil) : Prop :=
  0 <= cy c <= 9999 /\ 1 <= cmo c <= 12 /\ 1 <= cd c <= month_len (cy c) (cmo c) /\
  0 <= ch c <= 23 /\ 0 <= cmi c <= 59 /\ 0 <= cs c <= 59.

(** Number of days before year [y], and before month [m] in year [y]. *)
Fixpoint days_before_year (n : nat) : Z :=
  match n with O => 0 | S k => days_before_year k + (if leap (Z.of_nat k) then 366 else 365) end.
Fixpoint days_before_month (y : Z) (n : nat) : Z :=
  match n with O => 0 | S k => days_before_month y k + month_len y (Z.of_nat k + 1) end.
(** Seconds since 0000-01-01T00:00:00Z. *)
Definition seconds (c : civil) : Z :=
  (((days_before_year (Z.to_nat (cy c)) + days_before_month (cy c) (Z.to_nat (cmo c - 1)) + (cd c - 1)) * 24
    + ch c) * 60 + cmi c) * 60 + cs c.

(** YYYY-MM-DDThh:mm:ssZ *)
Fixpoint pad (width : nat) (n : Z) : string :=
  match width with O => "" | S w => append (pad w (n / 10)) (String (digit_ascii (n mod 10)) "") end.
Definition rfc3339 (c : civil) : string :=
  append (pad 4 (cy c)) (String "-" (append (pad 2 (cmo c)) (String "-" (append (pad 2 (cd c)) (String "T"
  (append (pad 2 (ch c)) (String ":" (append (pad 2 (cmi c)) (String ":" (append (pad 2 (cs c)) "Z")))))))))).
