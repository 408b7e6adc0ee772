(** Running a command and taking its output.
    /repo/src/libaktualizr/utilities/utils.cc:725-743 (shell).
    Simplifications: reading from the pipe does not fail; the command's whole output is a text and its end a wait status. *)
From Verif Require Import Base.

(** How the process that popen started ended. *)
Inductive ended := Exited (code : Z) | Killed (signal : Z) (core : bool).
(** The wait status (Linux): code * 256, or the signal's number, plus 128 with a core dump. *)
Definition wait_status (e : ended) : Z := match e with Exited c => c * 256 | Killed s core => s + (if core then 128 else 0) end.
(** WEXITSTATUS (742) *)
Definition wexitstatus (w : Z) : Z := (w / 256) mod 256.

Definition newline : ascii := ascii_of_nat 10.
(** fgets (737) with room for [n] characters: up to and with a line feed.  What was read, and what is left. *)
Fixpoint fgets (n : nat) (s : string) : string * string :=
  match n, s with
  | O, _ => (EmptyString, s)
  | _, EmptyString => (EmptyString, EmptyString)
  | S n', String c s' => if Ascii.eqb c newline then (String c EmptyString, s') else let (a, b) := fgets n' s' in (String c a, b)
  end.
(** [*output += buffer.data()]: up to the first NUL. *)
Fixpoint c_text (s : string) : string :=
  match s with EmptyString => EmptyString | String c s' => if Ascii.eqb c (ascii_of_nat 0) then EmptyString else String c (c_text s') end.
(** 736-740, the loop; the buffer has 128 bytes. *)
Fixpoint read_loop (fuel : nat) (out s : string) : string :=
  match fuel with
  | O => out
  | S fuel' => match s with
               | EmptyString => out
               | _ => let (a, b) := fgets 127 s in read_loop fuel' (append out (c_text a)) b
               end
  end.
(** 725-743 shell: the exit code and the output; [None]: popen failed.  The output is appended to what is there. *)
Definition shell (out : string) (run : option (string * ended)) : Z * string :=
  match run with
  | None => (-1, "popen() failed!")
  | Some (s, e) => (wexitstatus (wait_status e), read_loop (S (String.length s)) out s)
  end.
