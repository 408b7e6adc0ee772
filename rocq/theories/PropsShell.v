(** Property C194: the exit code and the output of a command. *)
From Verif Require Import Base ShellModel.

Fixpoint has_no_nul (s : string) : Prop := match s with EmptyString => True | String c s' => c <> ascii_of_nat 0 /\ has_no_nul s' end.
Definition real_end (e : ended) : Prop := match e with Exited c => 0 <= c < 256 | Killed s _ => 1 <= s <= 64 end.
Definition succeeded (run : option (string * ended)) : Prop := match run with Some (_, Exited 0) => True | _ => False end.
(** Zero exactly on success, and then exactly the output. *)
Definition C194_statement (okr : option (string * ended) -> Prop) : Prop := forall run, okr run -> match run with Some (_, e) => real_end e | None => True end ->
  (fst (shell "" run) = 0 <-> succeeded run) /\
  (forall s e, run = Some (s, e) -> snd (shell "" run) = s) /\
  (forall s c, run = Some (s, Exited c) -> fst (shell "" run) = c).

Lemma fgets_app : forall n s, append (fst (fgets n s)) (snd (fgets n s)) = s.
Proof.
  induction n as [|n IH]; intros s; [reflexivity|]. destruct s as [|c s]; [reflexivity|]. cbn [fgets]. destruct (Ascii.eqb c newline); [reflexivity|].
  specialize (IH s). destruct (fgets n s) as (a, b). cbn [fst snd append] in *. rewrite IH. reflexivity.
Qed.
Lemma fgets_shrinks n c s : (String.length (snd (fgets (S n) (String c s))) <= String.length s)%nat.
Proof.
  cbn [fgets]. destruct (Ascii.eqb c newline); [reflexivity|]. pose proof (fgets_app n s) as A. destruct (fgets n s) as (a, b). cbn [fst snd] in *. rewrite <- A.
  clear. induction a as [|x a IH]; [reflexivity|]. cbn [append String.length]. lia.
Qed.
Lemma no_nul_app : forall a b, has_no_nul (append a b) -> has_no_nul a /\ has_no_nul b.
Proof. induction a as [|c a IH]; intros b H; [split; [exact I|exact H]|]. destruct H as (N & H). destruct (IH b H) as (A & B). split; [split; assumption|exact B]. Qed.
Lemma c_text_plain : forall s, has_no_nul s -> c_text s = s.
Proof. induction s as [|c s IH]; [reflexivity|]. intros (N & H). cbn [c_text]. destruct (Ascii.eqb_spec c (ascii_of_nat 0)); [contradiction|]. rewrite (IH H). reflexivity. Qed.
Lemma append_assoc' : forall a b c, append (append a b) c = append a (append b c).
Proof. induction a as [|x a IH]; intros b c; [reflexivity|]. cbn [append]. rewrite IH. reflexivity. Qed.
Lemma append_nil' : forall a, append a "" = a.
Proof. induction a as [|x a IH]; [reflexivity|]. cbn [append]. rewrite IH. reflexivity. Qed.
Lemma read_all : forall fuel s out, (String.length s < fuel)%nat -> has_no_nul s -> read_loop fuel out s = append out s.
Proof.
  induction fuel as [|fuel IH]; intros s out L H; [lia|]. destruct s as [|c s]; [symmetry; apply append_nil'|].
  cbn [read_loop]. pose proof (fgets_app 127 (String c s)) as A. pose proof (fgets_shrinks 126 c s) as Sh. change (S 126) with 127%nat in Sh. destruct (fgets 127 (String c s)) as (a, b). cbn [fst snd] in *.
  rewrite <- A in H. destruct (no_nul_app a b H) as (Ha & Hb). rewrite IH; [|cbn [String.length] in L; lia|exact Hb]. rewrite (c_text_plain a Ha), append_assoc', A. reflexivity.
Qed.
(** For commands that exit and whose output has no NUL, whatever its length and lines. *)
Theorem C194_partial : C194_statement (fun run => match run with Some (s, Exited _) => has_no_nul s | Some (_, Killed _ _) => False | None => True end).
Proof.
  intros run H R. destruct run as [(s, [c|g core])|]; [|destruct H|].
  - cbn [real_end] in R. assert (W : wexitstatus (wait_status (Exited c)) = c) by (unfold wexitstatus, wait_status; rewrite Z.div_mul by lia; apply Z.mod_small; lia).
    cbn [shell fst snd]. rewrite W. split; [|split].
    + split; [intros ->; exact I|]. intros Q. destruct c; [reflexivity|destruct Q..].
    + intros s' e E. injection E as <- <-. apply (read_all (S (String.length s)) s ""); [lia|exact H].
    + intros s' c' E. injection E as <- <-. reflexivity.
  - cbn [shell fst snd]. split; [split; [discriminate|intros []]|split; discriminate].
Qed.
Print Assumptions C194_partial.
(** What is there already is kept in front. *)
Theorem C194_appends out s e : has_no_nul s -> snd (shell out (Some (s, e))) = append out s.
Proof. intros H. cbn [shell snd]. apply read_all; [lia|exact H]. Qed.
Print Assumptions C194_appends.
(** False of processes that a signal ended: the code is always 0, "success". *)
Theorem C194_killed : forall s g core, 1 <= g <= 64 -> fst (shell "" (Some (s, Killed g core))) = 0.
Proof. intros s g core H. cbn [shell fst]. unfold wexitstatus, wait_status. rewrite Z.div_small; [reflexivity|destruct core; lia]. Qed.
Print Assumptions C194_killed.
Theorem C194_refuted : ~ C194_statement (fun run => match run with Some (s, _) => has_no_nul s | None => True end).
Proof.
  intros H. assert (R : real_end (Killed 9 false)) by (cbn [real_end]; lia). destruct (H (Some ("", Killed 9 false)) I R) as (A & _).
  pose proof (C194_killed "" 9 false R) as K. exact (proj1 A K).
Qed.
Print Assumptions C194_refuted.
(** And of output with NUL bytes: the rest of the line is lost. *)
Theorem C194_nul_refuted : ~ C194_statement (fun run => match run with Some (_, Exited _) => True | Some (_, Killed _ _) => False | None => True end).
Proof.
  intros H. assert (R : real_end (Exited 0)) by (cbn [real_end]; lia). destruct (H (Some (String "a" (String (ascii_of_nat 0) "b"), Exited 0)) I R) as (_ & A & _).
  specialize (A _ _ eq_refl). vm_compute in A. discriminate A.
Qed.
Print Assumptions C194_nul_refuted.
Example C194_example : let s := append "line one" (String newline (append "line two" (String newline ""))) in
  has_no_nul s /\ shell "" (Some (s, Exited 3)) = (3, s).
Proof. cbv zeta. split; [repeat split; discriminate|reflexivity]. Qed.
