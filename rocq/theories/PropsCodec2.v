(** The names of result codes (C33). *)
From Verif Require Import Base CodecModel.

(** The numbers and names of types.h:217-243 as a user of the server sees them. *)
Inductive code_name : Z -> string -> Prop :=
| n_ok : code_name 0 "OK"
| n_already : code_name 1 "ALREADY_PROCESSED"
| n_verification : code_name 3 "VERIFICATION_FAILED"
| n_install : code_name 4 "INSTALL_FAILED"
| n_download : code_name 5 "DOWNLOAD_FAILED"
| n_internal : code_name 18 "INTERNAL_ERROR"
| n_general : code_name 19 "GENERAL_ERROR"
| n_completion : code_name 21 "NEED_COMPLETION"
| n_custom : code_name 22 "CUSTOM_ERROR"
| n_unknown : code_name (-1) "UNKNOWN".

(** A code is shown under its own text if it has one, otherwise under the name of its number; numbers without a name are an error. *)
Theorem C33_names_partial :
  forall r s, rc_string r = Ok s <-> (rc_text r <> "" /\ s = rc_text r) \/ (rc_text r = "" /\ code_name (rc_num r) s).
Proof.
  intros [n t] s. unfold rc_string. cbn [rc_text rc_num]. destruct (String.eqb_spec t "") as [-> | N]; cbn [negb].
  - split.
    + match goal with |- context [find ?f rc_strings] => destruct (find f rc_strings) as [p|] eqn:F; [|discriminate] end.
      intros H. injection H as <-. right. split; [reflexivity|]. apply find_some in F. destruct F as (I1 & E). apply Z.eqb_eq in E. subst n.
      cbn in I1. repeat (destruct I1 as [<- | I1]; [constructor|]). destruct I1.
    + intros [[X _] | [_ C]]; [congruence|]. inversion C; subst; reflexivity.
  - split; [intros H; injection H as <-; left; auto|]. intros [[_ ->] | [X _]]; [reflexivity|congruence].
Qed.
(** Different numbers have different names. *)
Theorem C33_names_differ_partial : forall n m s, code_name n s -> code_name m s -> n = m.
Proof. intros n m s A B. inversion A; subst; inversion B; reflexivity. Qed.
Example C33_names_case : rc_string {| rc_num := kInstallFailed; rc_text := "" |} = Ok "INSTALL_FAILED" /\ rc_string {| rc_num := 7; rc_text := "" |} = Throw EStd.
Proof. split; [apply C33_names_partial; right; split; [reflexivity|constructor]|reflexivity]. Qed.
Print Assumptions C33_names_partial.
Print Assumptions C33_names_differ_partial.
