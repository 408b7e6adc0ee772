(** C132, C133: update campaigns. *)
From Verif Require Import Base Json CampModel CampSpec CampProofs.

(** C132: the list of campaigns written by the API is read back unchanged. *)
Definition C132_statement : Prop :=
  forall cs, Forall holdable cs -> campaigns_from_json (json_from_campaigns cs) = cs.

(** Sizes are written as 32 bit numbers: a campaign of 4 GiB is read back with the size 0. *)
Definition big : campaign :=
  {| ca_id := "a"; ca_name := "Release"; ca_size := 4294967296; ca_auto := false; ca_desc := ""; ca_inst := 10; ca_prep := 0 |}.
Theorem C132_refuted : ~ C132_statement.
Proof.
  intros H. assert (K : Forall holdable [big]).
  { constructor; [|constructor]. unfold holdable, min_int64, max_int64, min_int, max_int. cbn [big ca_id ca_name ca_size ca_inst ca_prep].
    repeat split; try lia; discriminate. }
  apply H in K. vm_compute in K. discriminate.
Qed.

(** Holds for sizes below 4 GiB. *)
Theorem C132_partial : forall cs, Forall (fun c => holdable c /\ 0 <= ca_size c < 2 ^ 32) cs ->
  campaigns_from_json (json_from_campaigns cs) = cs.
Proof.
  intros cs H. rewrite round_trip.
  - induction H as [|c cs [_ Hc] _ IH]; [reflexivity|]. cbn [map]. rewrite IH, Z.mod_small by lia. now destruct c.
  - eapply Forall_impl; [|exact H]. intros c [K _]. exact K.
Qed.

(** And nothing but the size changes, and it only by multiples of 2^32. *)
Theorem C132_size_only : forall cs, Forall holdable cs -> forall n c, nth_error cs n = Some c ->
  exists c', nth_error (campaigns_from_json (json_from_campaigns cs)) n = Some c' /\
    ca_id c' = ca_id c /\ ca_name c' = ca_name c /\ ca_auto c' = ca_auto c /\ ca_desc c' = ca_desc c /\
    ca_inst c' = ca_inst c /\ ca_prep c' = ca_prep c /\ exists k, ca_size c' = ca_size c + k * 2 ^ 32.
Proof.
  intros cs H n c Hn. rewrite round_trip by exact H. exists (with_size (ca_size c mod 2 ^ 32) c).
  split; [now rewrite nth_error_map, Hn|]. cbn [with_size ca_id ca_name ca_size ca_auto ca_desc ca_inst ca_prep].
  repeat (split; [reflexivity|]). exists (- (ca_size c / 2 ^ 32)). rewrite Z.mod_eq by lia. lia.
Qed.

(** C133: from a server's answer the device shows exactly the well-formed campaigns, in order and with their values;
    a malformed one affects no other. *)
Definition C133_statement : Prop :=
  forall l js ps, aget "campaigns" l = Some (JArr js) -> server_list malformed js ps ->
    campaigns_from_json (JObj l) = map shown ps.

Definition ten_minutes : list (string * json) :=
  [("id", JStr "a"); ("name", JStr "Release");
   ("metadata", JArr [JObj [("type", JStr "ESTIMATED_INSTALLATION_DURATION"); ("value", JStr "10 minutes")]])].
Lemma ten_minutes_malformed : malformed (JObj ten_minutes).
Proof.
  eapply (mal_number _ _ "ESTIMATED_INSTALLATION_DURATION" (JStr "10 minutes")); [reflexivity|left; reflexivity|left; reflexivity|].
  intros (n & [E|E] & H); [|discriminate]. injection E as E.
  assert (K : CodecModel.stoi (to_dec n) = Ok n) by (apply CodecProofs.stoi_dec; exact H).
  rewrite <- E in K. vm_compute in K. injection K as <-. vm_compute in E. discriminate.
Qed.
(** A duration that is no number is taken for the number it begins with. *)
Theorem C133_refuted : ~ C133_statement.
Proof.
  intros H. specialize (H [("campaigns", JArr [JObj ten_minutes])] [JObj ten_minutes] [] eq_refl).
  assert (K : server_list malformed [JObj ten_minutes] []) by (apply sl_bad; [exact ten_minutes_malformed|constructor]).
  apply H in K. vm_compute in K. discriminate.
Qed.

(** So is a campaign that describes itself twice, when the first description is empty. *)
Definition described_twice : list (string * json) :=
  [("id", JStr "a"); ("name", JStr "Release");
   ("metadata", JArr [JObj [("type", JStr "DESCRIPTION"); ("value", JStr "")];
                      JObj [("type", JStr "DESCRIPTION"); ("value", JStr "Again")]])].
Theorem C133_twice_refuted : malformed (JObj described_twice) /\
  exists c, campaigns_from_json (JObj [("campaigns", JArr [JObj described_twice])]) = [c] /\ ca_desc c = "Again".
Proof.
  split.
  - eapply (mal_twice _ _ "DESCRIPTION"); [reflexivity|left; reflexivity|reflexivity].
  - eexists. split; [vm_compute; reflexivity|reflexivity].
Qed.

(** Holds for every other kind of malformed entry. *)
Theorem C133_partial : forall l js ps, aget "campaigns" l = Some (JArr js) -> server_list malformed_plainly js ps ->
  campaigns_from_json (JObj l) = map shown ps.
Proof.
  intros l js ps Hl H. unfold campaigns_from_json. cbn [jis_object negb jget]. rewrite Hl.
  exact (server_list_parsed js ps H).
Qed.

(** Whatever the answer, what is shown has an identifier and a name and stands in the answer's list. *)
Theorem C133_sound : forall j c, In c (campaigns_from_json j) ->
  ca_id c <> "" /\ ca_name c <> "" /\
  exists l js m, j = JObj l /\ aget "campaigns" l = Some (JArr js) /\ In (JObj m) js /\
    (forall s, aget "id" m = Some (JStr s) -> s = ca_id c) /\ (forall s, aget "name" m = Some (JStr s) -> s = ca_name c).
Proof.
  intros j c. unfold campaigns_from_json. destruct j as [| | | | | |l]; cbn [jis_object negb jget]; try contradiction.
  destruct (aget "campaigns" l) as [v|] eqn:E; [|contradiction]. destruct v as [| | | | |js|]; try contradiction.
  intros Hin. assert (K : exists j, In j js /\ parse j = Some c).
  { clear E. induction js as [|j js IH]; [destruct Hin|]. cbn [parse_all] in Hin.
    destruct (parse j) as [c'|] eqn:P.
    - destruct Hin as [->|Hin]; [exists j; split; [now left|exact P]|].
      destruct (IH Hin) as (x & Hx & Px). exists x. split; [now right|exact Px].
    - destruct (IH Hin) as (x & Hx & Px). exists x. split; [now right|exact Px]. }
  destruct K as (x & Hx & Px). destruct (parse_sound x c Px) as (H1 & H2 & m & -> & H3 & H4).
  split; [exact H1|]. split; [exact H2|]. exists l, js, m. auto.
Qed.

(** A list with an entry of each kind. *)
Definition sample : list json :=
  [JStr "junk"; JObj [("id", JStr "a")];
   JObj [("autoAccept", JBool true); ("id", JStr "b"); ("name", JStr "Second"); ("size", JInt 5000000000);
         ("metadata", JArr [JInt 3; JObj [("type", JStr "COLOUR"); ("value", JStr "red")];
                            JObj [("type", JStr "DESCRIPTION"); ("value", JStr "text")];
                            JObj [("type", JStr "ESTIMATED_PREPARATION_DURATION"); ("value", JStr "-7")]])];
   JObj [("id", JStr "c"); ("name", JStr "Third");
         ("metadata", JArr [JObj [("type", JStr "ESTIMATED_INSTALLATION_DURATION"); ("value", JStr "soon")]])]].
Definition sample_p : published :=
  {| p_id := "b"; p_name := "Second"; p_size := Some 5000000000; p_auto := Some true;
     p_desc := Some "text"; p_inst := None; p_prep := Some (-7) |}.
Example C133_case : server_list malformed_plainly sample [sample_p].
Proof.
  apply sl_bad; [apply plain_object; discriminate|].
  apply sl_bad; [apply plain_name; left; reflexivity|].
  apply sl_good.
  - do 2 eexists. split; [reflexivity|]. cbn [sample_p p_id p_name p_size p_auto p_desc p_inst p_prep opt as_list map option_map].
    split; [reflexivity|]. split; [discriminate|]. split; [reflexivity|]. split; [discriminate|].
    split; [reflexivity|]. split; [unfold min_int64, max_int64; lia|]. split; [reflexivity|].
    split; [left; reflexivity|]. repeat (split; [reflexivity|]). unfold min_int, max_int. lia.
  - apply sl_bad; [|constructor].
    eapply (plain_number _ _ "ESTIMATED_INSTALLATION_DURATION" "soon"); [reflexivity|left; reflexivity|left; reflexivity|].
    intros (c & s & E & H). injection E as <- <-. cbn in H. destruct H as [H|[H|[H|H]]]; try lia; discriminate.
Qed.
Example C133_shown : campaigns_from_json (JObj [("campaigns", JArr sample)]) = [shown sample_p].
Proof. vm_compute. reflexivity. Qed.
Example C132_case : Forall holdable [shown sample_p; big].
Proof.
  repeat constructor; unfold min_int64, max_int64, min_int, max_int; cbn; try lia; discriminate.
Qed.
Example C132_small : Forall (fun c => holdable c /\ 0 <= ca_size c < 2 ^ 32) [with_size 17 (shown sample_p); with_size 0 big].
Proof.
  repeat constructor; unfold min_int64, max_int64, min_int, max_int; cbn; try lia; discriminate.
Qed.

Print Assumptions C132_refuted.
Print Assumptions C132_partial.
Print Assumptions C132_size_only.
Print Assumptions C133_refuted.
Print Assumptions C133_twice_refuted.
Print Assumptions C133_partial.
Print Assumptions C133_sound.
