(** C21, C22, C55, C56, C57: downloads of binary targets. *)
From Verif Require Import Base Json TufModel CodecModel CodecSpec CodecProofs DlModel DlSpec DlProofs DlProofs2.

(** ** Concrete data: contents in upper case hash to themselves. *)
Definition idE : Env := {| canon := fun _ => ""; parse := fun _ => JNull; rsa_type := fun _ => KUnknown;
  verify := fun _ _ _ _ => None; sha256hex := fun s => s; sha512hex := fun s => s |}.
Definition tgt (name sha : string) (len : Z) : target := target_internal name [] [mk_hash_t Sha256 sha] len "".
(** A server that has one image, sends it in two pieces, and a disk that works. *)
Definition halves (s : string) : list string := [substring 0 1 s; substring 1 (String.length s - 1) s].
Definition honest_world (image : string) : DlModel.world := {|
  w_server := fun _ _ from => {| rs_chunks := halves (sdrop from image); rs_end := RDone 206; rs_reset := false |};
  w_token := None; w_repo := "https://images"; w_space := true; w_create := true; w_append := true; w_read := true; w_store := append |}.
Definition full_disk (W : DlModel.world) : DlModel.world := {|
  w_server := w_server W; w_token := w_token W; w_repo := w_repo W; w_space := w_space W; w_create := w_create W; w_append := w_append W;
  w_read := w_read W; w_store := fun old _ => old |}.
Definition fresh : dstate := {| d_names := []; d_files := [] |}.
Lemma halves_concat s : sconcat (halves s) = s.
Proof.
  destruct s as [|c s]; [reflexivity|]. unfold halves, sconcat. cbn [fold_right String.length]. replace (S (String.length s) - 1)%nat with (String.length s) by lia.
  cbn [substring append]. assert (forall r, substring 0 (String.length r) r = r) as H by (induction r; simpl; congruence).
  rewrite H. destruct s; simpl; rewrite ?append_nil_r; reflexivity.
Qed.
Lemma honest_is_honest image t : honest (honest_world image) t image.
Proof. intros n from _. simpl. split; [apply (halves_concat (sdrop from image))|]. split; [exists 206; split; [reflexivity|lia]|reflexivity]. Qed.

(** ** C21 *)
(** Any prior state of the directory (so any interrupted earlier download), any server behaviour, any chunks, any pauses: a
    successful fetch leaves a stored file with a listed hash; every intermediate content fits the listed length. *)
Theorem C21_download_verified E W fuel t s r s' log : good_disk W -> 0 < t_length t -> fetch_target E W fuel t s = (r, s', log) ->
  Forall (fun si => exists c, stored t si = Some c /\ size c <= t_length t) log /\
  (r = FTrue -> exists c, stored t s' = Some c /\ size c <= t_length t /\ matches_target E t c).
Proof.
  intros Hd Hl H. destruct (fetch_sound E W Hd t s fuel r s' log Hl H) as (F & S). split; [exact F|]. intros Hr.
  destruct (S Hr) as (c & C1 & C2 & C3). exists c. repeat split; auto. now apply first_target.
Qed.
Print Assumptions C21_download_verified.
(** The stored file is reported good exactly if it has the listed length and hash. *)
Theorem C21_verify_exact E W t s : w_read W = true ->
  (verify_target E W t s = Some SGood <-> exists c, stored t s = Some c /\ size c = t_length t /\ matches_first E t c).
Proof. intros Hr. split; [apply verify_good|]. intros (c & H1 & H2 & H3). now apply good_verify with c. Qed.
Print Assumptions C21_verify_exact.
Definition resumed_world : DlModel.world := {|
  w_server := fun n _ from => match n with
    | O => {| rs_chunks := ["AB"]; rs_end := RInterrupted; rs_reset := false |}
    | S O => {| rs_chunks := []; rs_end := RRange; rs_reset := false |}
    | _ => {| rs_chunks := ["ABC"; "D"]; rs_end := RDone 200; rs_reset := false |} end;
  w_token := Some (fun _ => true); w_repo := ""; w_space := true; w_create := true; w_append := true; w_read := true; w_store := append |}.
Example C21_nonvacuous : good_disk resumed_world /\
  exists s' log, fetch_target idE resumed_world 5 (tgt "f" "ABCD" 4) fresh = (FTrue, s', log) /\ stored (tgt "f" "ABCD" 4) s' = Some "ABCD" /\ List.length log = 5%nat.
Proof. split; [intros old k; reflexivity|]. eexists. eexists. split; [vm_compute; reflexivity|]. split; vm_compute; reflexivity. Qed.

(** ** C22 *)
Definition C22_statement : Prop := forall E W fuel t s s' log, good_disk W -> t_length t = 0 ->
  fetch_target E W fuel t s = (FTrue, s', log) -> matches_target E t "".
(** Success is reported without looking at the hash. *)
Theorem C22_refuted : ~ C22_statement.
Proof.
  intros H. specialize (H idE (honest_world "") 1%nat (tgt "f" "ABCD" 0) fresh _ _ (fun _ _ => eq_refl) eq_refl eq_refl).
  destruct H as [[H | []] | [H | []]]; vm_compute in H; discriminate.
Qed.
Print Assumptions C22_refuted.
(** What holds: the stored file is empty, or was found good. *)
Theorem C22_partial E W fuel t s s' log : t_length t = 0 -> fetch_target E W fuel t s = (FTrue, s', log) -> stored t s' = Some "".
Proof. exact (zero_length_empty E W fuel t s s' log). Qed.
Print Assumptions C22_partial.

(** ** C55 *)
(** If writing to the disk fails the fetch may still succeed, with nothing stored: only the received bytes are hashed. *)
Definition C55_statement : Prop := forall E W fuel t s s' log, 0 < t_length t -> fetch_target E W fuel t s = (FTrue, s', log) ->
  exists c, stored t s' = Some c /\ matches_target E t c.
Theorem C55_refuted : ~ C55_statement.
Proof.
  intros H. specialize (H idE (full_disk (honest_world "ABCD")) 1%nat (tgt "f" "ABCD" 4) fresh _ _ eq_refl eq_refl).
  destruct H as (c & H & M). vm_compute in H. injection H as <-. destruct M as [[M | []] | [M | []]]; vm_compute in M; discriminate.
Qed.
Print Assumptions C55_refuted.

(** ** C56 *)
(** Downloading one target changes the stored content of another: file "B" shares the file of the old version of "A". *)
Definition C56_statement : Prop := forall E W fuel t u s r s' log c, good_disk W -> t_filename u <> t_filename t ->
  stored u s = Some c -> matches_target E u c -> fetch_target E W fuel t s = (r, s', log) -> stored u s' = Some c.
Theorem C56_refuted : ~ C56_statement.
Proof.
  intros H. set (s := {| d_names := [("A", "OLD"); ("B", "OLD")]; d_files := [("OLD", "OLD")] |}).
  assert (X : exists r s' log, fetch_target idE (honest_world "NEWER") 1 (tgt "A" "NEWER" 5) s = (r, s', log) /\ stored (tgt "B" "OLD" 3) s' <> Some "OLD").
  { eexists. eexists. eexists. split; [vm_compute; reflexivity|]. vm_compute. discriminate. }
  destruct X as (r & s' & log & X1 & X2). apply X2.
  apply (H idE (honest_world "NEWER") 1%nat (tgt "A" "NEWER" 5) (tgt "B" "OLD" 3) s r s' log "OLD"); auto.
  - intros a b. reflexivity.
  - discriminate.
  - left. left. reflexivity.
Qed.
Print Assumptions C56_refuted.
(** It holds for targets that use different files. *)
Theorem C56_partial E W fuel t u s r s' log c : t_filename u <> t_filename t -> stored u s = Some c ->
  check_file t s <> check_file u s -> check_file u s <> Some (file_name t) ->
  fetch_target E W fuel t s = (r, s', log) -> stored u s' = Some c.
Proof. exact (others_kept E W fuel t u s r s' log c). Qed.
Print Assumptions C56_partial.
Example C56_nonvacuous : let s := {| d_names := [("B", "OLD")]; d_files := [("OLD", "OLD")] |} in
  stored (tgt "B" "OLD" 3) s = Some "OLD" /\ check_file (tgt "A" "NEWER" 5) s <> check_file (tgt "B" "OLD" 3) s /\
  check_file (tgt "B" "OLD" 3) s <> Some (file_name (tgt "A" "NEWER" 5)) /\
  exists s' log, fetch_target idE (honest_world "NEWER") 1 (tgt "A" "NEWER" 5) s = (FTrue, s', log).
Proof. cbv zeta. split; [reflexivity|]. split; [discriminate|]. split; [discriminate|]. eexists. eexists. vm_compute. reflexivity. Qed.

(** ** C57 *)
(** From any state left behind by earlier attempts, the client's retries succeed against a server that has the image. *)
Theorem C57_retries_recover E t image fuel s w1 w2 b2 ws :
  (forall w, w = w1 \/ w = w2 -> honest w t image /\ healthy w) -> describes_image E t image ->
  exists s', fetch_tries E (S fuel) ((w1, true) :: (w2, b2) :: ws) t s = (FTrue, s') /\
    exists c, stored t s' = Some c /\ size c <= t_length t /\ matches_first E t c.
Proof. exact (honest_tries E t image fuel s w1 w2 b2 ws). Qed.
Print Assumptions C57_retries_recover.
(** Hypotheses met, with a corrupt partial file in place so that the first attempt fails. *)
Example C57_nonvacuous : let w := honest_world "ABCD" in let t := tgt "f" "ABCD" 4 in
  let s := {| d_names := [("f", "ABCD")]; d_files := [("ABCD", "XX")] |} in
  honest w t "ABCD" /\ healthy w /\ describes_image idE t "ABCD" /\
  fst (fst (fetch_target idE w 1 t s)) = FFalse /\ exists s', fetch_tries idE 1 [(w, true); (w, true); (w, true)] t s = (FTrue, s').
Proof.
  cbv zeta. split; [apply honest_is_honest|]. split; [repeat split|]. split; [|split; [vm_compute; reflexivity|eexists; vm_compute; reflexivity]].
  split; [reflexivity|]. split; [reflexivity|]. split; [|discriminate]. left. split; [reflexivity|]. left. reflexivity.
Qed.

(** ** C36 for downloads *)
(** The address asked for a target without a URI of its own is the repository's, followed by the encoded name, which only
    stands for this name. *)
Theorem C36_target_url W t : t_uri t = "" -> exists e, target_url W t = append (w_repo W) (append "/targets/" e) /\
  url_safe e /\ percent_decode e = Some (t_filename t).
Proof.
  intros H. exists (url_encode (t_filename t)). unfold target_url. rewrite H. split; [reflexivity|]. split; [apply url_encode_safe|apply url_round_trip].
Qed.
Print Assumptions C36_target_url.
Theorem C36_target_own_url W t : t_uri t <> "" -> target_url W t = t_uri t.
Proof. intros H. unfold target_url. destruct (String.eqb_spec (t_uri t) ""); [contradiction|reflexivity]. Qed.
Print Assumptions C36_target_own_url.
Example C36_target_case : target_url (honest_world "") (tgt "a b" "X" 1) = append (w_repo (honest_world "")) "/targets/a%20b".
Proof. vm_compute. reflexivity. Qed.
