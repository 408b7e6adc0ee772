(** C29-C31: uploads to a Secondary with a file update agent. *)
From Verif Require Import Base Json TufModel CodecModel DlModel DlSpec DlProofs SecFileModel SecFileSpec SecFileProofs Toy.

(** ** C29 *)
Definition C29_statement : Prop := forall E stale image name ops t rn a', consistent E t -> no_stale_match stale t ->
  astep E stale (arun E stale (agent_init image name) ops) (AInstall t rn) = (a', AOk) ->
  exists c, a_target a' = Some c /\ size c = t_length t /\ matches_target E t c.
Definition toy_target (image : string) : target :=
  {| t_valid := true; t_filename := "fw"; t_type := "fake"; t_ecus := [("sec", "hw")]; t_hashes := [mk_hash_t Sha256 image]; t_hwids := []; t_custom := JNull;
     t_length := Z.of_nat (String.length image); t_corr := ""; t_uri := "" |}.
Definition toy_stale (_ : htype) (_ : string) : hash := mk_hash_t HUnknown "stale".
Lemma to_upper_len s : String.length (to_upper s) = String.length s.
Proof. induction s; simpl; auto. Qed.
Example toy_consistent image : consistent (toy []) (toy_target image) /\ no_stale_match toy_stale (toy_target image).
Proof.
  split.
  - intros c [[H|[]]|[H|[]]]; [|discriminate]. injection H as H. unfold size, toy_target; cbn [t_length]. f_equal. rewrite <- (to_upper_len c), <- (to_upper_len image), H. reflexivity.
  - intros ty d [H|[]]. discriminate.
Qed.
(** The bytes that are hashed are those received, not those stored, and a failed flush at close() is not noticed: after one
    lost and one surplus byte an image passes that is not the one hashed. *)
Theorem C29_refuted : ~ C29_statement.
Proof.
  intros H. pose (t := toy_target "ABCD").
  destruct (toy_consistent "ABCD") as (C & N).
  specialize (H (toy []) toy_stale None "" [ARecv t "AB" true (WLost 1); ARecv t "XY" true (WShort 1); ARecv t "CD" true WAll] t true _ C N eq_refl).
  destruct H as (c & H1 & _ & H3). vm_compute in H1. injection H1 as <-. destruct H3 as [[H|[]]|[H|[]]]; discriminate.
Qed.
Print Assumptions C29_refuted.
(** Every history of uploads in any chunking, installs, restarts and noticed write failures: an install that reports success
    leaves an image of the length and with a hash of the target. *)
Theorem C29_partial E stale image name ops t rn a' : consistent E t -> no_stale_match stale t -> no_silent_loss ops ->
  astep E stale (arun E stale (agent_init image name) ops) (AInstall t rn) = (a', AOk) ->
  exists c, a_target a' = Some c /\ size c = t_length t /\ matches_target E t c.
Proof.
  intros C N L H. cbn [astep] in H. destruct (install E stale t rn (arun E stale (agent_init image name) ops)) as (a1, r) eqn:I. 
  assert (r = AOk) as -> by (destruct r; congruence). injection H as <-.
  eapply install_verified; [|exact C|exact N|exact I]. apply run_inv; [exact L|]. intros c h X. discriminate.
Qed.
Print Assumptions C29_partial.
(** With no proviso: length of the file and digest of the hasher were compared with the target. *)
Theorem C29_checked E stale a t rn a' : astep E stale a (AInstall t rn) = (a', AOk) ->
  exists c h, a_new a = Some c /\ a_target a' = Some c /\ a_new a' = None /\ size c = t_length t /\ a_hasher a = Some h /\ In (hasher_digest E stale h) (t_hashes t) /\ a_name a' = t_filename t.
Proof.
  intros H. cbn [astep] in H. destruct (install E stale t rn a) as (a1, r) eqn:I. assert (r = AOk) as -> by (destruct r; congruence). injection H as <-. exact (install_checked E stale a t rn a1 I).
Qed.
Print Assumptions C29_checked.
(** Nothing else changes the installed image or its reported name. *)
Theorem C29_untouched E stale a o a' r : astep E stale a o = (a', r) -> match o with AInstall _ _ => r <> AOk | _ => True end ->
  a_target a' = a_target a /\ a_name a' = a_name a.
Proof. exact (failure_untouched E stale a o a' r). Qed.
Print Assumptions C29_untouched.
Example C29_nonvacuous : let t := toy_target "ABCD" in
  let ops := [ARecv t "AB" true (WShort 1); AInstall t true; ARecv t "AB" true WAll; ARecv t "CD" true WAll] in
  no_silent_loss ops /\ exists a', astep (toy []) toy_stale (arun (toy []) toy_stale (agent_init (Some "old") "old") ops) (AInstall t true) = (a', AOk) /\ a_target a' = Some "ABCD".
Proof.
  split; [|eexists; vm_compute; auto]. intros t d op k H. cbn [In] in H. repeat (destruct H as [H|H]; [discriminate|]). exact H.
Qed.

(** ** C30 *)
Definition C30_statement : Prop := forall E stale image name ops t img chunks, describes_image E t img -> sconcat chunks = img -> Forall (fun c => c <> "") chunks ->
  let a := arun E stale (agent_init image name) ops in
  results E stale a (uploads t chunks ++ [AInstall t true]) = map (fun _ => AOk) chunks ++ [AOk].
(** After an interrupted upload the next complete one is appended to what was received. *)
Theorem C30_refuted : ~ C30_statement.
Proof.
  intros H. specialize (H (toy []) toy_stale None "" [ARecv (toy_target "ABCD") "AB" true WAll] (toy_target "ABCD") "ABCD" ["AB"; "CD"]).
  assert (D : describes_image (toy []) (toy_target "ABCD") "ABCD") by (repeat split; [left; split; [reflexivity|left; reflexivity]|discriminate]).
  specialize (H D eq_refl ltac:(repeat constructor; discriminate)). vm_compute in H. discriminate.
Qed.
Print Assumptions C30_refuted.
(** The received file then is as long as the image or longer, and every further upload of the target is refused. The
    Primary asks for the install, which alone would remove the file, only after a successful upload. *)
Theorem C30_stuck E stale a t : t_length t <= a_size a -> a_new a <> None -> forall ops,
  Forall (fun o => match o with ARecv t' _ _ _ => t' = t | ARestart => True | AInstall _ _ => False end) ops ->
  a_new (arun E stale a ops) = a_new a /\ Forall2 (fun o r => match o with ARecv _ _ _ _ => r = AFail | _ => True end) ops (results E stale a ops).
Proof. exact (stuck_forever E stale a t). Qed.
Print Assumptions C30_stuck.
(** A corrupted upload of the right length leads there as well: the install fails and the file stays. *)
Theorem C30_mismatch_sticks E stale a t rn c h : a_new a = Some c -> size c = t_length t -> a_hasher a = Some h -> ~ In (hasher_digest E stale h) (t_hashes t) ->
  exists a', install E stale t rn a = (a', AFail) /\ a_new a' = Some c /\ t_length t <= a_size a'.
Proof. exact (mismatch_sticks E stale a t rn c h). Qed.
Print Assumptions C30_mismatch_sticks.
Example C30_stuck_reachable : let t := toy_target "ABCD" in
  let a := arun (toy []) toy_stale (agent_init None "") [ARecv t "AB" true WAll; ARecv t "AB" true WAll; ARecv t "CD" true WAll] in
  t_length t <= a_size a /\ a_new a <> None.
Proof. vm_compute. split; discriminate. Qed.
(** What works: from any state in which no bytes of an earlier upload are left, any division of the image is accepted and
    installed; and an install that finds a file of the wrong length leads to such a state. *)
Theorem C30_partial E stale a t img chunks : a_size a = 0 -> describes_image E t img -> sconcat chunks = img -> Forall (fun c => c <> "") chunks ->
  results E stale a (uploads t chunks ++ [AInstall t true]) = map (fun _ => AOk) chunks ++ [AOk] /\
  let a' := arun E stale a (uploads t chunks ++ [AInstall t true]) in a_target a' = Some img /\ a_new a' = None /\ a_name a' = t_filename t.
Proof. exact (clean_upload E stale a t img chunks). Qed.
Print Assumptions C30_partial.
Theorem C30_wrong_size_recovers E stale a t rn c : a_new a = Some c -> size c <> t_length t ->
  exists a', install E stale t rn a = (a', AFail) /\ a_size a' = 0 /\ a_target a' = a_target a.
Proof. exact (wrong_size_removed E stale a t rn c). Qed.
Print Assumptions C30_wrong_size_recovers.
Example C30_nonvacuous : a_size (agent_init (Some "old") "old") = 0 /\ describes_image (toy []) (toy_target "ABCD") "ABCD".
Proof. repeat split; [left; split; [reflexivity|left; reflexivity]|discriminate]. Qed.

(** ** C31 *)
(** An image of the target's length, all requests acknowledged: the loop ends, reports success and the requests carry the
    image, in non-empty pieces of at most 1024 bytes. *)
Theorem C31_upload ack t image fuel : (forall i, ack i = true) -> t_length t = size image -> (String.length image < fuel)%nat ->
  exists chunks, upload fuel ack t image = Some (chunks, true) /\ sconcat chunks = image /\ Forall (fun c => c <> "" /\ (String.length c <= 1024)%nat) chunks.
Proof. intros A L F. destruct (upload_ok fuel ack (t_length t) 0 image 0 [] A ltac:(lia) F) as (cs & H). exists cs. exact H. Qed.
Print Assumptions C31_upload.
(** In all cases what is sent is a prefix of the file. *)
Theorem C31_prefix ack t image fuel r ok : upload fuel ack t image = Some (r, ok) -> exists rest, append (sconcat r) rest = image.
Proof. intros H. destruct (upload_prefix _ _ _ _ _ _ _ _ _ H) as (cs & rest & -> & E). exists rest. exact E. Qed.
Print Assumptions C31_prefix.
(** From the Primary's file to the Secondary's installed image. *)
Theorem C31_end_to_end E stale a t image fuel : a_size a = 0 -> describes_image E t image -> (String.length image < fuel)%nat ->
  exists chunks, upload fuel (fun _ => true) t image = Some (chunks, true) /\
    results E stale a (uploads t chunks ++ [AInstall t true]) = map (fun _ => AOk) chunks ++ [AOk] /\
    a_target (arun E stale a (uploads t chunks ++ [AInstall t true])) = Some image.
Proof.
  intros S D F. destruct (C31_upload (fun _ => true) t image fuel (fun _ => eq_refl) ltac:(apply D) F) as (cs & U & C & N). exists cs. split; [exact U|].
  destruct (C30_partial E stale a t image cs S D C) as (A & B & _); auto. apply Forall_forall. intros c Hc. rewrite Forall_forall in N. apply (N c Hc).
Qed.
Print Assumptions C31_end_to_end.
(** A stored file shorter than the target says is never given up: empty requests are sent as long as they are acknowledged. *)
Theorem C31_short_file_never_ends ack t image fuel : (forall i, ack i = true) -> size image < t_length t -> upload fuel ack t image = None.
Proof. intros A L. apply upload_short; auto. Qed.
Print Assumptions C31_short_file_never_ends.
Example C31_nonvacuous : upload 5 (fun _ => true) (toy_target "ABCD") "ABCD" = Some (["ABCD"], true).
Proof. vm_compute. reflexivity. Qed.
