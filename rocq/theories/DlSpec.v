(** Specification of downloads. *)
From Verif Require Import Base Json TufModel CodecModel DlModel.

(** The content [c] has one of the hashes listed in the target. *)
Definition matches_target (E : Env) (t : target) (c : string) : Prop :=
  In {| h_type := Sha256; h_val := to_upper (sha256hex E c) |} (t_hashes t) \/
  In {| h_type := Sha512; h_val := to_upper (sha512hex E c) |} (t_hashes t).
(** It has a hash of the strongest preference of this code: the first one listed. *)
Definition matches_first (E : Env) (t : target) (c : string) : Prop :=
  (file_type t = Sha256 /\ In {| h_type := Sha256; h_val := to_upper (sha256hex E c) |} (t_hashes t)) \/
  (file_type t = Sha512 /\ In {| h_type := Sha512; h_val := to_upper (sha512hex E c) |} (t_hashes t)).
Definition size (c : string) : Z := Z.of_nat (String.length c).

(** A disk that stores what is written. *)
Definition good_disk (W : world) : Prop := forall old chunk, w_store W old chunk = append old chunk.

Fixpoint sdrop (n : nat) (s : string) : string :=
  match n, s with O, _ => s | S n', String _ s' => sdrop n' s' | S _, EmptyString => "" end.
Definition sconcat (l : list string) : string := fold_right append "" l.

(** A server that has [image] for this target, honours byte ranges, and may split the answer as it likes. *)
Definition honest (W : world) (t : target) (image : string) : Prop :=
  forall n from, (from <= String.length image)%nat ->
    let r := w_server W n (target_url W t) from in
    sconcat (rs_chunks r) = sdrop from image /\ (exists st, rs_end r = RDone st /\ 200 <= st < 400) /\ rs_reset r = false.
(** Nothing fails locally. *)
Definition healthy (W : world) : Prop :=
  good_disk W /\ w_space W = true /\ w_create W = true /\ w_append W = true /\ w_read W = true.
(** The target describes the image. *)
Definition describes_image (E : Env) (t : target) (image : string) : Prop :=
  t_length t = size image /\ 0 < t_length t /\ matches_first E t image /\ file_name t <> "".
