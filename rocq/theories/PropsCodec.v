(** Properties of the text and binary codecs (C33-C38). *)
From Verif Require Import Base TufModel CodecModel CodecSpec CodecProofs CerModel CerProofs CerProofs2 CerProofs3.

(** ** C33: result codes. The full statement: converting to text never fails and reading the text gives the code back. *)
Definition C33_statement : Prop := forall r, int32 (rc_num r) -> rc_text r <> "" ->
  exists s r', to_repr r = Ok s /\ from_repr s = Ok r' /\ rc_same r' r.
(** A text with a double quote cannot be stored. *)
Theorem C33_refuted : ~ C33_statement.
Proof.
  intros H. destruct (H {| rc_num := kCustomError; rc_text := String quote "x" |}) as (s & r' & Hs & _).
  - unfold int32; simpl; unfold kCustomError; lia.
  - discriminate.
  - vm_compute in Hs. discriminate.
Qed.
Print Assumptions C33_refuted.
(** Everything else survives: also texts with colons and the default texts. *)
Theorem C33_partial r t : int32 (rc_num r) -> rc_string r = Ok t -> has_char quote t = false ->
  exists s r', to_repr r = Ok s /\ from_repr s = Ok r' /\ rc_same r' r.
Proof.
  intros H1 H2 H3. destruct (to_repr_defined r t H2 H3) as (s & Hs). destruct (result_code_round_trip r s H1 Hs) as (r' & Hr & Hsame). eauto.
Qed.
Print Assumptions C33_partial.
(** What was written is always read back: nothing is written that cannot be. *)
Theorem C33_written_is_read_partial r s : int32 (rc_num r) -> to_repr r = Ok s -> exists r', from_repr s = Ok r' /\ rc_same r' r.
Proof. exact (result_code_round_trip r s). Qed.
Print Assumptions C33_written_is_read_partial.
Example C33_case : from_repr (match to_repr {| rc_num := -7; rc_text := "a:1" |} with Ok s => s | Throw _ => "" end)
                   = Ok {| rc_num := -7; rc_text := "a:1" |}.
Proof. vm_compute. reflexivity. Qed.

(** ** C34: hash lists *)
Theorem C34_hash_list_round_trip hs : Forall storable_hash hs -> decode_vector (encode_vector hs) = hs.
Proof. exact (hash_list_round_trip hs). Qed.
Print Assumptions C34_hash_list_round_trip.
(** In any list the known hashes survive, whatever else is in it. *)
Theorem C34_known_survive hs : Forall writable_hash hs -> decode_vector (encode_vector hs) = filter have_alg hs.
Proof. exact (hash_list_known hs). Qed.
Print Assumptions C34_known_survive.
Example C34_mixed : Forall writable_hash [{| h_type := HUnknown; h_val := "00" |}; {| h_type := Sha256; h_val := "AB12" |}].
Proof. repeat constructor; discriminate. Qed.
Example C34_case : Forall storable_hash [{| h_type := Sha256; h_val := "AB12" |}; {| h_type := Sha512; h_val := "FF" |}].
Proof. repeat constructor; discriminate. Qed.

(** ** C35: base64 *)
Theorem C35_base64_round_trip s : from_base64 (to_base64 s) = BOk s.
Proof. exact (base64_round_trip s). Qed.
Print Assumptions C35_base64_round_trip.
Theorem C35_base64_is_rfc4648 s : to_base64 s = rfc4648 s.
Proof. exact (to_base64_rfc s). Qed.
Print Assumptions C35_base64_is_rfc4648.
Example C35_case : to_base64 "foobar!" = "Zm9vYmFyIQ==".
Proof. vm_compute. reflexivity. Qed.

(** ** C36: URL encoding *)
Theorem C36_url_reversible s : percent_decode (url_encode s) = Some s.
Proof. exact (url_round_trip s). Qed.
Print Assumptions C36_url_reversible.
Theorem C36_url_safe s : url_safe (url_encode s).
Proof. exact (url_encode_safe s). Qed.
Print Assumptions C36_url_safe.
Example C36_case : url_encode "a b/c%~" = "a%20b/c%25~".
Proof. vm_compute. reflexivity. Qed.

(** ** C37: CER round trips. The full statement, on a platform where char is signed ([sgn = true]) or not. *)
Definition C37_statement (sgn : bool) : Prop :=
  (forall tag n rest, int_tag tag -> -2147483648 <= n < 2147483648 -> exists fuel,
     decode_token sgn fuel (tag :: encode_integer n ++ rest) = DTok tag (1 + blen (encode_integer n)) (Some n) None) /\
  (forall tag s rest, string_tag tag -> exists fuel,
     decode_token sgn fuel (tag :: encode_string s tag ++ rest) = DTok tag (1 + blen (encode_string s tag)) None (Some s)).
(** 32768 is read back as -32768, on every platform. *)
Theorem C37_refuted_integer sgn : ~ C37_statement sgn.
Proof.
  intros (H & _). destruct (H 2 32768 []) as (fuel & Hf); [right; left; reflexivity|lia|].
  assert (E : decode_token sgn 1 (2 :: encode_integer 32768 ++ []) = DTok 2 4 (Some (-32768)) None) by (destruct sgn; vm_compute; reflexivity).
  destruct fuel as [|fuel]; [discriminate|].
  rewrite (fuel_irrelevant sgn 1 (S fuel)), E in Hf by (first [lia | rewrite E; discriminate]). discriminate.
Qed.
Print Assumptions C37_refuted_integer.
(** Where char is signed already 128 is read back as -128. *)
Theorem C37_refuted_signed_char : decode_token true 1 (2 :: encode_integer 128) = DTok 2 4 (Some (-128)) None.
Proof. vm_compute. reflexivity. Qed.
Print Assumptions C37_refuted_signed_char.
(** A string of more than 1000 bytes is read back, but with end position 0. *)
Theorem C37_refuted_string sgn : ~ (forall tag s rest, string_tag tag -> exists fuel,
     decode_token sgn fuel (tag :: encode_string s tag ++ rest) = DTok tag (1 + blen (encode_string s tag)) None (Some s)).
Proof.
  intros H. destruct (H 4 (repeat 65 (Z.to_nat 1001)) [] (or_introl eq_refl)) as (fuel & Hf).
  set (s := repeat 65 (Z.to_nat 1001)) in *.
  assert (Hl : 1000 < blen s) by (unfold s, blen; rewrite repeat_length; lia).
  pose proof (decode_long sgn s 4 [] (List.length s + 3)%nat (or_introl eq_refl) Hl (le_n _)) as Hd.
  assert (He : 0 < blen (encode_string s 4)).
  { unfold encode_string. rewrite (proj2 (Z.leb_gt (blen s) cer_max_primitive)) by (unfold cer_max_primitive; lia).
    rewrite blen_cons. pose proof (blen_nonneg (encode_chunks (List.length s) s 4 ++ [0; 0])). lia. }
  destruct (Nat.le_ge_cases (List.length s + 3) fuel) as [Hc | Hc].
  - rewrite (fuel_irrelevant sgn _ fuel _ Hc), Hd in Hf by (rewrite Hd; discriminate). injection Hf as Hx. lia.
  - rewrite (fuel_irrelevant sgn fuel _ _ Hc), Hf in Hd by (rewrite Hf; discriminate). injection Hd as Hx. lia.
Qed.
Print Assumptions C37_refuted_string.
(** Exactly which integers survive where char is unsigned (ARM). *)
Theorem C37_integer_iff_partial f tag n rest : int_tag tag -> -2147483648 <= n < 2147483648 ->
  (decode_token false (S f) (tag :: encode_integer n ++ rest) = DTok tag (1 + blen (encode_integer n)) (Some n) None <-> cer_int_ok n).
Proof. exact (int_round_trip_iff f tag n rest). Qed.
Print Assumptions C37_integer_iff_partial.
Example C37_case_ok : cer_int_ok 127 /\ cer_int_ok 255 /\ cer_int_ok (-128) /\ cer_int_ok 1000 /\ ~ cer_int_ok 32768.
Proof.
  unfold cer_int_ok. cbv zeta. change (127 <? 0) with false. change (255 <? 0) with false. change (-128 <? 0) with true.
  change (1000 <? 0) with false. change (32768 <? 0) with false. cbv iota. change (32768 mod 256) with 0. repeat split; try lia.
Qed.
(** On any platform integers of one byte survive. *)
Theorem C37_small_integer_partial sgn f tag n rest : int_tag tag -> -128 <= n <= 127 ->
  decode_token sgn (S f) (tag :: encode_integer n ++ rest) = DTok tag (1 + blen (encode_integer n)) (Some n) None.
Proof.
  intros Ht Hn. destruct (content_bytes n ltac:(lia)) as (Hf & _).
  pose (P := fun z => if list_eq_dec Z.eq_dec (int_content (z - 128)) [(z - 128) mod 256] then true else false).
  assert (Hc : int_content n = [n mod 256]).
  { assert (Hx : P (n + 128) = true) by (apply (all_below P 256); [vm_compute; reflexivity|lia]).
    unfold P in Hx. replace (n + 128 - 128) with n in Hx by lia. destruct (list_eq_dec _ _ _); [assumption|discriminate]. }
  rewrite encode_integer_content, Hc. rewrite decode_int_token by (auto; unfold blen; simpl; lia). f_equal. f_equal.
  pose (Q := fun z => decode_int sgn [(z - 128) mod 256] 1 =? z - 128).
  assert (Hx : Q (n + 128) = true) by (apply (all_below Q 256); [destruct sgn; vm_compute; reflexivity|lia]).
  unfold Q in Hx. replace (n + 128 - 128) with n in Hx by lia. now apply Z.eqb_eq in Hx.
Qed.
Print Assumptions C37_small_integer_partial.
(** Strings of any length are read back; those of at most 1000 bytes with the right end position. *)
Theorem C37_string_partial sgn tag s rest : string_tag tag -> exists fuel e,
  decode_token sgn fuel (tag :: encode_string s tag ++ rest) = DTok tag e None (Some s) /\
  (blen s <= 1000 -> e = 1 + blen (encode_string s tag)).
Proof.
  intros Ht. destruct (Z_le_gt_dec (blen s) 1000) as [H | H].
  - exists 1%nat. unfold encode_string. rewrite (proj2 (Z.leb_le (blen s) cer_max_primitive)) by (unfold cer_max_primitive; lia).
    eexists. split; [apply decode_short; auto|reflexivity].
  - exists (List.length s + 3)%nat, 0. split; [apply decode_long; auto; lia|lia].
Qed.
Print Assumptions C37_string_partial.

(** ** C38: decoding terminates, stays in bounds, reports malformed input *)
Definition C38_statement (sgn : bool) : Prop := forall ber, Forall byte_ok ber ->
  exists fuel t e ip sp, decode_token sgn fuel ber = DTok t e ip sp /\ (t = kCerUnknown \/ e <= blen ber).
(** 04 80 04 80 00 00 is decoded for ever. *)
Theorem C38_refuted_termination sgn : ~ C38_statement sgn.
Proof.
  intros H. destruct (H loop_input) as (fuel & t & e & ip & sp & Hf & _).
  - repeat constructor; discriminate.
  - rewrite never_terminates in Hf. discriminate.
Qed.
Print Assumptions C38_refuted_termination.
(** 04 84 is read out of bounds, 04 81 escapes as std::out_of_range, 04 05 41 is accepted with an end position beyond the
    input. *)
Theorem C38_refuted_bounds sgn :
  (forall f, decode_token sgn (S f) [4; 132] = DUB) /\ (forall f, decode_token sgn (S f) [4; 129] = DThrow) /\
  (forall f, decode_token sgn (S f) [4; 5; 65] = DTok 4 7 None (Some [65])).
Proof. repeat split; intros f; reflexivity. Qed.
Print Assumptions C38_refuted_bounds.
(** With a one-byte length prefix (and enough content) none of this happens. *)
Theorem C38_partial sgn f b0 b1 rest : 0 <= b1 < 128 ->
  exists t e ip sp, decode_token sgn (S f) (b0 :: b1 :: rest) = DTok t e ip sp /\
    (b1 <= blen rest -> t = kCerUnknown \/ e <= blen (b0 :: b1 :: rest)).
Proof. exact (definite_ok sgn f b0 b1 rest). Qed.
Print Assumptions C38_partial.
(** Malformed tokens with a one-byte length prefix are reported: a universal integer, boolean or enumeration that is
    constructed or has no or more than four bytes, a sequence that is not constructed, an end marker with content, any
    other universal type that is not a string, and primitive tokens of other classes.  b0 = class, constructed bit, tag. *)
Definition malformed (cls : Z) (constructed : bool) (tag len avail : Z) : Prop :=
  (cls = 0 /\ int_tag tag /\ (constructed = true \/ Z.min len avail < 1 \/ 4 < Z.min len avail)) \/
  (cls = 0 /\ tag = 16 /\ constructed = false) \/
  (cls = 0 /\ tag = 0 /\ len <> 0) \/
  (cls = 0 /\ ~ int_tag tag /\ tag <> 16 /\ tag <> 0 /\ tag <> 4 /\ tag <> 12 /\ ~ 18 <= tag <= 29) \/
  (cls <> 0 /\ constructed = false).
Theorem C38_malformed_reported_partial sgn f cls constructed tag len rest :
  In cls [0; 64; 128; 192] -> 0 <= tag < 32 -> 0 <= len < 128 -> malformed cls constructed tag len (blen rest) ->
  decode_token sgn (S f) (cls + (if constructed then 32 else 0) + tag :: len :: rest) = d_unknown.
Proof. exact (malformed_unknown sgn f cls constructed tag len rest). Qed.
Print Assumptions C38_malformed_reported_partial.
(** And the well-formed ones are read as what they are. *)
Theorem C38_wellformed_partial sgn f tag len rest : string_tag tag -> 0 <= len < 128 -> len <= blen rest ->
  decode_token sgn (S f) (tag :: len :: rest) = DTok tag (2 + len) None (Some (firstn (Z.to_nat len) rest)).
Proof. exact (wellformed_string sgn f tag len rest). Qed.
Print Assumptions C38_wellformed_partial.
(** An integer of indefinite length, and a string whose chunks are of another type, are reported too. *)
Theorem C38_indefinite_reported_partial sgn f tag rest :
  (int_tag tag -> decode_token sgn (S f) (tag :: 128 :: rest) = d_unknown) /\
  (forall tag' len rest', rest = tag' :: len :: rest' -> string_tag tag -> string_tag tag' -> tag <> tag' -> 0 <= len < 128 -> len <= blen rest' ->
   decode_token sgn (S (S (S f))) (tag :: 128 :: rest) = d_unknown).
Proof.
  split; [exact (indefinite_int_unknown sgn f tag rest)|]. intros tag' len rest' ->. exact (mixed_chunks_unknown sgn f tag tag' len rest').
Qed.
Print Assumptions C38_indefinite_reported_partial.
Example C38_malformed_case : malformed 0 false 2 0 10 /\ malformed 0 true 2 3 10 /\ malformed 0 false 10 5 5 /\ malformed 128 false 3 1 1.
Proof. unfold malformed, int_tag. repeat split; lia. Qed.
(** The fuel of the model is not observable. *)
Theorem C38_fuel_irrelevant sgn f g ber : (f <= g)%nat -> decode_token sgn f ber <> DFuel -> decode_token sgn g ber = decode_token sgn f ber.
Proof. exact (fuel_irrelevant sgn f g ber). Qed.
Print Assumptions C38_fuel_irrelevant.
