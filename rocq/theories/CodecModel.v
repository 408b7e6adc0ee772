(** Text codecs: hash lists, result codes, URL encoding and base64. *)
From Verif Require Import Base TufModel.

(** std::string::find(char): split at the first occurrence. *)
Fixpoint split_first (c : ascii) (s : string) : option (string * string) :=
  match s with
  | EmptyString => None
  | String a s' => if Ascii.eqb a c then Some (EmptyString, s')
                   else match split_first c s' with Some (x, y) => Some (String a x, y) | None => None end
  end.
(** The tokens the loop tuf.cc:55-62 cuts off one by one (find(';'), substr). *)
Fixpoint split_all (c : ascii) (s : string) : list string :=
  match s with
  | EmptyString => [EmptyString]
  | String a s' => if Ascii.eqb a c then EmptyString :: split_all c s'
                   else match split_all c s' with x :: l => String a x :: l | [] => [String a EmptyString] end
  end.

(** ** Hash lists *)
(** tuf.cc:38-49 Hash::encodeVector. *)
Definition hash_token (h : hash) : string := append (htype_string (h_type h)) (String ":" (h_val h)).
Fixpoint encode_vector (hs : list hash) : string :=
  match hs with
  | [] => EmptyString
  | [h] => hash_token h
  | h :: l => append (hash_token h) (String ";" (encode_vector l))
  end.
(** tuf.cc:55-80, the loop body over the tokens: an empty token (also the one after the last ';', where the loop condition
    ends the loop) and a token without ':' end the loop; empty values and unknown types are skipped. *)
Fixpoint decode_tokens (l : list string) : list hash :=
  match l with
  | [] => []
  | tok :: rest =>
      if String.eqb tok "" then [] else
      match split_first ":" tok with
      | None => []
      | Some (ty, v) =>
          let h := mk_hash ty v in
          if negb (String.eqb v "") && have_alg h then h :: decode_tokens rest else decode_tokens rest
      end
  end.
(** tuf.cc:51-83 Hash::decodeVector. *)
Definition decode_vector (s : string) : list hash := decode_tokens (split_all ";" s).

(** ** Result codes *)
(** types.h:219-253 ResultCode; the numeric code is an int. *)
Record rcode := { rc_num : Z; rc_text : string }.
Definition kOk := 0.
Definition kAlreadyProcessed := 1.
Definition kVerificationFailed := 3.
Definition kInstallFailed := 4.
Definition kDownloadFailed := 5.
Definition kInternalError := 18.
Definition kGeneralError := 19.
Definition kNeedCompletion := 21.
Definition kCustomError := 22.
Definition kUnknown := -1.
(** types.cc:75-86 *)
Definition rc_strings : list (Z * string) :=
  [(kOk, "OK"); (kAlreadyProcessed, "ALREADY_PROCESSED"); (kVerificationFailed, "VERIFICATION_FAILED");
   (kInstallFailed, "INSTALL_FAILED"); (kDownloadFailed, "DOWNLOAD_FAILED"); (kInternalError, "INTERNAL_ERROR");
   (kGeneralError, "GENERAL_ERROR"); (kNeedCompletion, "NEED_COMPLETION"); (kCustomError, "CUSTOM_ERROR"); (kUnknown, "UNKNOWN")].
(** types.h:259-265 toString; std::map::at throws. *)
Definition rc_string (r : rcode) : res string :=
  if negb (String.eqb (rc_text r) "") then Ok (rc_text r)
  else match find (fun p => fst p =? rc_num r) rc_strings with Some p => Ok (snd p) | None => Throw EStd end.
Definition quote : ascii := "034".
Definition has_char (c : ascii) (s : string) : bool := match split_first c s with Some _ => true | None => false end.
(** types.cc:88-96 toRepr. *)
Definition to_repr (r : rcode) : res string :=
  do s <- rc_string r;
  if has_char quote s then Throw EStd
  else Ok (String quote (append s (String quote (String ":" (to_dec (rc_num r)))))).

(** std::stoi: optional white space, optional sign, decimal digits, then anything; out of range throws. *)
Definition is_space (c : ascii) : bool := let n := nat_of_ascii c in (Nat.eqb n 32 || (Nat.leb 9 n && Nat.leb n 13))%bool.
Definition digit_val (c : ascii) : option Z :=
  let n := Z.of_nat (nat_of_ascii c) in if (48 <=? n) && (n <=? 57) then Some (n - 48) else None.
Fixpoint skip_space (s : string) : string :=
  match s with String c s' => if is_space c then skip_space s' else s | _ => s end.
Fixpoint scan_digits (s : string) (acc : Z) : Z :=
  match s with
  | String c s' => match digit_val c with Some d => scan_digits s' (10 * acc + d) | None => acc end
  | EmptyString => acc
  end.
Definition scan_number (s : string) : option Z :=
  match s with String c s' => match digit_val c with Some d => Some (scan_digits s' d) | None => None end | _ => None end.
Definition in_int32 (z : Z) : bool := (-2147483648 <=? z) && (z <=? 2147483647).
Definition stoi (s : string) : res Z :=
  let r := match skip_space s with
           | String "-" s' => match scan_number s' with Some z => Some (- z) | None => None end
           | String "+" s' => scan_number s'
           | s' => scan_number s'
           end in
  match r with Some z => if in_int32 z then Ok z else Throw EStd | None => Throw EStd end.

(** types.cc:98-120 fromRepr. size_t wrap-around: quote_n < size - 1 fails for npos and for the last position; find(':',
    npos + 1) starts at 0; substr(q + 1, npos - q - 1) is the whole rest; col_n >= size - 1 holds for npos and for a colon
    at the last position.  [after] is the text after the colon. *)
Definition from_repr (r : string) : res rcode :=
  let finish (s : string) (after : option string) :=
    match after with
    | Some (String c t) => do n <- stoi (String c t); Ok {| rc_num := n; rc_text := s |}
    | _ => Ok {| rc_num := kUnknown; rc_text := s |}
    end in
  let colon (s : string) := match split_first ":" s with Some (_, t) => Some t | None => None end in
  match split_first quote r with
  | Some (_, String c rest) =>
      match split_first quote (String c rest) with
      | Some (s, t) => finish s (colon t)
      | None => finish (String c rest) (colon r)
      end
  | _ => match split_first ":" r with Some (s, t) => finish s (Some t) | None => finish r None end
  end.

(** ** URL encoding *)
Definition code (c : ascii) : Z := Z.of_nat (nat_of_ascii c).
Definition in_range (lo hi : ascii) (c : ascii) : bool := (code lo <=? code c) && (code c <=? code hi).
(** utils.cc:801-802 *)
Definition url_plain (c : ascii) : bool :=
  in_range "A" "Z" c || in_range "a" "z" c || in_range "0" "9" c || Ascii.eqb c "-" || Ascii.eqb c "." || Ascii.eqb c "_"
  || Ascii.eqb c "~" || Ascii.eqb c "/".
(** utils.cc:806-809 *)
Definition nib_char (n : Z) : ascii := ascii_of_nat (Z.to_nat (if n <? 10 then n + code "0" else n - 10 + code "A")).
(** utils.cc:797-813 urlEncode. *)
Fixpoint url_encode (s : string) : string :=
  match s with
  | EmptyString => EmptyString
  | String c s' => if url_plain c then String c (url_encode s')
                   else String "%" (String (nib_char (code c / 16)) (String (nib_char (code c mod 16)) (url_encode s')))
  end.

(** ** Base64 *)
(** A sextet, most significant bit first. *)
Definition sextet := (bool * bool * bool * bool * bool * bool)%type.
(** The bits of a string, most significant first (Coq's [Ascii] lists the least significant bit first). *)
Fixpoint str_bits (s : string) : list bool :=
  match s with
  | EmptyString => []
  | String (Ascii b0 b1 b2 b3 b4 b5 b6 b7) s' => b7 :: b6 :: b5 :: b4 :: b3 :: b2 :: b1 :: b0 :: str_bits s'
  end.
(** boost transform_width<6, 8>: groups of six bits, the last one filled with zeros. *)
Fixpoint sextets (l : list bool) : list sextet :=
  match l with
  | a :: b :: c :: d :: e :: f :: l' => (a, b, c, d, e, f) :: sextets l'
  | [] => []
  | [a] => [(a, false, false, false, false, false)]
  | [a; b] => [(a, b, false, false, false, false)]
  | [a; b; c] => [(a, b, c, false, false, false)]
  | [a; b; c; d] => [(a, b, c, d, false, false)]
  | [a; b; c; d; e] => [(a, b, c, d, e, false)]
  end.
Definition bit (b : bool) : Z := if b then 1 else 0.
Definition sextet_val (x : sextet) : Z :=
  let '(a, b, c, d, e, f) := x in 32 * bit a + 16 * bit b + 8 * bit c + 4 * bit d + 2 * bit e + bit f.
(** boost base64_from_binary *)
Definition b64_alphabet : string := "ABCDEFGHIJKLMNOPQRSTUVWXYZabcdefghijklmnopqrstuvwxyz0123456789+/".
Definition b64_char (x : sextet) : ascii :=
  match String.get (Z.to_nat (sextet_val x)) b64_alphabet with Some c => c | None => "A" end.
Fixpoint b64_chars (l : list sextet) : string := match l with [] => EmptyString | x :: l' => String (b64_char x) (b64_chars l') end.
Fixpoint repeat_char (n : nat) (c : ascii) : string := match n with O => EmptyString | S k => String c (repeat_char k c) end.
(** utils.cc:201-205 toBase64. *)
Definition to_base64 (s : string) : string :=
  append (b64_chars (sextets (str_bits s))) (repeat_char (Nat.modulo (3 - Nat.modulo (String.length s) 3) 3) "=").

(** Outcome of fromBase64: [BUndefined] = undefined behaviour (transform_width reads past the end when the number of
    characters is not a multiple of four; erase before the beginning), [BThrow] = dataflow_exception. *)
Inductive b64res := BOk (s : string) | BThrow | BUndefined.
(** boost binary_from_base64 *)
Fixpoint index_of (c : ascii) (s : string) (n : Z) : option Z :=
  match s with EmptyString => None | String a s' => if Ascii.eqb a c then Some n else index_of c s' (n + 1) end.
Definition sextet_of (v : Z) : sextet := (Z.testbit v 5, Z.testbit v 4, Z.testbit v 3, Z.testbit v 2, Z.testbit v 1, Z.testbit v 0).
Definition b64_val (c : ascii) : option sextet := match index_of c b64_alphabet 0 with Some v => Some (sextet_of v) | None => None end.
(** boost transform_width<8, 6> on blocks of four characters. *)
Fixpoint b64_bytes (s : string) : b64res :=
  match s with
  | EmptyString => BOk EmptyString
  | String c1 (String c2 (String c3 (String c4 s'))) =>
      match b64_val c1, b64_val c2, b64_val c3, b64_val c4 with
      | Some (a1, a2, a3, a4, a5, a6), Some (b1, b2, b3, b4, b5, b6), Some (d1, d2, d3, d4, d5, d6), Some (e1, e2, e3, e4, e5, e6) =>
          match b64_bytes s' with
          | BOk r => BOk (String (Ascii b2 b1 a6 a5 a4 a3 a2 a1) (String (Ascii d4 d3 d2 d1 b6 b5 b4 b3)
                         (String (Ascii e6 e5 e4 e3 e2 e1 d6 d5) r)))
          | x => x
          end
      | _, _, _, _ => BThrow
      end
  | _ => BUndefined
  end.
Fixpoint count_char (c : ascii) (s : string) : nat :=
  match s with EmptyString => O | String a s' => if Ascii.eqb a c then S (count_char c s') else count_char c s' end.
Definition replace_char (c d : ascii) : string -> string := map_string (fun a => if Ascii.eqb a c then d else a).
(** utils.cc:193-199 fromBase64. Simplification: white space (which Boost's iterator skips) counts as an invalid character. *)
Definition from_base64 (s : string) : b64res :=
  let pad := count_char "=" s in
  match b64_bytes (replace_char "=" "A" s) with
  | BOk r => if Nat.ltb (String.length r) pad then BUndefined else BOk (String.substring 0 (String.length r - pad) r)
  | x => x
  end.
