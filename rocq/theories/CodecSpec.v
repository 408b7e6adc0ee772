(** Independent specifications of the text codecs. *)
From Verif Require Import Base TufModel CodecModel.

(** A hash that can come out of the hash constructors (upper-case text), of a known algorithm, non-empty and without the
    separator; every non-empty hexadecimal digest is such. *)
Definition storable_hash (h : hash) : Prop :=
  h_type h <> HUnknown /\ h_val h <> "" /\ to_upper (h_val h) = h_val h /\ has_char ";" (h_val h) = false.

(** The same without the algorithm being known. *)
Definition writable_hash (h : hash) : Prop :=
  h_val h <> "" /\ to_upper (h_val h) = h_val h /\ has_char ";" (h_val h) = false.

(** Two result codes are the same for a user: same number and same text (the default text if none was given). *)
Definition rc_same (a b : rcode) : Prop := rc_num a = rc_num b /\ rc_string a = rc_string b.
(** A value a C++ int can hold. *)
Definition int32 (z : Z) : Prop := -2147483648 <= z <= 2147483647.

(** Percent-decoding (RFC 3986, 2.1): a percent sign and two hexadecimal digits stand for a byte, anything else for itself. *)
Definition hex_val (c : ascii) : option Z :=
  let n := code c in
  if (48 <=? n) && (n <=? 57) then Some (n - 48)
  else if (65 <=? n) && (n <=? 70) then Some (n - 55)
  else if (97 <=? n) && (n <=? 102) then Some (n - 87) else None.
Fixpoint percent_decode (s : string) : option string :=
  match s with
  | EmptyString => Some EmptyString
  | String c s' =>
      if Ascii.eqb c "%" then
        match s' with
        | String h (String l r) =>
            match hex_val h, hex_val l, percent_decode r with
            | Some x, Some y, Some d => Some (String (ascii_of_nat (Z.to_nat (16 * x + y))) d)
            | _, _, _ => None
            end
        | _ => None
        end
      else match percent_decode s' with Some d => Some (String c d) | None => None end
  end.
(** RFC 3986, 2.3 unreserved characters. *)
Definition unreserved (c : ascii) : Prop :=
  65 <= code c <= 90 \/ 97 <= code c <= 122 \/ 48 <= code c <= 57 \/ c = "-"%char \/ c = "."%char \/ c = "_"%char \/ c = "~"%char.
Definition upper_hex (c : ascii) : Prop := 48 <= code c <= 57 \/ 65 <= code c <= 70.
(** Texts of unreserved characters, slashes and percent escapes. *)
Inductive url_safe : string -> Prop :=
| us_nil : url_safe EmptyString
| us_char c s : unreserved c \/ c = "/"%char -> url_safe s -> url_safe (String c s)
| us_esc a b s : upper_hex a -> upper_hex b -> url_safe s -> url_safe (String "%" (String a (String b s))).

(** Base64 as RFC 4648, section 4 describes it: groups of three bytes become four characters; a final group of one (two)
    bytes becomes two (three) characters and two (one) padding signs. *)
Definition b64_digit (v : Z) : ascii :=
  if v <? 26 then ascii_of_nat (Z.to_nat (65 + v)) else if v <? 52 then ascii_of_nat (Z.to_nat (97 + (v - 26)))
  else if v <? 62 then ascii_of_nat (Z.to_nat (48 + (v - 52))) else if v =? 62 then "+"%char else "/"%char.
Fixpoint rfc4648 (s : string) : string :=
  match s with
  | EmptyString => EmptyString
  | String x EmptyString =>
      let n := 16 * code x in String (b64_digit (n / 64)) (String (b64_digit (n mod 64)) "==")
  | String x (String y EmptyString) =>
      let n := 4 * (256 * code x + code y) in
      String (b64_digit (n / 4096)) (String (b64_digit (n / 64 mod 64)) (String (b64_digit (n mod 64)) "="))
  | String x (String y (String z s')) =>
      let n := 65536 * code x + 256 * code y + code z in
      String (b64_digit (n / 262144)) (String (b64_digit (n / 4096 mod 64))
        (String (b64_digit (n / 64 mod 64)) (String (b64_digit (n mod 64)) (rfc4648 s'))))
  end.
