(** The CER (ASN.1) encoder and token decoder, /repo/src/libaktualizr-posix/asn1/asn1-cer.cc.
    Bytes are integers 0..255. Simplification: positions are unbounded integers (inputs shorter than 2^31 bytes). *)
From Verif Require Import Base.

Definition bytes := list Z.
Definition blen (b : bytes) : Z := Z.of_nat (List.length b).
(** operator[] of a const std::string at a valid position or at size(). *)
Definition byte_at (b : bytes) (i : Z) : Z := nth (Z.to_nat i) b 0.
(** substr(pos): pos <= size. *)
Definition drop (n : Z) (b : bytes) : bytes := skipn (Z.to_nat n) b.
Definition take (n : Z) (b : bytes) : bytes := firstn (Z.to_nat n) b.

Definition cer_max_primitive : Z := 1000. (* asn1-cer.h:12 *)

(** asn1-cer.cc:12-16: the little-endian bytes of a length (size_t, at most eight). *)
Fixpoint le_bytes (fuel : nat) (n : Z) : bytes :=
  match fuel with
  | O => []
  | S f => (n mod 256) :: (if n / 256 =? 0 then [] else le_bytes f (n / 256))
  end.
(** asn1-cer.cc:4-22 cer_encode_length *)
Definition encode_length (len : Z) : bytes :=
  if len <=? 127 then [len] else
  let l := le_bytes 8 len in rev (l ++ [Z.lor (blen l) 128]).

(** asn1-cer.cc:32-35: the loop of cer_encode_integer; the result is the bytes pushed and the final number.
    shr8 (25-27) is an arithmetic shift, [n / 256] rounded down. *)
Fixpoint int_loop (fuel : nat) (n : Z) : bytes * Z :=
  match fuel with
  | O => ([], n)
  | S f => let n' := n / 256 in
           if (n' =? 0) || (n' =? -1) then ([n mod 256], n')
           else let (l, m) := int_loop f n' in ((n mod 256) :: l, m)
  end.
(** asn1-cer.cc:29-46 cer_encode_integer (of an int32_t: at most four iterations). *)
Definition encode_integer (n : Z) : bytes :=
  let (l, m) := int_loop 4 n in
  let high := negb (Z.land (byte_at l 0) 128 =? 0) in
  let l' := if high && (m =? 0) then l ++ [0] else if negb high && (m =? -1) then l ++ [255] else l in
  rev (l' ++ [blen l']).

(** asn1-cer.cc:59-70: the chunks of a long string. *)
Fixpoint encode_chunks (fuel : nat) (s : bytes) (tag : Z) : bytes :=
  match fuel with
  | O => []
  | S f => match s with
           | [] => []
           | _ => let size := if cer_max_primitive <? blen s then cer_max_primitive else blen s in
                  tag :: (encode_length size ++ take size s) ++ encode_chunks f (drop size s) tag
           end
  end.
(** asn1-cer.cc:48-71 cer_encode_string *)
Definition encode_string (s : bytes) (tag : Z) : bytes :=
  if blen s <=? cer_max_primitive then encode_length (blen s) ++ s
  else 128 :: encode_chunks (List.length s) s tag ++ [0; 0].

(** asn1-cer.h:21-42 *)
Definition kCerUnknown := 255.
Definition kCerEnd := 0.
Definition kCerSequence := 16.
Definition is_int_tag (t : Z) : bool := (t =? 2) || (t =? 1) || (t =? 10).
Definition is_string_tag (t : Z) : bool := (t =? 4) || (t =? 12) || ((18 <=? t) && (t <=? 29)).

(** asn1-cer.cc:73-103 cer_decode_length: [LenUB] is a read beyond the string's terminator, otherwise the length (-1 for
    indefinite, -2 for unsupported) and the end position. *)
Inductive lenres := LenOk (len endpos : Z) | LenUB.
Fixpoint be_value (l : bytes) (acc : Z) : Z := match l with [] => acc | b :: l' => be_value l' (256 * acc + b) end.
Definition decode_length (c : bytes) : lenres :=
  let b := byte_at c 0 in
  if b =? 128 then LenOk (-1) 1
  else if Z.land b 128 =? 0 then LenOk b 1
  else let n := Z.land b 127 in
       if 4 <? n then LenOk (-2) (n + 1)
       else if blen c <? n then LenUB
       else let v := be_value (map (fun i => byte_at c (Z.of_nat i)) (seq 1 (Z.to_nat n))) 0 in
            LenOk (if v <? 2147483648 then v else -2) (n + 1).

(** Outcome of cer_decode_token: the token with end position and the int and string parameters (if set); [DThrow] =
    std::out_of_range from substr; [DUB] = undefined behaviour; [DFuel] = the loop did not end within the fuel. *)
Inductive dres := DTok (tag endpos : Z) (ip : option Z) (sp : option bytes) | DThrow | DUB | DFuel.
Definition d_unknown := DTok kCerUnknown 0 None None.

(** asn1-cer.cc:163-173. [sgn] says whether plain char is signed on the platform (x86) or not (ARM): the OR of content[i]
    then sign-extends every byte. The result is that of two's complement arithmetic on 32 bits. *)
Definition wrap32 (z : Z) : Z := let m := z mod 4294967296 in if m <? 2147483648 then m else m - 4294967296.
Definition char_val (sgn : bool) (b : Z) : Z := if sgn && (128 <=? b) then b - 256 else b.
Fixpoint int_bytes (sgn : bool) (l : bytes) (acc : Z) : Z :=
  match l with [] => acc | b :: l' => int_bytes sgn l' (Z.lor (wrap32 (256 * acc)) (char_val sgn b)) end.
(** asn1-cer.cc:169-173, i = token_len .. 3 *)
Fixpoint sign_fill (n : nat) (i : Z) (acc : Z) : Z :=
  match n with O => acc | S k => if i <? 4 then sign_fill k (i + 1) (Z.lor acc (wrap32 (255 * 2 ^ (8 * i)))) else acc end.
Definition decode_int (sgn : bool) (content : bytes) (token_len : Z) : Z :=
  let r := int_bytes sgn content 0 in
  if Z.land (byte_at content 0) 128 =? 0 then r else sign_fill 4 token_len r.

(** asn1-cer.cc:105-242 cer_decode_token. The recursive call and the loop of lines 205-222 both consume fuel. *)
Section Decode.
Context (sgn : bool).
Fixpoint decode_token (fuel : nat) (ber : bytes) : dres :=
  match fuel with
  | O => DFuel
  | S f =>
      if blen ber <? 2 then d_unknown else
      let b0 := byte_at ber 0 in
      let cls := Z.land b0 192 in
      let tag := Z.land b0 31 in
      let constructed := negb (Z.land b0 32 =? 0) in
      match decode_length (drop 1 ber) with
      | LenUB => DUB
      | LenOk len lend =>
          if len <? -1 then d_unknown
          else if negb (len =? -1) && (blen ber <? 1 + lend) then DThrow
          else
          let content := if len =? -1 then drop 2 ber else take len (drop (1 + lend) ber) in
          if cls =? 0 then
            if tag =? kCerSequence then
              if constructed then DTok kCerSequence (lend + 1) (Some len) None else d_unknown
            else if tag =? kCerEnd then
              if len =? 0 then DTok kCerEnd 0 None None else d_unknown
            else if is_int_tag tag then
              if constructed || (len =? -1) then d_unknown
              else if (4 <? blen content) || (blen content <? 1) then d_unknown
              else DTok tag (1 + lend + len) (Some (decode_int sgn content len)) None
            else if is_string_tag tag then
              if 0 <=? len then DTok tag (1 + lend + len) None (Some content)
              else string_loop f ber tag (1 + lend) []
            else d_unknown
          else if constructed then DTok (Z.lor tag cls) (lend + 1) (Some len) None else d_unknown
      end
  end
with string_loop (fuel : nat) (ber : bytes) (tag pos : Z) (acc : bytes) : dres :=
  match fuel with
  | O => DFuel
  | S f =>
      if blen ber <? pos then DThrow else
      match decode_token f (drop pos ber) with
      | DTok t e _ sp =>
          if t =? kCerEnd then DTok tag 0 None (Some acc)
          else if negb (t =? tag) then d_unknown
          else string_loop f ber tag (pos + e) (acc ++ match sp with Some s => s | None => [] end)
      | x => x
      end
  end.
End Decode.
