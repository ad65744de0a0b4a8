(** Model of the parts of [core] that src/string.rs relies on: [char] encoding and decoding, UTF-8
    validation, character boundaries and UTF-16 decoding.  A [char] and a byte are numbers. *)
From Verif Require Export Base.

(** core char::len_utf8 (used at src/string.rs 125, 137, 159, 275, 293). *)
Definition len_utf8 (c : N) : N :=
  if c <? 128 then 1 else if c <? 2048 then 2 else if c <? 65536 then 3 else 4.

(** core char::encode_utf8_raw (src/string.rs 129, 176, 287, 415). *)
Definition encode_utf8 (c : N) : list N :=
  let cont x := N.lor (N.land x 63) 128 in
  if c <? 128 then [c]
  else if c <? 2048 then [N.lor (N.land (N.shiftr c 6) 31) 192; cont c]
  else if c <? 65536 then
    [N.lor (N.land (N.shiftr c 12) 15) 224; cont (N.shiftr c 6); cont c]
  else [N.lor (N.land (N.shiftr c 18) 7) 240; cont (N.shiftr c 12); cont (N.shiftr c 6); cont c].

(** A sequence of characters as UTF-8 (pushing them one after the other, src/string.rs 129). *)
Definition encode_all (cs : list N) : list N := concat (encode_utf8 <$> cs).

(** [char::from_u32]: is this number a [char]? *)
Definition is_char (c : N) : bool := (c <? 55296) || ((57343 <? c) && (c <? 1114112)).

(** Result of decoding one character: end of input, a character, or (only possible when the bytes
    are not UTF-8) undefined behaviour: reading past the end or making an invalid [char]. *)
Inductive decoded := DEnd | DChar (c : N) | DBad.
(** [char::from_u32_unchecked] is undefined for numbers that are no characters. *)
Definition decoded_char (c : N) : decoded := if is_char c then DChar c else DBad.

(** core str::validations::next_code_point, [Chars::next] (src/string.rs 153, 274). *)
Definition next_code_point (bs : list N) : decoded :=
  match bs with
  | [] => DEnd
  | x :: bs =>
      if x <? 128 then decoded_char x else
      let init := N.land x 31 in
      match bs with
      | [] => DBad
      | y :: bs =>
          let y6 := N.land y 63 in
          if x <? 224 then decoded_char (N.lor (N.shiftl init 6) y6) else
          match bs with
          | [] => DBad
          | z :: bs =>
              let yz := N.lor (N.shiftl y6 6) (N.land z 63) in
              if x <? 240 then decoded_char (N.lor (N.shiftl init 12) yz) else
              match bs with
              | [] => DBad
              | w :: _ =>
                  decoded_char (N.lor (N.shiftl (N.land init 7) 18)
                                      (N.lor (N.shiftl yz 6) (N.land w 63)))
              end
          end
      end
  end.

(** core utf8_is_cont_byte: [(byte as i8) < -64]. *)
Definition is_cont (b : N) : bool := (128 <=? b) && (b <? 192).

(** core str::validations::next_code_point_reverse, [Chars::next_back] (src/string.rs 135).  The
    argument is the reversed list of bytes. *)
Definition next_code_point_reverse (rev_bs : list N) : decoded :=
  match rev_bs with
  | [] => DEnd
  | w :: bs =>
      if w <? 128 then decoded_char w else
      match bs with
      | [] => DBad
      | z :: bs =>
          if negb (is_cont z)
          then decoded_char (N.lor (N.shiftl (N.land z 31) 6) (N.land w 63)) else
          match bs with
          | [] => DBad
          | y :: bs =>
              if negb (is_cont y)
              then decoded_char
                     (N.lor (N.shiftl (N.lor (N.shiftl (N.land y 15) 6) (N.land z 63)) 6)
                            (N.land w 63)) else
              match bs with
              | [] => DBad
              | x :: _ =>
                  decoded_char
                    (N.lor (N.shiftl (N.lor (N.shiftl (N.lor (N.shiftl (N.land x 7) 6)
                                                              (N.land y 63)) 6)
                                            (N.land z 63)) 6)
                           (N.land w 63))
              end
          end
      end
  end.

(** core str::is_char_boundary (src/string.rs 173, 182, 204, 212; slicing by ranges). *)
Definition is_char_boundary (bs : list N) (i : N) : bool :=
  if i =? 0 then true
  else if llen bs <=? i then i =? llen bs
  else match bs !! N.to_nat i with Some b => negb (is_cont b) | None => false end.

(** The patterns [a..=b] of core's [str::validations]. *)
Definition in_range (a b x : N) : bool := (a <=? x) && (x <=? b).

(** core run_utf8_validation (src/string.rs 227), without the ASCII block shortcut, which has the
    same result; bytes of a [&[u8]] are below 256. *)
Fixpoint utf8_valid (bs : list N) : bool :=
  match bs with
  | [] => true
  | x :: r1 =>
      if x <? 128 then utf8_valid r1
      else if in_range 194 223 x then
        match r1 with y :: r2 => is_cont y && utf8_valid r2 | _ => false end
      else if in_range 224 239 x then
        match r1 with
        | y :: z :: r3 =>
            ((x =? 224) && in_range 160 191 y || in_range 225 236 x && in_range 128 191 y
             || (x =? 237) && in_range 128 159 y || in_range 238 239 x && in_range 128 191 y)
            && is_cont z && utf8_valid r3
        | _ => false
        end
      else if in_range 240 244 x then
        match r1 with
        | y :: z :: w :: r4 =>
            ((x =? 240) && in_range 144 191 y || in_range 241 243 x && in_range 128 191 y
             || (x =? 244) && in_range 128 143 y)
            && is_cont z && is_cont w && utf8_valid r4
        | _ => false
        end
      else false
  end.

(** core char::decode_utf16 (src/string.rs 237): [DecodeUtf16::next] until the end or the first
    error.  The unit read after an unpaired high surrogate is put back; it does not matter because
    the caller stops at the first error. *)
Fixpoint decode_utf16 (us : list N) : list (option N) :=
  match us with
  | [] => []
  | u :: r =>
      if negb (N.land u 63488 =? 55296) then Some u :: decode_utf16 r
      else if 56320 <=? u then [None]
      else match r with
           | [] => [None]
           | u2 :: r' =>
               if (u2 <? 56320) || (57343 <? u2) then [None]
               else Some (N.lor (N.shiftl (N.land u 1023) 10) (N.land u2 1023) + 65536)
                    :: decode_utf16 r'
           end
  end.

(** core [u8::to_ascii_uppercase] / [to_ascii_lowercase], behind [make_ascii_*case] on [&mut str]. *)
Definition ascii_upper (b : N) : N := if in_range 97 122 b then b - 32 else b.
(** core [u8::to_ascii_lowercase], behind [make_ascii_lowercase] on [&mut str] (src/string.rs
    587-626). *)
Definition ascii_lower (b : N) : N := if in_range 65 90 b then b + 32 else b.
