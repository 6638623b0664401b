(* Model of the parts of Go's string handling that the code uses.
   A Go string is a sequence of bytes: here a Coq [string], one [ascii] per byte. *)
From Coq Require Export String Ascii List NArith ZArith Bool Lia.
From Coq Require Import DecimalString.
Export ListNotations.
Open Scope list_scope.
Open Scope string_scope.

(* ------------------------------------------------------------------------- *)
(* Bytes                                                                      *)
(* ------------------------------------------------------------------------- *)

(* The numeric value of a byte. *)
Definition byte (a : ascii) : N := N_of_ascii a.

(* lo <= x <= hi *)
Definition between (lo hi x : N) : bool := ((lo <=? x) && (x <=? hi))%N.

(* One-byte string. *)
Definition str1 (a : ascii) : string := String a EmptyString.

(* Line feed, carriage return, tab and double quote as one-byte strings. *)
Definition nl : string := str1 "010".
Definition cr : string := str1 "013".
Definition tab : string := str1 "009".
Definition dq : string := str1 """".

(* ------------------------------------------------------------------------- *)
(* UTF-8                                                                      *)
(* ------------------------------------------------------------------------- *)

(* One step of `for _, r := range s`, of utf8.DecodeRuneInString and of bufio's
   ReadRune: either a well-formed sequence with its rune, or one bad byte, which
   Go reports as U+FFFD with width 1. *)
Inductive chunk :=
| CRune (r : N) (bytes : string)
| CBad (b : ascii).

Definition chunk_bytes (c : chunk) : string :=
  match c with CRune _ bs => bs | CBad b => str1 b end.

(* U+FFFD *)
Definition rune_error : N := 65533.

Definition chunk_rune (c : chunk) : N :=
  match c with CRune r _ => r | CBad _ => rune_error end.

Definition is_cont (b : N) : bool := between 128 191 b.

(* Second-byte range of a three-byte sequence (Go: acceptRanges; excludes overlong
   forms and surrogates). *)
Definition ok3 (b0 b1 : N) : bool :=
  (((b0 =? 224) && between 160 191 b1)
   || ((between 225 236 b0 || between 238 239 b0) && is_cont b1)
   || ((b0 =? 237) && between 128 159 b1))%N.

(* Second-byte range of a four-byte sequence (excludes overlong forms and runes
   above U+10FFFF). *)
Definition ok4 (b0 b1 : N) : bool :=
  (((b0 =? 240) && between 144 191 b1)
   || (between 241 243 b0 && is_cont b1)
   || ((b0 =? 244) && between 128 143 b1))%N.

Definition rune2 (b0 b1 : N) : N := ((b0 - 192) * 64 + (b1 - 128))%N.
Definition rune3 (b0 b1 b2 : N) : N :=
  ((b0 - 224) * 4096 + (b1 - 128) * 64 + (b2 - 128))%N.
Definition rune4 (b0 b1 b2 b3 : N) : N :=
  ((b0 - 240) * 262144 + (b1 - 128) * 4096 + (b2 - 128) * 64 + (b3 - 128))%N.

(* Go unicode/utf8.DecodeRuneInString, iterated over the whole string. *)
Fixpoint chunks (s : string) : list chunk :=
  match s with
  | EmptyString => []
  | String a s1 =>
    if (byte a <? 128)%N then CRune (byte a) (str1 a) :: chunks s1 else
    match s1 with
    | EmptyString => [CBad a]
    | String b s2 =>
      if between 194 223 (byte a) && is_cont (byte b)
      then CRune (rune2 (byte a) (byte b)) (String a (str1 b)) :: chunks s2 else
      match s2 with
      | EmptyString => CBad a :: chunks s1
      | String c s3 =>
        if ok3 (byte a) (byte b) && is_cont (byte c)
        then CRune (rune3 (byte a) (byte b) (byte c)) (String a (String b (str1 c))) :: chunks s3 else
        match s3 with
        | EmptyString => CBad a :: chunks s1
        | String d s4 =>
          if ok4 (byte a) (byte b) && is_cont (byte c) && is_cont (byte d)
          then CRune (rune4 (byte a) (byte b) (byte c) (byte d))
                     (String a (String b (String c (str1 d)))) :: chunks s4
          else CBad a :: chunks s1
        end
      end
    end
  end.

(* The runes that `range s` yields. *)
Definition runes (s : string) : list N := map chunk_rune (chunks s).

Definition chunk_ok (c : chunk) : bool :=
  match c with CRune _ _ => true | CBad _ => false end.

(* utf8.ValidString *)
Definition utf8_valid (s : string) : bool := forallb chunk_ok (chunks s).

(* utf8.ValidRune *)
Definition valid_rune (r : N) : bool :=
  (r <? 55296)%N || between 57344 1114111 r.

Definition chr (n : N) : ascii := ascii_of_N n.

(* utf8.EncodeRune; also bytes.Buffer.WriteRune and string(rune). *)
Definition encode_rune (r : N) : string :=
  (if r <? 128 then str1 (chr r)
   else if r <? 2048 then String (chr (192 + r / 64)) (str1 (chr (128 + r mod 64)))
   else if negb (valid_rune r) then
     String (chr 239) (String (chr 191) (str1 (chr 189)))
   else if r <? 65536 then
     String (chr (224 + r / 4096)) (String (chr (128 + (r / 64) mod 64)) (str1 (chr (128 + r mod 64))))
   else
     String (chr (240 + r / 262144)) (String (chr (128 + (r / 4096) mod 64))
       (String (chr (128 + (r / 64) mod 64)) (str1 (chr (128 + r mod 64))))))%N.

(* ------------------------------------------------------------------------- *)
(* strings.Split, Join, TrimSpace                                             *)
(* ------------------------------------------------------------------------- *)

(* strings.Split(s, sep) for a one-byte separator: never returns an empty list. *)
Fixpoint split_on (sep : ascii) (s : string) : list string :=
  match s with
  | EmptyString => [EmptyString]
  | String a s' =>
    if Ascii.eqb a sep then EmptyString :: split_on sep s'
    else match split_on sep s' with
         | [] => [str1 a]
         | p :: ps => String a p :: ps
         end
  end.

(* strings.Join(l, sep) *)
Fixpoint join_with (sep : string) (l : list string) : string :=
  match l with
  | [] => ""
  | [p] => p
  | p :: ps => p ++ sep ++ join_with sep ps
  end.

(* Concatenation of a list of strings. *)
Fixpoint concat_str (l : list string) : string :=
  match l with [] => "" | p :: ps => p ++ concat_str ps end.

(* unicode.IsSpace: the ASCII spaces, U+0085, U+00A0 and category Z/White_Space. *)
Definition is_space (r : N) : bool :=
  (between 9 13 r || (r =? 32) || (r =? 133) || (r =? 160) || (r =? 5760)
   || between 8192 8202 r || (r =? 8232) || (r =? 8233) || (r =? 8239)
   || (r =? 8287) || (r =? 12288))%N.

Definition chunk_space (c : chunk) : bool :=
  match c with CRune r _ => is_space r | CBad _ => false end.

Fixpoint drop_while {A} (f : A -> bool) (l : list A) : list A :=
  match l with
  | [] => []
  | x :: xs => if f x then drop_while f xs else l
  end.

(* strings.TrimSpace. Decoding from the right (DecodeLastRuneInString) sees the same
   runes as decoding from the left: a lead byte is never part of another sequence. *)
Definition trim_space (s : string) : string :=
  concat_str (map chunk_bytes
    (rev (drop_while chunk_space (rev (drop_while chunk_space (chunks s)))))).

(* ------------------------------------------------------------------------- *)
(* Numbers                                                                    *)
(* ------------------------------------------------------------------------- *)

(* strconv.FormatUint(n, 10) *)
Definition string_of_N (n : N) : string := NilZero.string_of_uint (N.to_uint n).

(* strconv.FormatInt(z, 10) *)
Definition string_of_Z (z : Z) : string :=
  (if (z <? 0)%Z then "-" else "") ++ string_of_N (Z.abs_N z).

(* fmt.Sprintf("%d", n) for a length *)
Definition string_of_nat (n : nat) : string := string_of_N (N.of_nat n).

Definition digit_val (a : ascii) : option N :=
  if between 48 57 (byte a) then Some (byte a - 48)%N else None.

(* The digit loop of strconv.ParseUint in base 10, without the overflow test (the
   caller tests the range, which accepts the same strings). *)
Fixpoint parse_digits (s : string) (acc : N) : option N :=
  match s with
  | EmptyString => Some acc
  | String a s' =>
    match digit_val a with
    | Some d => parse_digits s' (10 * acc + d)%N
    | None => None
    end
  end.

Definition parse_uint (s : string) : option N :=
  match s with EmptyString => None | _ => parse_digits s 0 end.

Definition int64_ok (z : Z) : bool :=
  ((- 9223372036854775808 <=? z) && (z <=? 9223372036854775807))%Z.

(* strconv.ParseInt(s, 10, 64): None is an error. *)
Definition parse_int (s : string) : option Z :=
  let check (o : option Z) :=
    match o with Some z => if int64_ok z then Some z else None | None => None end in
  match s with
  | String a s' =>
    if Ascii.eqb a "-"%char then
      check (option_map (fun n => (- Z.of_N n)%Z) (parse_uint s'))
    else if Ascii.eqb a "+"%char then
      check (option_map Z.of_N (parse_uint s'))
    else check (option_map Z.of_N (parse_uint s))
  | EmptyString => None
  end.

(* Lower-case hexadecimal digit. *)
Definition hex_digit (n : N) : ascii :=
  chr (if (n <? 10)%N then 48 + n else 87 + n)%N.

(* The n hexadecimal digits of r, most significant first. *)
Fixpoint hex_digits (n : nat) (r : N) : string :=
  match n with
  | O => ""
  | S n' => String (hex_digit ((r / (16 ^ N.of_nat n')) mod 16)%N) (hex_digits n' r)
  end.

(* hex.EncodeToString *)
Fixpoint hex_encode (s : string) : string :=
  match s with
  | EmptyString => ""
  | String a s' => hex_digits 2 (byte a) ++ hex_encode s'
  end.

(* ------------------------------------------------------------------------- *)
(* Comparison of Go strings (bytewise lexicographic order).                   *)
(* ------------------------------------------------------------------------- *)

Fixpoint str_ltb (s t : string) : bool :=
  match s, t with
  | _, EmptyString => false
  | EmptyString, String _ _ => true
  | String a s', String b t' =>
    (byte a <? byte b)%N || ((byte a =? byte b)%N && str_ltb s' t')
  end.

(* strings.ToUpper on ASCII letters. For other runes ToUpper may change the text, but
   the only caller (token.Lookup) compares the result with ASCII keywords and the lexer
   passes it ASCII only. *)
Definition upper_ascii (a : ascii) : ascii :=
  if between 97 122 (byte a) then chr (byte a - 32) else a.

Fixpoint to_upper (s : string) : string :=
  match s with
  | EmptyString => ""
  | String a s' => String (upper_ascii a) (to_upper s')
  end.
