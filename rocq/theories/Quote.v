(* Identifier quoting. *)
From Verif Require Export Ast.

Section Quote.
  Context {O : Oracle}.

  (* strconv.IsPrint: U+0020..U+007E, and the oracle above U+007F. *)
  Definition is_print (r : N) : bool :=
    if (r <? 128)%N then between 32 126 r else o_print r.

  Definition bslash : ascii := "\"%char.

  (* The two-character escapes of strconv.Quote. *)
  Definition short_escape (r : N) : option ascii :=
    (if r =? 7 then Some "a"%char
     else if r =? 8 then Some "b"%char
     else if r =? 12 then Some "f"%char
     else if r =? 10 then Some "n"%char
     else if r =? 13 then Some "r"%char
     else if r =? 9 then Some "t"%char
     else if r =? 11 then Some "v"%char
     else None)%N.

  (* strconv.appendEscapedRune and the \x case of appendQuotedWith, for one chunk. *)
  Definition quote_chunk (c : chunk) : string :=
    match c with
    | CBad b => String bslash (String "x" (hex_digits 2 (byte b)))
    | CRune r bs =>
      if (r =? 34)%N || (r =? 92)%N then String bslash bs
      else if is_print r then bs
      else match short_escape r with
           | Some a => String bslash (str1 a)
           | None =>
             if ((r <? 32) || (r =? 127))%N then String bslash (String "x" (hex_digits 2 r))
             else if (r <? 65536)%N then String bslash (String "u" (hex_digits 4 r))
             else String bslash (String "U" (hex_digits 8 r))
           end
    end.

  (* strconv.Quote *)
  Definition go_quote (s : string) : string :=
    dq ++ concat_str (map quote_chunk (chunks s)) ++ dq.

  (* stmt/stmt.go:19-26 quote *)
  Definition quote (ident : string) : string :=
    join_with "." (map go_quote (split_on "." ident)).
End Quote.
