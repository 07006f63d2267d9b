(** Model of the tokenizer of sqlparser, sqlparser/token.go, for tokenizers made by
    [NewStringTokenizer] (the only ones sqldef makes: [InStream] is nil, the buffer is the
    whole text).

    The fields [lastChar], [buf], [bufPos] and [bufSize] are one string, the characters not
    yet passed: its first character is [lastChar], the empty string means [eofChar].  Before
    the first call [lastChar] is 0 and nothing is passed: a NUL character before the text.
    [Position] (used in error messages only) and [LastError] (never set without [InStream])
    are left out.  A nil token value and an empty one are not distinguished. *)
From Coq Require Import String Ascii List ZArith Bool Arith.
From Verif Require Import GoStr Ast Keywords.
Import ListNotations.
Local Open Scope string_scope.

(** What [Scan] returns first: 0, a character, or one of the token constants of parser.go,
    which are all greater than 255. *)
Inductive kind := KEnd | KChar (c : ascii) | KTok (name : string).

(** token.go 44-62 *)
Inductive tokenizer := mkTokenizer {
  tk_input : string;
  tk_special : option tokenizer;
  tk_posvar : nat;
  tk_force_eof : bool;
  tk_multi : bool;
  tk_mode : mode }.

Definition c_nul : ascii := ascii_of_nat 0.
Definition c_tab : ascii := ascii_of_nat 9.
Definition c_lf : ascii := ascii_of_nat 10.
Definition c_cr : ascii := ascii_of_nat 13.
Definition c_dq : ascii := ascii_of_nat 34.

(** token.go 66-73: [NewStringTokenizer] *)
Definition new_tokenizer (m : mode) (sql : string) : tokenizer :=
  mkTokenizer (String c_nul sql) None 0 false false m.

Definition set_input (s : string) (t : tokenizer) : tokenizer :=
  mkTokenizer s (tk_special t) (tk_posvar t) (tk_force_eof t) (tk_multi t) (tk_mode t).
Definition set_special (x : option tokenizer) (t : tokenizer) : tokenizer :=
  mkTokenizer (tk_input t) x (tk_posvar t) (tk_force_eof t) (tk_multi t) (tk_mode t).
Definition count_posvar (t : tokenizer) : tokenizer :=
  mkTokenizer (tk_input t) (tk_special t) (S (tk_posvar t)) (tk_force_eof t) (tk_multi t) (tk_mode t).

Definition between (lo hi : ascii) (c : ascii) : bool :=
  (N_of_ascii lo <=? N_of_ascii c)%N && (N_of_ascii c <=? N_of_ascii hi)%N.
Definition one_of (l : list ascii) (c : ascii) : bool := existsb (Ascii.eqb c) l.

(** token.go 1007-1009, 1011-1013, 1027-1029 *)
Definition is_letter (c : ascii) : bool :=
  between "a" "z" c || between "A" "Z" c || Ascii.eqb c "_" || Ascii.eqb c "@".
Definition is_carat (c : ascii) : bool := one_of ["."; "'"; c_dq; "`"]%char c.
Definition is_digit (c : ascii) : bool := between "0" "9" c.

(** token.go 1015-1025: [digitVal(c) < base] for the three bases used. *)
Definition is_hex_digit (c : ascii) : bool := is_digit c || between "a" "f" c || between "A" "F" c.
Definition is_bit (c : ascii) : bool := between "0" "1" c.

(** The loops of the form [for p(tkn.lastChar) { buffer.WriteByte(lastChar); next() }]: what
    they write and what is left. *)
Fixpoint span (p : ascii -> bool) (s : string) : string * string :=
  match s with
  | EmptyString => (EmptyString, EmptyString)
  | String c r => if p c then let (a, b) := span p r in (String c a, b) else (EmptyString, s)
  end.

(** [tkn.lastChar == c] and [p(tkn.lastChar)] *)
Definition at_char (c : ascii) (s : string) : bool :=
  match s with String d _ => Ascii.eqb d c | EmptyString => false end.
Definition at_class (p : ascii -> bool) (s : string) : bool :=
  match s with String d _ => p d | EmptyString => false end.
(** [tkn.next()] *)
Definition next (s : string) : string := match s with String _ r => r | EmptyString => EmptyString end.

(** A token kind, its value and the characters not yet passed. *)
Definition lexed := (kind * string * string)%type.

Definition lex_error : kind := KTok "LEX_ERROR".

(** token.go 683-689, 691-697 *)
Fixpoint skip_statement (s : string) : string :=
  match s with
  | EmptyString => EmptyString
  | String c r => if Ascii.eqb c ";" then s else skip_statement r
  end.
Definition is_blank (c : ascii) : bool := one_of [" "; c_lf; c_cr; c_tab]%char c.
Definition skip_blank (s : string) : string := snd (span is_blank s).

(** token.go 699-716 *)
Definition scan_identifier (first : ascii) (sysvar : bool) (s : string) : lexed :=
  let (w, r) := span (fun c => is_letter c || is_digit c || (sysvar && is_carat c)) s in
  let word := String first w in
  match find_keyword keywords (to_lower word) with
  | Some k => (KTok k, to_lower word, r)
  | None => if String.eqb (to_lower word) "dual" then (KTok "ID", to_lower word, r) else (KTok "ID", word, r)
  end.

(** token.go 718-729 *)
Definition scan_hex (s : string) : lexed :=
  let (b, r) := span is_hex_digit s in
  if at_char "'" r then
    if Nat.even (String.length b) then (KTok "HEX", b, next r) else (lex_error, b, next r)
  else (lex_error, b, r).

(** token.go 731-739 *)
Definition scan_bit_literal (s : string) : lexed :=
  let (b, r) := span is_bit s in
  if at_char "'" r then (KTok "BIT_LITERAL", b, next r) else (lex_error, b, r).

(** token.go 741-770: the loop; the flag is [backTickSeen], the result says whether the
    closing quote was found. *)
Fixpoint literal_identifier (sep : ascii) (seen : bool) (s : string) : bool * string * string :=
  match s with
  | EmptyString => (seen, EmptyString, EmptyString)
  | String c r =>
      if seen then
        if Ascii.eqb c sep then
          let '(ok, v, rest) := literal_identifier sep false r in (ok, String sep v, rest)
        else (true, EmptyString, s)
      else if Ascii.eqb c sep then literal_identifier sep true r
      else let '(ok, v, rest) := literal_identifier sep false r in (ok, String c v, rest)
  end.
Definition scan_literal_identifier (sep : ascii) (s : string) : lexed :=
  match literal_identifier sep false s with
  | (false, v, r) => (lex_error, v, r)
  | (true, v, r) => if String.eqb v "" then (lex_error, v, r) else (KTok "ID", v, r)
  end.

(** token.go 789-794 *)
Definition bind_name (tok : kind) (buf s : string) : lexed :=
  if at_class is_letter s then
    let (w, r) := span (fun c => is_letter c || is_digit c || Ascii.eqb c ".") s in (tok, buf ++ w, r)
  else (lex_error, buf, s).

(** token.go 772-795; the input begins with the colon. *)
Definition scan_bind_var (m : mode) (s : string) : lexed :=
  let r := next s in
  if at_char ":" r then
    match m with
    | Postgres => (KTok "TYPECAST", "::", next r)
    | _ => bind_name (KTok "LIST_ARG") "::" (next r)
    end
  else bind_name (KTok "VALUE_ARG") ":" r.

(** token.go 836-842, the label [exponent]. *)
Definition scan_exponent (tok : kind) (buf s : string) : lexed :=
  if at_class (one_of ["e"; "E"]%char) s then
    let buf := buf ++ take 1 s in
    let s := next s in
    let (buf, s) := if at_class (one_of ["+"; "-"]%char) s then (buf ++ take 1 s, next s) else (buf, s) in
    let (w, r) := span is_digit s in
    (KTok "FLOAT", buf ++ w, r)
  else (tok, buf, s).

(** token.go 844-850, the label [exit]. *)
Definition number_exit (x : lexed) : lexed :=
  let '(tok, buf, r) := x in
  if at_class is_letter r then (lex_error, buf, r) else (tok, buf, r).

(** token.go 803-850 *)
Definition scan_number (seen_decimal_point : bool) (s : string) : lexed :=
  number_exit
    (if seen_decimal_point then
       let (w, r) := span is_digit s in scan_exponent (KTok "FLOAT") ("." ++ w) r
     else
       let (buf, s) := if at_char "0" s then ("0", next s) else ("", s) in
       if String.eqb buf "0" && at_class (one_of ["x"; "X"]%char) s then
         let (w, r) := span is_hex_digit (next s) in (KTok "HEXNUM", buf ++ take 1 s ++ w, r)
       else
         let (w, r) := span is_digit s in
         let buf := buf ++ w in
         if at_char "." r then
           let (f, r') := span is_digit (next r) in
           scan_exponent (KTok "FLOAT") (buf ++ "." ++ f) r'
         else scan_exponent (KTok "INTEGRAL") buf r).

(** sqlparser/dependency/sqltypes/value.go 341-376: [encodeRef], [SQLEncodeMap],
    [SQLDecodeMap].  [None] is [DontEscape]; 255 does not occur in the tables. *)
Definition encode_ref : list (ascii * ascii) :=
  [(c_nul, "0"); ("'", "'"); (c_dq, c_dq); (ascii_of_nat 8, "b"); (c_lf, "n"); (c_cr, "r"); (c_tab, "t");
   (ascii_of_nat 26, "Z"); ("\", "\")]%char.
Definition sql_encode (c : ascii) : option ascii :=
  match find (fun p => Ascii.eqb (fst p) c) encode_ref with Some p => Some (snd p) | None => None end.
Definition sql_decode (c : ascii) : option ascii :=
  match find (fun p => Ascii.eqb (snd p) c) encode_ref with Some p => Some (fst p) | None => None end.

(** token.go 851-908: the loop.  The result says whether the closing delimiter was found; the
    scanning ahead inside the buffer passes characters one by one here. *)
Fixpoint string_body (delim : ascii) (s : string) : bool * string * string :=
  match s with
  | EmptyString => (false, EmptyString, EmptyString)
  | String c r =>
      if Ascii.eqb c "\" then
        match r with
        | EmptyString => (false, EmptyString, EmptyString)
        | String d r' =>
            let ch := match sql_decode d with Some x => x | None => d end in
            let '(ok, v, rest) := string_body delim r' in (ok, String ch v, rest)
        end
      else if Ascii.eqb c delim then
        match r with
        | EmptyString => (true, EmptyString, EmptyString)
        | String d r' =>
            if Ascii.eqb d delim then
              let '(ok, v, rest) := string_body delim r' in (ok, String delim v, rest)
            else (true, EmptyString, r)
        end
      else let '(ok, v, rest) := string_body delim r in (ok, String c v, rest)
  end.
Definition scan_string (delim : ascii) (s : string) : lexed :=
  match string_body delim s with
  | (true, v, r) => (KTok "STRING", v, r)
  | (false, v, r) => (lex_error, v, r)
  end.

(** token.go 910-921 *)
Definition scan_comment_type1 (prefix s : string) : lexed :=
  let (a, r) := span (fun c => negb (Ascii.eqb c c_lf)) s in
  match r with
  | EmptyString => (KTok "COMMENT", prefix ++ a, EmptyString)
  | String c r' => (KTok "COMMENT", prefix ++ a ++ String c EmptyString, r')
  end.

(** token.go 923-941 and 947-960, the loop: whether the end was found, the text before the
    end, what follows the end.  Without an end the text is everything. *)
Fixpoint comment_body (s : string) : bool * string * string :=
  match s with
  | EmptyString => (false, EmptyString, EmptyString)
  | String c r =>
      if Ascii.eqb c "*" && at_char "/" r then (true, EmptyString, next r)
      else let '(ok, v, rest) := comment_body r in (ok, String c v, rest)
  end.
Definition scan_comment_type2 (s : string) : lexed :=
  match comment_body s with
  | (true, v, r) => (KTok "COMMENT", "/*" ++ v ++ "*/", r)
  | (false, v, r) => (lex_error, "/*" ++ v, r)
  end.

(** sqlparser/comments.go, [ExtractMysqlComment], for the text between [/*!] and the end.
    [None]: no character ends the version, [sql[0:-1]] panics.  [unicode.IsDigit] and
    [unicode.IsSpace] are modelled on the ASCII range. *)
Fixpoint after_version (count : nat) (s : string) : option string :=
  match s with
  | EmptyString => None
  | String c r => if negb (is_digit c) || Nat.eqb count 6 then Some s else after_version (S count) r
  end.
Definition extract_mysql_comment (body : string) : option string :=
  match after_version 1 body with
  | Some s => Some (trim_space s)
  | None => None
  end.

(** The result of [Scan]. *)
Inductive scanned :=
| Token (k : kind) (value : string) (t : tokenizer)
| ScanPanic
| OutOfFuel.

Definition give (t : tokenizer) (x : lexed) : scanned :=
  let '(k, v, r) := x in Token k v (set_input r t).

(** token.go 943-964; the input begins with the exclamation mark.  [again] is [Scan]. *)
Definition scan_special_comment (again : tokenizer -> scanned) (t : tokenizer) (s : string) : scanned :=
  match comment_body (next s) with
  | (false, v, r) => give t (lex_error, "/*!" ++ v, r)
  | (true, v, r) =>
      match extract_mysql_comment v with
      | None => ScanPanic
      | Some sql => again (set_special (Some (new_tokenizer (tk_mode t) sql)) (set_input r t))
      end
  end.

Definition single_chars : list ascii := ["="; ","; ";"; "("; ")"; "["; "]"; "+"; "*"; "%"; "^"; "~"]%char.

(** token.go 566-680: the inner switch; [c] is the character just passed. *)
Definition scan_other (again : tokenizer -> scanned) (t : tokenizer) (c : ascii) (s : string) : scanned :=
  let char := give t (KChar c, "", s) in
  if one_of single_chars c then
    match tk_mode t with
    | Mssql => if Ascii.eqb c "[" then give t (scan_literal_identifier "]" s) else char
    | _ => char
    end
  else if Ascii.eqb c "&" then
    if at_char "&" s then give t (KTok "AND", "", next s) else char
  else if Ascii.eqb c "|" then
    if at_char "|" s then give t (KTok "OR", "", next s) else char
  else if Ascii.eqb c "?" then
    give (count_posvar t) (KTok "VALUE_ARG", ":v" ++ show_Z (Z.of_nat (S (tk_posvar t))), s)
  else if Ascii.eqb c "." then
    if at_class is_digit s then give t (scan_number true s) else char
  else if Ascii.eqb c "/" then
    if at_char "/" s then give t (scan_comment_type1 "//" (next s))
    else if at_char "*" s then
      if at_char "!" (next s) then scan_special_comment again t (next s)
      else give t (scan_comment_type2 (next s))
    else char
  else if Ascii.eqb c "#" then give t (scan_comment_type1 "#" s)
  else if Ascii.eqb c "-" then
    if at_class is_digit s then
      let '(k, v, r) := scan_number false s in give t (k, "-" ++ v, r)
    else if at_char "-" s then give t (scan_comment_type1 "--" (next s))
    else if at_char ">" s then
      if at_char ">" (next s) then give t (KTok "JSON_UNQUOTE_EXTRACT_OP", "", next (next s))
      else give t (KTok "JSON_EXTRACT_OP", "", next s)
    else char
  else if Ascii.eqb c "<" then
    if at_char ">" s then give t (KTok "NE", "", next s)
    else if at_char "<" s then give t (KTok "SHIFT_LEFT", "", next s)
    else if at_char "=" s then
      if at_char ">" (next s) then give t (KTok "NULL_SAFE_EQUAL", "", next (next s))
      else give t (KTok "LE", "", next s)
    else char
  else if Ascii.eqb c ">" then
    if at_char "=" s then give t (KTok "GE", "", next s)
    else if at_char ">" s then give t (KTok "SHIFT_RIGHT", "", next s)
    else char
  else if Ascii.eqb c "!" then
    if at_char "=" s then give t (KTok "NE", "", next s) else char
  else if Ascii.eqb c "'" then give t (scan_string "'" s)
  else if Ascii.eqb c c_dq then
    match tk_mode t with
    | Mysql => give t (scan_string c_dq s)
    | _ => give t (scan_literal_identifier c_dq s)
    end
  else if Ascii.eqb c "`" then
    match tk_mode t with
    | Postgres => give t (lex_error, String c "", s)
    | _ => give t (scan_literal_identifier "`" s)
    end
  else give t (lex_error, String c "", s).

(** token.go 538-561: words. *)
Definition scan_word (c : ascii) (s : string) : lexed :=
  if one_of ["X"; "x"]%char c && at_char "'" s then scan_hex (next s)
  else if one_of ["B"; "b"]%char c && at_char "'" s then scan_bit_literal (next s)
  else scan_identifier c (Ascii.eqb c "@" && at_char "@" s) s.

(** token.go 526-681, after the nested tokenizer is done with. *)
Definition scan_outer (again : tokenizer -> scanned) (t : tokenizer) : scanned :=
  let s := if at_char c_nul (tk_input t) then next (tk_input t) else tk_input t in
  if tk_force_eof t then give t (KEnd, "", skip_statement s)
  else
    match skip_blank s with
    | EmptyString => give t (KEnd, "", "")
    | String c r =>
        if is_letter c then give t (scan_word c r)
        else if is_digit c then give t (scan_number false (String c r))
        else if Ascii.eqb c ":" then give t (scan_bind_var (tk_mode t) (String c r))
        else if Ascii.eqb c ";" && tk_multi t then give t (KEnd, "", String c r)
        else scan_other again t c r
    end.

(** token.go 511-681: [Scan].  The recursion has no bound in Go; [ProofLexer] shows how much
    fuel is always enough. *)
Fixpoint scan (fuel : nat) (t : tokenizer) : scanned :=
  match fuel with
  | O => OutOfFuel
  | S n =>
      match tk_special t with
      | Some sp =>
          match scan n sp with
          | Token KEnd _ _ => scan_outer (scan n) (set_special None t)
          | Token k v sp' => Token k v (set_special (Some sp') t)
          | ScanPanic => ScanPanic
          | OutOfFuel => OutOfFuel
          end
      | None => scan_outer (scan n) t
      end
  end.

(** The characters a tokenizer still has to pass. *)
Fixpoint size (t : tokenizer) : nat :=
  String.length (tk_input t) + match tk_special t with Some sp => S (size sp) | None => 0 end.

Definition scan_token (t : tokenizer) : scanned := scan (S (size t)) t.

Definition is_comment (k : kind) : bool :=
  match k with KTok n => String.eqb n "COMMENT" | _ => false end.

(** token.go 480-491: [Lex], with [AllowComments] as an argument (the grammar sets it). *)
Fixpoint lex_fuel (fuel : nat) (allow : bool) (t : tokenizer) : scanned :=
  match fuel with
  | O => OutOfFuel
  | S n =>
      match scan_token t with
      | Token k v t' => if is_comment k && negb allow then lex_fuel n allow t' else Token k v t'
      | x => x
      end
  end.
Definition lex (allow : bool) (t : tokenizer) : scanned := lex_fuel (S (size t)) allow t.

(** All tokens up to the end of the input, comments left out. *)
Inductive stream :=
| Tokens (l : list (kind * string))
| StreamPanic
| StreamFuel.

Fixpoint tokens_fuel (fuel : nat) (t : tokenizer) : stream :=
  match fuel with
  | O => StreamFuel
  | S n =>
      match lex false t with
      | Token KEnd _ _ => Tokens []
      | Token k v t' =>
          match tokens_fuel n t' with Tokens l => Tokens ((k, v) :: l) | x => x end
      | ScanPanic => StreamPanic
      | OutOfFuel => StreamFuel
      end
  end.
Definition tokens (m : mode) (sql : string) : stream :=
  let t := new_tokenizer m sql in tokens_fuel (S (size t)) t.
