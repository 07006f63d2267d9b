(** The lexical grammar of the SQL that sqldef reads, as a relation.  Nothing of the
    tokenizer's program is used except the names of tokens ([kind]), the keyword table and the
    table of escapes. *)
From Coq Require Import String Ascii List ZArith Bool.
From Verif Require Import GoStr Ast Keywords Lexer.
Import ListNotations.
Local Open Scope string_scope.

(** ** Characters *)
Definition among (l : string) (c : ascii) : Prop := In c (list_ascii_of_string l).
Definition all_of (P : ascii -> Prop) (s : string) : Prop := forall c, In c (list_ascii_of_string s) -> P c.

Definition lower_letter := among "abcdefghijklmnopqrstuvwxyz".
Definition upper_letter := among "ABCDEFGHIJKLMNOPQRSTUVWXYZ".
Definition letter (c : ascii) : Prop := lower_letter c \/ upper_letter c \/ among "_@" c.
Definition digit := among "0123456789".
Definition hex_digit := among "0123456789abcdefABCDEF".
Definition bit := among "01".
Definition quote (c : ascii) : Prop := c = "'"%char \/ c = c_dq \/ c = "`"%char.
Definition blank (c : ascii) : Prop := c = " "%char \/ c = c_lf \/ c = c_cr \/ c = c_tab.

(** [ends P r]: a run of characters in [P] ends here. *)
Definition ends (P : ascii -> Prop) (r : string) : Prop := forall c r', r = String c r' -> ~ P c.
(** [s] does not contain [x]. *)
Definition free_of (x s : string) : Prop := forall a b, s <> a ++ x ++ b.

(** ** Words *)
Definition word_char (c : ascii) : Prop := letter c \/ digit c.
(** After [@@] dots and quotes belong to the word. *)
Definition variable_char (c : ascii) : Prop := word_char c \/ quote c \/ c = "."%char.

(** Keywords are recognised in any letter case and give their lower case spelling, as does
    [dual]; other words are names, spelled as they are. *)
Inductive word : string -> kind -> string -> Prop :=
| word_keyword w k : In (to_lower w, k) keywords -> word w (KTok k) (to_lower w)
| word_dual w : to_lower w = "dual" -> word w (KTok "ID") (to_lower w)
| word_name w : (forall k, ~ In (to_lower w, k) keywords) -> to_lower w <> "dual" -> word w (KTok "ID") w.

(** ** Quoted names and strings *)

(** A quote inside a quoted name is written twice. *)
Fixpoint doubled (q : ascii) (v : string) : string :=
  match v with
  | EmptyString => EmptyString
  | String c v' => if Ascii.eqb c q then String q (String q (doubled q v')) else String c (doubled q v')
  end.

(** Which characters open and close quoted names. *)
Inductive name_quotes : mode -> ascii -> ascii -> Prop :=
| nq_back m : m <> Postgres -> name_quotes m "`" "`"
| nq_double m : m <> Mysql -> name_quotes m c_dq c_dq
| nq_bracket : name_quotes Mssql "[" "]".

Inductive string_quote : mode -> ascii -> Prop :=
| sq_single m : string_quote m "'"
| sq_double : string_quote Mysql c_dq.

(** Escape sequences, [encode_ref] has those with a meaning of their own. *)
Inductive escaped : ascii -> ascii -> Prop :=
| esc_named c d : In (c, d) encode_ref -> escaped d c
| esc_other d : (forall c, ~ In (c, d) encode_ref) -> escaped d d.

(** [string_text q v s]: between quotes [q], [s] stands for [v]. *)
Inductive string_text (q : ascii) : string -> string -> Prop :=
| st_nil : string_text q "" ""
| st_plain c v s : c <> q -> c <> "\"%char -> string_text q v s -> string_text q (String c v) (String c s)
| st_double v s : string_text q v s -> string_text q (String q v) (String q (String q s))
| st_escape c d v s : escaped d c -> string_text q v s -> string_text q (String c v) (String "\" (String d s)).

(** ** Numbers *)
Definition digits := all_of digit.

(** An exponent may lack its digits. *)
Inductive exponent : string -> Prop :=
| exp_plain e w : among "eE" e -> digits w -> exponent (String e w)
| exp_signed e g w : among "eE" e -> among "+-" g -> digits w -> exponent (String e (String g w)).

(** What may follow an exponent directly: if it has neither sign nor digits, no sign. *)
Definition exponent_ends (x r : string) : Prop := forall e, x = String e "" -> ends (among "+-") r.

(** [number k v r]: the kind of the number [v] if [r], which begins with neither digit nor letter, follows. *)
Inductive number : kind -> string -> string -> Prop :=
| num_integer d w r : digit d -> digits w -> ends (fun c => c = "."%char) r -> number (KTok "INTEGRAL") (String d w) r
| num_hex x w r : among "xX" x -> all_of hex_digit w -> number (KTok "HEXNUM") (String "0" (String x w)) r
| num_fraction d w f r : digit d -> digits w -> digits f -> number (KTok "FLOAT") (String d (w ++ "." ++ f)) r
| num_power d w x r : digit d -> digits w -> exponent x -> exponent_ends x r -> number (KTok "FLOAT") (String d (w ++ x)) r
| num_both d w f x r : digit d -> digits w -> digits f -> exponent x -> exponent_ends x r ->
    number (KTok "FLOAT") (String d (w ++ "." ++ f ++ x)) r.
Inductive point_number : string -> string -> Prop :=
| pn_plain d f r : digit d -> digits f -> point_number (String "." (String d f)) r
| pn_power d f x r : digit d -> digits f -> exponent x -> exponent_ends x r ->
    point_number (String "." (String d (f ++ x))) r.

(** ** Operators: the text, the token, and what must not follow. *)
Definition self (c : ascii) : string * kind * string := (String c "", KChar c, "").
Definition operators (m : mode) : list (string * kind * string) :=
  map self ["="; ","; ";"; "("; ")"; "]"; "+"; "*"; "%"; "^"; "~"]%char ++
  match m with Mssql => [] | _ => [self "["] end ++
  [("&&", KTok "AND", ""); ("&", KChar "&", "&"); ("||", KTok "OR", ""); ("|", KChar "|", "|");
   (".", KChar ".", "0123456789"); ("/", KChar "/", "/*"); ("-", KChar "-", "0123456789->");
   ("->>", KTok "JSON_UNQUOTE_EXTRACT_OP", ""); ("->", KTok "JSON_EXTRACT_OP", ">");
   ("<>", KTok "NE", ""); ("<<", KTok "SHIFT_LEFT", ""); ("<=>", KTok "NULL_SAFE_EQUAL", "");
   ("<=", KTok "LE", ">"); ("<", KChar "<", "<>="); (">=", KTok "GE", ""); (">>", KTok "SHIFT_RIGHT", "");
   (">", KChar ">", ">="); ("!=", KTok "NE", ""); ("!", KChar "!", "=")] ++
  match m with Postgres => [("::", KTok "TYPECAST", "")] | _ => [] end.

(** Tokens with a value of their own: [::] on PostgreSQL. *)
Definition operator_value (k : kind) : string :=
  match k with KTok "TYPECAST" => "::" | _ => "" end.

(** ** Lexemes

    [lexeme m n k v text r]: followed by [r], the characters [text] are a token of kind [k]
    with value [v]; [n] question marks came before. *)
Inductive lexeme (m : mode) (n : nat) : kind -> string -> string -> string -> Prop :=
| lx_word c w k v r : letter c -> all_of word_char w -> ends word_char r ->
    ~ (among "xXbB" c /\ w = "" /\ exists r', r = String "'" r') -> (forall w', ~ (c = "@"%char /\ w = String "@" w')) ->
    word (String c w) k v -> lexeme m n k v (String c w) r
| lx_variable w k v r : all_of variable_char w -> ends variable_char r ->
    word ("@@" ++ w) k v -> lexeme m n k v ("@@" ++ w) r
| lx_hex x v r : among "xX" x -> all_of hex_digit v -> Nat.Even (String.length v) ->
    lexeme m n (KTok "HEX") v (String x ("'" ++ v ++ "'")) r
| lx_bit b v r : among "bB" b -> all_of bit v -> lexeme m n (KTok "BIT_LITERAL") v (String b ("'" ++ v ++ "'")) r
| lx_name o q v r : name_quotes m o q -> v <> "" -> ends (eq q) r ->
    lexeme m n (KTok "ID") v (String o (doubled q v ++ String q "")) r
| lx_string q v s r : string_quote m q -> string_text q v s -> ends (eq q) r ->
    lexeme m n (KTok "STRING") v (String q (s ++ String q "")) r
| lx_number k v r : number k v r -> ends digit r -> ends letter r -> lexeme m n k v v r
| lx_negative k v r : number k v r -> ends digit r -> ends letter r -> lexeme m n k (String "-" v) (String "-" v) r
| lx_point v r : point_number v r -> ends digit r -> ends letter r -> lexeme m n (KTok "FLOAT") v v r
| lx_bind c w r : letter c -> all_of (fun c => word_char c \/ c = "."%char) w ->
    ends (fun c => word_char c \/ c = "."%char) r -> lexeme m n (KTok "VALUE_ARG") (":" ++ String c w) (":" ++ String c w) r
| lx_list c w r : m <> Postgres -> letter c -> all_of (fun c => word_char c \/ c = "."%char) w ->
    ends (fun c => word_char c \/ c = "."%char) r -> lexeme m n (KTok "LIST_ARG") ("::" ++ String c w) ("::" ++ String c w) r
| lx_question r : lexeme m n (KTok "VALUE_ARG") (":v" ++ show_Z (Z.of_nat (S n))) "?" r
| lx_operator s k bad r : In (s, k, bad) (operators m) -> ends (among bad) r -> lexeme m n k (operator_value k) s r
| lx_line p s r : In p ["--"; "//"; "#"] -> free_of nl s -> lexeme m n (KTok "COMMENT") (p ++ s ++ nl) (p ++ s ++ nl) r
| lx_last_line p s : In p ["--"; "//"; "#"] -> free_of nl s -> lexeme m n (KTok "COMMENT") (p ++ s) (p ++ s) ""
| lx_block s r : free_of "*/" (s ++ "*") -> ends (eq "!"%char) s ->
    lexeme m n (KTok "COMMENT") ("/*" ++ s ++ "*/") ("/*" ++ s ++ "*/") r.

(** ** Texts *)

(** Between tokens there may be blanks.  One NUL character before them is passed over too. *)
Inductive gap : string -> Prop :=
| gap_blanks b : all_of blank b -> gap b
| gap_nul b : all_of blank b -> gap (String c_nul b).

Definition counted (text : string) (n : nat) : nat := if String.eqb text "?" then S n else n.

(** What a comment for MySQL only, [/*!], stands for: at most five digits of a version number
    are left out, and white space at both ends. *)
Inductive mysql_only : string -> string -> Prop :=
| mo_version v c s : digits v -> String.length v <= 5 -> ~ digit c \/ String.length v = 5 ->
    mysql_only (v ++ String c s) (trim_space (String c s)).

(** [reads m n s l]: the text [s] consists of the tokens [l]; comments are left out, comments
    for MySQL only are read. *)
Inductive reads (m : mode) : nat -> string -> list (kind * string) -> Prop :=
| rd_end n g : gap g -> reads m n g []
| rd_token n g text r k v l : gap g -> lexeme m n k v text r -> k <> KTok "COMMENT" ->
    reads m (counted text n) r l -> reads m n (g ++ text ++ r) ((k, v) :: l)
| rd_comment n g text r v l : gap g -> lexeme m n (KTok "COMMENT") v text r ->
    reads m n r l -> reads m n (g ++ text ++ r) l
| rd_special n g body inner r l1 l2 : gap g -> free_of "*/" (body ++ "*") -> mysql_only body inner ->
    reads m 0 (String c_nul inner) l1 -> reads m n r l2 ->
    reads m n (g ++ "/*!" ++ body ++ "*/" ++ r) (l1 ++ l2).
