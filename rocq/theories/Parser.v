(** Model of the generated SQL parser, /repo/sqlparser/parser.go 3188-7850 (the driver goyacc
    writes around its tables), and of [ParseStrictDDLWithMode], sqlparser/ast.go 67-76.

    There is no token [error] in the grammar, so after a syntax error no state accepts it and
    the parser returns 1 (3326-3365); [ProofParser] checks this of the tables.  Error messages and
    debugging output are not modelled. *)
From Coq Require Import String Ascii List ZArith Bool.
From Verif Require Import GoStr Ast Generator Keywords Lexer SqlAst ParserTables ParserValues ParserActions.
Import ListNotations.
Local Open Scope Z_scope.

(** What [Lex] returns for a token: a character code or one of the constants (there is no token
    without a number). *)
Fixpoint number_of (name : string) (l : list (string * Z)) : Z :=
  match l with
  | [] => 1
  | (n, z) :: l' => if String.eqb n name then z else number_of name l'
  end.
Definition char_of (k : kind) : Z :=
  match k with
  | KEnd => 0
  | KChar c => Z.of_N (N_of_ascii c)
  | KTok n => number_of n token_numbers
  end.

(** 3196-3230: [yylex1], the internal number of a token. *)
Fixpoint tok3 (char : Z) (l : list Z) : Z :=
  match l with
  | c :: t :: l' => if c =? char then t else match l' with [] => c | _ => tok3 char l' end
  | _ => 0
  end.
Definition get_or (d : Z) (o : option Z) : Z := match o with Some z => z | None => d end.
Definition length_of (l : list Z) : Z := Z.of_nat (List.length l).
Definition internal (char : Z) : Z :=
  let token :=
    if char <=? 0 then get_or 0 (at_index yy_tok1 0)
    else if char <? length_of tok1_list then get_or 0 (at_index yy_tok1 char)
    else if (yy_private <=? char) && (char <? yy_private + length_of tok2_list) then
      get_or 0 (at_index yy_tok2 (char - yy_private))
    else tok3 char tok3_list in
  if token =? 0 then get_or 0 (at_index yy_tok2 1) else token.
Definition token_code (k : kind) : Z := internal (char_of k).

(** 3236-3250: the state of a parse.  The stack's last element is first here; [ps_look] is
    [yytoken] and [lval.bytes], nothing when [char] is negative.  [ps_allow], [ps_nesting] and
    [ps_tree] are fields of the tokenizer. *)
Record parser := mkParser {
  ps_stack : list (Z * yval);
  ps_look : option (Z * string);
  ps_tokenizer : tokenizer;
  ps_allow : bool;
  ps_nesting : Z;
  ps_tree : option statement }.

(** What happens next; [Stuck] is an index out of range in the tables or a value of the wrong
    kind. *)
Inductive stepped := Next (p : parser) | Accept (tree : option statement) | Reject | Crash | Stuck.

(** 3278-3280, 3304-3306: reads a token unless there is one. *)
Definition with_look (p : parser) (k : Z -> string -> parser -> stepped) : stepped :=
  match ps_look p with
  | Some (token, v) => k token v p
  | None =>
      match lex (ps_allow p) (ps_tokenizer p) with
      | Token kd v t =>
          let token := token_code kd in
          k token v (mkParser (ps_stack p) (Some (token, v)) t (ps_allow p) (ps_nesting p) (ps_tree p))
      | ScanPanic => Crash
      | OutOfFuel => Stuck
      end
  end.

(** 3308-3323: the exception table, a list of pairs. *)
Fixpoint exception_action (token : Z) (l : list Z) : option Z :=
  match l with
  | t :: a :: l' => if (t <? 0) || (t =? token) then Some a else exception_action token l'
  | _ => None
  end.
Fixpoint exception (state token : Z) (l : list Z) : option Z :=
  match l with
  | m :: s :: l' => if (m =? -1) && (s =? state) then exception_action token l' else exception state token l'
  | _ => None
  end.

(** 3389-3402: the state after a reduction to the nonterminal [nt] that uncovers [state]. *)
Definition goto (state nt : Z) : option Z :=
  match at_index yy_pgo nt with
  | None => None
  | Some g =>
      let j := g + state + 1 in
      if yy_last <=? j then at_index yy_act g
      else match at_index yy_act j with
           | None => None
           | Some s => match at_index yy_chk s with
                       | None => None
                       | Some c => if c =? - nt then Some s else at_index yy_act g
                       end
           end
  end.

(** What the actions do to the tokenizer: parser.y 349, 2470-2478, 4024-4056, parser.go 10-39.
    [None]: the action returns 1. *)
Definition force_eof (t : tokenizer) : tokenizer :=
  mkTokenizer (tk_input t) (tk_special t) (tk_posvar t) true (tk_multi t) (tk_mode t).
Definition act_on_tokenizer (n : Z) (args : list yval) (p : parser) : option parser :=
  let set t a z s := mkParser (ps_stack p) (ps_look p) t a z s in
  if n =? 1 then
    Some (set (ps_tokenizer p) (ps_allow p) (ps_nesting p)
            match args with v :: _ => as_stmt v | [] => None end)
  else if n =? 430 then Some (set (ps_tokenizer p) true (ps_nesting p) (ps_tree p))
  else if n =? 431 then Some (set (ps_tokenizer p) false (ps_nesting p) (ps_tree p))
  else if n =? 993 then
    if ps_nesting p + 1 =? 200 then None
    else Some (set (ps_tokenizer p) (ps_allow p) (ps_nesting p + 1) (ps_tree p))
  else if n =? 994 then Some (set (ps_tokenizer p) (ps_allow p) (ps_nesting p - 1) (ps_tree p))
  else if (995 <=? n) && (n <=? 998) then
    Some (set (force_eof (ps_tokenizer p)) (ps_allow p) (ps_nesting p) (ps_tree p))
  else Some p.

Definition set_stack (s : list (Z * yval)) (p : parser) : parser :=
  mkParser s (ps_look p) (ps_tokenizer p) (ps_allow p) (ps_nesting p) (ps_tree p).

(** 3367-3402 and 7849: reduction by production [n]. *)
Definition reduce (n : Z) (p : parser) : stepped :=
  match at_index yy_r2 n, at_index yy_r1 n with
  | Some len, Some nt =>
      let k := Z.to_nat len in
      let args := rev (map snd (firstn k (ps_stack p))) in
      match skipn k (ps_stack p) with
      | [] => Stuck
      | (state, v0) :: below =>
          match goto state nt with
          | None => Stuck
          | Some s =>
              match act_on_tokenizer n args p with
              | None => Reject
              | Some p' =>
                  match act n args with
                  | Value v => Next (set_stack ((s, v) :: (state, v0) :: below) p')
                  | ReturnOne => Reject
                  | NilDereference => Crash
                  | IllTyped => Stuck
                  end
              end
          end
      end
  | _, _ => Stuck
  end.

(** 3300-3366: the default action of a state. *)
Definition default_action (state : Z) (p : parser) : stepped :=
  match at_index yy_def state with
  | None => Stuck
  | Some n =>
      if n =? -2 then
        with_look p (fun token _ p' =>
          match exception state token exca_list with
          | None => Stuck
          | Some a => if a <? 0 then Accept (ps_tree p')
                      else if a =? 0 then Reject else reduce a p'
          end)
      else if n =? 0 then Reject else reduce n p
  end.

(** 3272-3299: one round of the loop, from [yynewstate]. *)
Definition step (p : parser) : stepped :=
  match ps_stack p with
  | [] => Stuck
  | (state, _) :: _ =>
      match at_index yy_pact state with
      | None => Stuck
      | Some n =>
          if n <=? yy_flag then default_action state p
          else
            with_look p (fun token v p' =>
              let i := n + token in
              if (i <? 0) || (yy_last <=? i) then default_action state p'
              else
                match at_index yy_act i with
                | None => Stuck
                | Some a =>
                    match at_index yy_chk a with
                    | None => Stuck
                    | Some c =>
                        if c =? token then
                          Next (mkParser ((a, YStr v) :: ps_stack p') None (ps_tokenizer p') (ps_allow p')
                                  (ps_nesting p') (ps_tree p'))
                        else default_action state p'
                    end
                end)
      end
  end.

(** The loop: at most [2 ^ n] rounds.  [ProofParser] shows how many are always enough. *)
Fixpoint rounds (n : nat) (p : parser) : stepped :=
  match n with
  | O => step p
  | S m => match rounds m p with
           | Next p' => rounds m p'
           | r => r
           end
  end.

(** 3235-3258: the initial state; [yyParse]. *)
Definition new_parser (m : mode) (sql : string) : parser :=
  mkParser [(0, YNone)] None (new_tokenizer m sql) false 0 None.
Definition yy_parse (m : mode) (sql : string) : stepped :=
  rounds (String.length sql + 20)%nat (new_parser m sql).

(** sqlparser/ast.go 67-76. *)
Definition parse_strict_ddl (m : mode) (sql : string) : res statement :=
  match yy_parse m sql with
  | Accept (Some s) => Ok s
  | Accept None => Ok SOther
  | Reject => Err (EParse "found syntax error when parsing DDL")
  | Crash => Panic
  | Next _ | Stuck => Fatal
  end.
