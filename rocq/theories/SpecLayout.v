(** The tokens of a text with its comments among them. *)
From Coq Require Import String Ascii List.
From Verif Require Import Ast Generator Lexer SpecLexer.
Import ListNotations.
Local Open Scope string_scope.

(** [scans m n s l]: the text [s] consists of the tokens and comments [l].  Comments for MySQL
    only are not among them. *)
Inductive scans (m : mode) : nat -> string -> list (kind * string) -> Prop :=
| sc_end n g : gap g -> scans m n g []
| sc_token n g text r k v l : gap g -> lexeme m n k v text r ->
    scans m (counted text n) r l -> scans m n (g ++ text ++ r) ((k, v) :: l).

Definition without_comments (l : list (kind * string)) : list (kind * string) :=
  filter (fun x => negb (is_comment (fst x))) l.

(** Comments right after these words belong to a query, an insertion and so on; here there are
    none: the statement does not begin with one, has no subquery and creates no trigger. *)
Definition manipulation : list kind :=
  [KTok "INSERT"; KTok "REPLACE"; KTok "UPDATE"; KTok "DELETE"; KTok "SET"; KTok "STREAM"].
Definition plain_definition (l : list (kind * string)) : Prop :=
  ~ In (KTok "SELECT") (map fst l) /\ ~ In (KTok "TRIGGER") (map fst l) /\
  forall k v l', l = (k, v) :: l' -> ~ In k manipulation.

(** [says m text w]: the words of [text] are [w].  Blanks and letter case of keywords do not
    count, nor do comments, unless they may belong to a query. *)
Definition comment_free (l : list (kind * string)) : Prop := forall x, In x l -> is_comment (fst x) = false.
Definition says (m : mode) (text : string) (w : list (kind * string)) : Prop :=
  exists l, scans m 0 (String c_nul text) l /\ without_comments l = w /\ (comment_free l \/ plain_definition w).

(** A statement without its text. *)
Definition without_text (d : ddl) : ddl :=
  match d with
  | CreateTable _ t => CreateTable "" t
  | CreateIndex _ n i => CreateIndex "" n i
  | AddIndex _ n i => AddIndex "" n i
  | AddPrimaryKey _ n i => AddPrimaryKey "" n i
  | AddForeignKey _ n k => AddForeignKey "" n k
  | AddPolicy _ n p => AddPolicy "" n p
  | DView v => DView (mkView "" (vw_name v) (vw_definition v))
  | DTrigger t => DTrigger (mkTrigger "" (tr_name t) (tr_table t) (tr_time t) (tr_event t) (tr_body t))
  end.
Definition in_ok {A B} (f : A -> B) (r : res A) : res B :=
  match r with Ok a => Ok (f a) | Err e => Err e | Panic => Panic | Fatal => Fatal end.
