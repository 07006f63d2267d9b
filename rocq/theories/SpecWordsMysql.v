(** MySQL's own words for what is planned: ALTER TABLE with the definition as SHOW CREATE TABLE
    shows it.  Nothing of the planner is used. *)
From Coq Require Import String Ascii List ZArith Bool.
From Verif Require Import GoStr GoStrFacts Ast Generator SpecPlan SpecMysql SpecLexer SpecLayout SpecShown SpecShownMysql.
Import ListNotations.
Local Open Scope string_scope.
Local Open Scope list_scope.

(** ** What sqldef has the words for *)

(** Texts in which MySQL escapes nothing. *)
Definition plain_char (c : ascii) : bool := negb (existsb (Ascii.eqb c) ["'"; "\"; "010"; "013"; "000"]%char).
Definition plain_text (s : string) : bool := all_chars plain_char s.
(** No values of a SET, no comment, one bit at most, not both AUTO_INCREMENT and ON UPDATE. *)
Definition sayable_type (t : my_type) : bool :=
  match t with MyEnum w x l _ _ => String.eqb w "enum" && forallb plain_text (x :: l) | _ => true end.
Definition sayable_default (d : my_default) : bool :=
  match d with MyText s => plain_text s | MyBits s => mem s ["0"; "1"] | _ => true end.
Definition is_none {A} (o : option A) : bool := match o with None => true | Some _ => false end.
Definition sayable_column (c : my_column) : bool :=
  my_column_ok c && sayable_type (mc_type c) && all_opt sayable_default (mc_default c) &&
  (negb (mc_auto c) || is_none (mc_on_update c)) && is_none (mc_comment c).
(** No options. *)
Definition sayable_key (k : my_key) : bool := my_key_ok k && match mk_options k with [] => true | _ => false end.

(** ** The words *)
Definition altering (t : string) (how : list string) : list my_piece :=
  [MWord "ALTER"; blank1; MWord "TABLE"; blank1; MName t; blank1] ++ flat_map (fun w => [MWord w; blank1]) how.
Definition at_position (p : col_pos) : list my_piece :=
  match p with PosNone => [] | PosFirst => [blank1; MBare "FIRST"] | PosAfter c => [blank1; MWord "AFTER"; blank1; MName c] end.
Definition position_ok (p : col_pos) : bool := match p with PosAfter c => my_name c | _ => true end.

(** [my_words e l]: MySQL's words for the change [e] are [l].  The place of a column in the table
    is not part of its definition. *)
Inductive my_words : effect -> list my_piece -> Prop :=
| say_add_column t c k p : my_name t = true -> sayable_column c = true -> position_ok p = true ->
    my_words (EffAddColumn t (set_position k (my_ideal_column c)) p) (altering t ["ADD"; "COLUMN"] ++ shown_column c ++ at_position p)
| say_change_column t old c k p : my_name t = true -> my_name old = true -> sayable_column c = true -> position_ok p = true ->
    my_words (EffChangeColumn t old (set_position k (my_ideal_column c)) p)
      (altering t ["CHANGE"; "COLUMN"] ++ [MName old; blank1] ++ shown_column c ++ at_position p)
| say_drop_column t c : my_name t = true -> my_name c = true -> my_words (EffDropColumn t c) (altering t ["DROP"; "COLUMN"] ++ [MName c])
| say_add_key t k : my_name t = true -> sayable_key k = true -> mk_kind k <> KPrimary -> my_words (EffAddIndex t (my_ideal_key k)) (altering t ["ADD"] ++ shown_key k)
| say_add_primary_key t k : my_name t = true -> sayable_key k = true -> mk_kind k = KPrimary -> my_words (EffAddPrimaryKey t (my_ideal_key k)) (altering t ["ADD"] ++ shown_key k)
| say_drop_key t k : my_name t = true -> my_name k = true -> my_words (EffDropIndex t k) (altering t ["DROP"; "INDEX"] ++ [MName k])
| say_drop_primary_key t : my_name t = true -> my_words (EffDropPrimaryKey t) (altering t ["DROP"; "PRIMARY"] ++ [MWord "KEY"])
| say_add_fk t f : my_name t = true -> my_fk_ok f = true -> my_words (EffAddForeignKey t (my_ideal_fk f)) (altering t ["ADD"] ++ shown_fk f)
| say_drop_fk t f : my_name t = true -> my_name f = true -> my_words (EffDropForeignKey t f) (altering t ["DROP"; "FOREIGN"; "KEY"] ++ [MName f])
| say_drop_table t : my_name t = true -> my_words (EffDropTable t) [MWord "DROP"; blank1; MWord "TABLE"; blank1; MName t].

(** The two texts have the same words. *)
Definition same_words (m : mode) (a b : string) : Prop := exists w, says m a w /\ says m b w.

(** ** Definitions put together *)
Inductive my_item := ItemColumn (c : my_column) | ItemKey (k : my_key) | ItemFk (f : my_fk).
Definition my_items (t : my_table) : list my_item :=
  map ItemColumn (my_first t :: my_columns t) ++ map ItemKey (my_keys t) ++ map ItemFk (my_fks t).
Definition sayable_item (i : my_item) : bool :=
  match i with ItemColumn c => sayable_column c | ItemKey k => sayable_key k | ItemFk f => my_fk_ok f end.
(** [sent out t i text]: among the statements is one that adds [i] to [t], or changes the column
    [i], with the definition [text]. *)
Inductive sent (out : list stmt) (t : string) : my_item -> string -> Prop :=
| sent_column c k p text :
    In (mkStmt ("ALTER TABLE `" ++ t ++ "` ADD COLUMN " ++ text ++ spell (at_position p)) (EffAddColumn t (set_position k (my_ideal_column c)) p)) out ->
    sent out t (ItemColumn c) text
| sent_change c k old p text :
    In (mkStmt ("ALTER TABLE `" ++ t ++ "` CHANGE COLUMN `" ++ old ++ "` " ++ text ++ spell (at_position p)) (EffChangeColumn t old (set_position k (my_ideal_column c)) p)) out ->
    sent out t (ItemColumn c) text
| sent_key k text e :
    e = EffAddPrimaryKey t (my_ideal_key k) \/ e = EffAddIndex t (my_ideal_key k) ->
    In (mkStmt ("ALTER TABLE `" ++ t ++ "` ADD " ++ text) e) out -> sent out t (ItemKey k) text
| sent_fk f text :
    In (mkStmt ("ALTER TABLE `" ++ t ++ "` ADD " ++ text) (EffAddForeignKey t (my_ideal_fk f))) out -> sent out t (ItemFk f) text.
