(** Columns of MySQL's SHOW CREATE TABLE, read by sqldef. *)
From Coq Require Import String Ascii List ZArith Bool Lia.
From Verif Require Import GoStr GoStrFacts Ast Formatter Generator Lexer Keywords Numerals SqlAst SchemaParse ParserTables ParserValues ParserActions Parser
  SpecLexer SpecLayout SpecPlan SpecShown SpecShownMysql ProofOrder ProofRun ProofLead ProofReadEx ProofReadColumn.
Import ListNotations.
Local Open Scope Z_scope.
Local Open Scope list_scope.

Definition text_token (s : string) : token := T "STRING" s.
Definition pair_tokens (p : Z * Z) : list token := [lpar; number_token (fst p); comma; number_token (snd p); rpar].
Definition type_token (w : string) : token :=
  match w with
  | "bit" => T "BIT" w | "tinyint" => T "TINYINT" w | "smallint" => T "SMALLINT" w | "mediumint" => T "MEDIUMINT" w | "int" => T "INT" w | "bigint" => T "BIGINT" w
  | "double" => T "DOUBLE" w | "float" => T "FLOAT_TYPE" w | "decimal" => T "DECIMAL" w
  | "time" => T "TIME" w | "timestamp" => T "TIMESTAMP" w | "datetime" => T "DATETIME" w | "date" => T "DATE" w | "year" => T "YEAR" w
  | "tinyblob" => T "TINYBLOB" w | "blob" => T "BLOB" w | "mediumblob" => T "MEDIUMBLOB" w | "longblob" => T "LONGBLOB" w | "json" => T "JSON" w
  | "geometry" => T "GEOMETRY" w | "point" => T "POINT" w | "linestring" => T "LINESTRING" w | "polygon" => T "POLYGON" w
  | "multipoint" => T "MULTIPOINT" w | "multilinestring" => T "MULTILINESTRING" w | "multipolygon" => T "MULTIPOLYGON" w | "geometrycollection" => T "GEOMETRYCOLLECTION" w
  | "char" => T "CHAR" w | "varchar" => T "VARCHAR" w | "binary" => T "BINARY" w | "varbinary" => T "VARBINARY" w
  | "tinytext" => T "TINYTEXT" w | "text" => T "TEXT" w | "mediumtext" => T "MEDIUMTEXT" w | "longtext" => T "LONGTEXT" w
  | "enum" => T "ENUM" w | "set" => T "SET" w
  | _ => T "ID" w
  end%string.
Definition unsigned_tokens (u : bool) : list token := if u then [T "UNSIGNED" "unsigned"] else [].
Definition charset_tokens (cs co : option string) : list token :=
  option_tokens (fun c => [T "CHARACTER" "character"; T "SET" "set"; name_token c]) cs ++ option_tokens (fun c => [T "COLLATE" "collate"; name_token c]) co.
Definition enum_rest (l : list string) : list token := flat_map (fun s => [comma; text_token s]) l.
Definition my_type_tokens (t : my_type) : list token :=
  type_token (my_type_word t) ::
  match t with
  | MyInteger _ n u => option_tokens sized n ++ unsigned_tokens u
  | MyReal _ n u => option_tokens pair_tokens n ++ unsigned_tokens u
  | MyDecimal p s u => pair_tokens (p, s) ++ unsigned_tokens u
  | MyTime _ n => option_tokens sized n
  | MyPlain _ => []
  | MyChars _ n cs co => sized n ++ charset_tokens cs co
  | MyBytes _ n => sized n
  | MyTexts _ cs co => charset_tokens cs co
  | MyEnum _ x l cs co => lpar :: text_token x :: enum_rest l ++ rpar :: charset_tokens cs co
  end.
Definition my_typed (w : string) (u : bool) (n k : option Z) (cs co : option string) (enum : list string) : column_type :=
  mkColumnType w None false None None None false false (option_map (fun n => mkSqlVal IntVal (show_Z n)) n) u
    (option_map (fun n => mkSqlVal IntVal (show_Z n)) k) (or_empty cs) (or_empty co) false enum ColKeyNone ""%string None.
Definition in_quotes (s : string) : string := ("'" ++ s ++ "'")%string.
Definition my_type_value (t : my_type) : column_type :=
  match t with
  | MyInteger w n u => my_typed w u n None None None []
  | MyReal w n u => my_typed w u (option_map fst n) (option_map snd n) None None []
  | MyDecimal p s u => my_typed "decimal" u (Some p) (Some s) None None []
  | MyTime w n => my_typed w false n None None None []
  | MyPlain w => my_typed w false None None None None []
  | MyChars w n cs co => my_typed w false (Some n) None cs co []
  | MyBytes w n => my_typed w false (Some n) None None None []
  | MyTexts w cs co => my_typed w false None None cs co []
  | MyEnum w x l cs co => my_typed w false None None cs co (map in_quotes (x :: l))
  end.

Definition my_after : list token :=
  [T "NOT" "not"; T "NULL" "null"; T "DEFAULT" "default"; T "ON" "on"; T "AUTO_INCREMENT" "auto_increment"; T "COMMENT_KEYWORD" "comment"; comma; rpar].
Ltac my_each H := cbv [In my_after] in H; repeat (destruct H as [<-|H]); try contradiction.

Section Column.
Variables (n : string) (st : list (Z * yval)) (tr : option statement).
Notation named_at := (named_at n st tr).
Notation typed_at := (typed_at n st tr).

(** ** Types *)
Lemma numeric_leads w k u t R : mem w integer_types = true -> In t my_after ->
  leads (named_at (type_token w :: option_tokens sized k ++ unsigned_tokens u ++ t :: R)) (typed_at (my_typed w u k None None None []) (t :: R)).
Proof.
  intros Hw H. unfold ProofReadColumn.named_at, ProofReadColumn.typed_at. apply mem_in in Hw.
  eapply leads_trans with (b := mkT ((680, YType (my_typed w false None None None None [])) :: (463, YStr n) :: st) None (option_tokens sized k ++ unsigned_tokens u ++ t :: R) 0 tr).
  - cbv [integer_types In] in Hw. repeat (destruct Hw as [<-|Hw]); try contradiction; go.
  - clear Hw. destruct k as [k|], u; my_each H; go.
Qed.
Lemma real_leads w k u t R : mem w ["double"; "float"]%string = true -> In t my_after ->
  leads (named_at (type_token w :: option_tokens pair_tokens k ++ unsigned_tokens u ++ t :: R)) (typed_at (my_typed w u (option_map fst k) (option_map snd k) None None []) (t :: R)).
Proof.
  intros Hw H. unfold ProofReadColumn.named_at, ProofReadColumn.typed_at. apply mem_in in Hw.
  cbv [In] in Hw. repeat (destruct Hw as [<-|Hw]); try contradiction; destruct k as [[a b]|], u; my_each H; go.
Qed.
Lemma decimal_leads a b u t R : In t my_after ->
  leads (named_at (type_token "decimal" :: pair_tokens (a, b) ++ unsigned_tokens u ++ t :: R)) (typed_at (my_typed "decimal" u (Some a) (Some b) None None []) (t :: R)).
Proof. intros H. unfold ProofReadColumn.named_at, ProofReadColumn.typed_at. destruct u; my_each H; go. Qed.
Lemma time_leads w k t R : mem w ["time"; "timestamp"; "datetime"]%string = true -> In t my_after ->
  leads (named_at (type_token w :: option_tokens sized k ++ t :: R)) (typed_at (my_typed w false k None None None []) (t :: R)).
Proof.
  intros Hw H. unfold ProofReadColumn.named_at, ProofReadColumn.typed_at. apply mem_in in Hw.
  cbv [In] in Hw. repeat (destruct Hw as [<-|Hw]); try contradiction; destruct k as [k|]; my_each H; go.
Qed.
Lemma plain_leads w t R : mem w plain_types = true -> In t my_after ->
  leads (named_at (type_token w :: t :: R)) (typed_at (my_typed w false None None None None []) (t :: R)).
Proof.
  intros Hw H. unfold ProofReadColumn.named_at, ProofReadColumn.typed_at. apply mem_in in Hw.
  cbv [In plain_types] in Hw. repeat (destruct Hw as [<-|Hw]); try contradiction; my_each H; go.
Qed.
Lemma bytes_leads w k t R : mem w ["binary"; "varbinary"]%string = true -> In t my_after ->
  leads (named_at (type_token w :: sized k ++ t :: R)) (typed_at (my_typed w false (Some k) None None None []) (t :: R)).
Proof.
  intros Hw H. unfold ProofReadColumn.named_at, ProofReadColumn.typed_at. apply mem_in in Hw.
  cbv [In] in Hw. repeat (destruct Hw as [<-|Hw]); try contradiction; my_each H; go.
Qed.
Lemma chars_leads w k cs co t R : mem w ["char"; "varchar"]%string = true -> In t my_after ->
  leads (named_at (type_token w :: sized k ++ charset_tokens cs co ++ t :: R)) (typed_at (my_typed w false (Some k) None cs co []) (t :: R)).
Proof.
  intros Hw H. unfold ProofReadColumn.named_at, ProofReadColumn.typed_at. apply mem_in in Hw.
  cbv [In] in Hw. repeat (destruct Hw as [<-|Hw]); try contradiction; destruct cs as [cs|], co as [co|]; my_each H; go.
Qed.
Lemma texts_leads w cs co t R : mem w ["tinytext"; "text"; "mediumtext"; "longtext"]%string = true -> In t my_after ->
  leads (named_at (type_token w :: charset_tokens cs co ++ t :: R)) (typed_at (my_typed w false None None cs co []) (t :: R)).
Proof.
  intros Hw H. unfold ProofReadColumn.named_at, ProofReadColumn.typed_at. apply mem_in in Hw.
  cbv [In] in Hw. repeat (destruct Hw as [<-|Hw]); try contradiction; destruct cs as [cs|], co as [co|]; my_each H; go.
Qed.

Definition enum_at (w : string) (values : list string) (l : list token) : tparser :=
  if String.eqb w "enum"
  then mkT ((1153, YStrs values) :: (958, YStr "") :: (702, YStr w) :: (463, YStr n) :: st) None l 0 tr
  else mkT ((1155, YStrs values) :: (959, YStr "") :: (703, YStr w) :: (463, YStr n) :: st) None l 0 tr.
Definition enum_words : list string := ["enum"; "set"]%string.
Definition enum_after : list token := [comma; rpar].
Lemma enum_start w x t R : mem w enum_words = true -> In t enum_after ->
  leads (named_at (type_token w :: lpar :: text_token x :: t :: R)) (enum_at w [in_quotes x] (t :: R)).
Proof.
  intros Hw H. unfold ProofReadColumn.named_at, enum_at. apply mem_in in Hw. cbv [In enum_after] in H.
  cbv [In enum_words] in Hw. repeat (destruct Hw as [<-|Hw]); try contradiction; (destruct H as [<-|[<-|[]]]); cbn [String.eqb Ascii.eqb Bool.eqb]; go.
Qed.
Lemma enum_next w values x t R : mem w enum_words = true -> In t enum_after ->
  leads (enum_at w values (comma :: text_token x :: t :: R)) (enum_at w (values ++ [in_quotes x]) (t :: R)).
Proof.
  intros Hw H. unfold enum_at. apply mem_in in Hw. cbv [In enum_after] in H.
  cbv [In enum_words] in Hw. repeat (destruct Hw as [<-|Hw]); try contradiction; (destruct H as [<-|[<-|[]]]); cbn [String.eqb Ascii.eqb Bool.eqb]; go.
Qed.
Lemma enum_values w l : forall values R, mem w enum_words = true ->
  leads (enum_at w values (enum_rest l ++ rpar :: R)) (enum_at w (values ++ map in_quotes l) (rpar :: R)).
Proof.
  induction l as [|x l IH]; intros values R Hw; [cbn; rewrite app_nil_r; apply leads_refl|].
  unfold enum_rest. cbn [flat_map app map]. fold (enum_rest l).
  assert (X : exists t R', enum_rest l ++ rpar :: R = t :: R' /\ In t enum_after).
  { destruct l; eexists _, _; (split; [reflexivity|cbn; tauto]). }
  destruct X as (t & R' & E & I). rewrite E. eapply leads_trans; [exact (enum_next w values x t R' Hw I)|]. rewrite <- E.
  replace (values ++ in_quotes x :: map in_quotes l) with ((values ++ [in_quotes x]) ++ map in_quotes l) by (now rewrite <- app_assoc). now apply IH.
Qed.
Lemma enum_end w values cs co t R : mem w enum_words = true -> In t my_after ->
  leads (enum_at w values (rpar :: charset_tokens cs co ++ t :: R)) (typed_at (my_typed w false None None cs co values) (t :: R)).
Proof.
  intros Hw H. unfold enum_at, ProofReadColumn.typed_at. apply mem_in in Hw.
  cbv [In enum_words] in Hw. repeat (destruct Hw as [<-|Hw]); try contradiction; destruct cs as [cs|], co as [co|]; my_each H; cbn [String.eqb Ascii.eqb Bool.eqb]; go.
Qed.
Lemma enum_leads w x l cs co t R : mem w enum_words = true -> In t my_after ->
  leads (named_at (type_token w :: lpar :: text_token x :: enum_rest l ++ rpar :: charset_tokens cs co ++ t :: R))
    (typed_at (my_typed w false None None cs co (map in_quotes (x :: l))) (t :: R)).
Proof.
  intros Hw H. assert (X : exists t' R', enum_rest l ++ rpar :: charset_tokens cs co ++ t :: R = t' :: R' /\ In t' enum_after).
  { destruct l; eexists _, _; (split; [reflexivity|cbn; tauto]). }
  destruct X as (t' & R' & E & I). rewrite E. eapply leads_trans; [exact (enum_start w x t' R' Hw I)|]. rewrite <- E.
  eapply leads_trans; [now apply enum_values|]. now apply enum_end.
Qed.

Lemma my_type_leads ty t R : my_type_ok ty = true -> In t my_after ->
  leads (named_at (my_type_tokens ty ++ t :: R)) (typed_at (my_type_value ty) (t :: R)).
Proof.
  intros Ho H. destruct ty; cbn [my_type_ok] in Ho; rewrite ?andb_true_iff in Ho; unfold my_type_tokens; cbn [my_type_value my_type_word]; cbn [app]; rewrite <- ?app_assoc.
  - now apply numeric_leads.
  - now apply real_leads.
  - now apply decimal_leads.
  - now apply time_leads.
  - now apply plain_leads.
  - now apply chars_leads.
  - now apply bytes_leads.
  - now apply texts_leads.
  - cbn [app]. now apply enum_leads.
Qed.

(** ** Options *)
Definition now_tokens (k : option Z) : list token := T "CURRENT_TIMESTAMP" "current_timestamp" :: option_tokens sized k.
Definition my_default_tokens (d : my_default) : list token :=
  match d with
  | MyNull => [T "NULL" "null"]
  | MyText s => [text_token s]
  | MyNumber z => [T "INTEGRAL" (show_Z z)]
  | MyNow k => now_tokens k
  | MyBits s => [T "BIT_LITERAL" s]
  end.
Definition now_val (k : option Z) : sql_val :=
  mkSqlVal ValArg match k with Some k => ("current_timestamp(" ++ show_Z k ++ ")")%string | None => "current_timestamp"%string end.
Definition my_default_val (d : my_default) : sql_val :=
  match d with
  | MyNull => mkSqlVal ValArg "null"
  | MyText s => mkSqlVal StrVal s
  | MyNumber z => mkSqlVal IntVal (show_Z z)
  | MyNow k => now_val k
  | MyBits s => mkSqlVal BitVal s
  end.
Definition null_tokens (b : bool) : list token := if b then [T "NOT" "not"; T "NULL" "null"] else [T "NULL" "null"].
Definition auto_tokens (b : bool) : list token := if b then [T "AUTO_INCREMENT" "auto_increment"] else [].
Definition comment_tokens (s : string) : list token := [T "COMMENT_KEYWORD" "comment"; text_token s].

Lemma null_leads ty b t R : In t my_after -> leads (typed_at ty (null_tokens b ++ t :: R)) (typed_at (set_ct_not_null (Some b) ty) (t :: R)).
Proof. intros H. unfold ProofReadColumn.typed_at. destruct ty, b; my_each H; go. Qed.
Lemma my_default_leads ty d t R : In t my_after ->
  leads (typed_at ty (T "DEFAULT" "default" :: my_default_tokens d ++ t :: R)) (typed_at (set_ct_default (Some (mkSqlDefault (Some (my_default_val d)) "")) ty) (t :: R)).
Proof. intros H. unfold ProofReadColumn.typed_at. destruct ty, d as [|s|z|[k|]|s]; my_each H; go. Qed.
Lemma on_update_leads ty k t R : In t my_after ->
  leads (typed_at ty (T "ON" "on" :: T "UPDATE" "update" :: now_tokens k ++ t :: R)) (typed_at (set_ct_on_update (Some (now_val k)) ty) (t :: R)).
Proof. intros H. unfold ProofReadColumn.typed_at. destruct ty, k as [k|]; my_each H; go. Qed.
Lemma auto_leads ty t R : In t my_after ->
  leads (typed_at ty (T "AUTO_INCREMENT" "auto_increment" :: t :: R)) (typed_at (set_ct_autoincrement true ty) (t :: R)).
Proof. intros H. unfold ProofReadColumn.typed_at. destruct ty; my_each H; go. Qed.
Lemma comment_leads ty s t R : In t my_after -> leads (typed_at ty (comment_tokens s ++ t :: R)) (typed_at ty (t :: R)).
Proof. intros H. unfold ProofReadColumn.typed_at. destruct ty; my_each H; go. Qed.
End Column.
