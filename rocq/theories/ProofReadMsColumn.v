(** Columns of the SQL Server export, read by sqldef. *)
From Coq Require Import String Ascii List ZArith Bool Lia.
From Verif Require Import GoStr GoStrFacts Ast Formatter Generator Lexer Keywords Numerals SqlAst SchemaParse ParserTables ParserValues ParserActions Parser
  SpecLexer SpecLayout SpecPlan SpecShown SpecShownMssql ProofOrder ProofRun ProofLead ProofReadEx ProofReadColumn.
Import ListNotations.
Local Open Scope Z_scope.
Local Open Scope list_scope.

Definition mq_type_token (w : string) : token :=
  match w with
  | "bit" => T "BIT" w | "tinyint" => T "TINYINT" w | "smallint" => T "SMALLINT" w | "int" => T "INT" w | "bigint" => T "BIGINT" w
  | "real" => T "REAL" w | "float" => T "FLOAT_TYPE" w | "money" => T "MONEY" w | "smallmoney" => T "SMALLMONEY" w | "decimal" => T "DECIMAL" w | "numeric" => T "NUMERIC" w
  | "date" => T "DATE" w | "time" => T "TIME" w | "datetime" => T "DATETIME" w | "datetime2" => T "DATETIME2" w | "datetimeoffset" => T "DATETIMEOFFSET" w
  | "smalldatetime" => T "SMALLDATETIME" w | "text" => T "TEXT" w | "ntext" => T "NTEXT" w | "nchar" => T "NCHAR" w | "nvarchar" => T "NVARCHAR" w
  | "char" => T "CHAR" w | "varchar" => T "VARCHAR" w | "binary" => T "BINARY" w | "varbinary" => T "VARBINARY" w
  | _ => T "ID" w
  end%string.
Definition mq_type_tokens (t : mq_type) : list token :=
  match t with QPlain w _ => [mq_type_token w] | QSized w n => mq_type_token w :: sized n end.
Definition mq_type_value (t : mq_type) : column_type :=
  mkColumnType (mq_type_word t) None false None None None false false
    match t with QSized _ n => Some (mkSqlVal IntVal (show_Z n)) | QPlain _ _ => None end false None ""%string ""%string false [] ColKeyNone ""%string None.

Definition mq_after : list token := [T "NOT" "not"; T "CONSTRAINT" "constraint"; T "IDENTITY" "identity"; comma; rpar].
Ltac mq_each H := cbv [In mq_after] in H; repeat (destruct H as [<-|H]); try contradiction.

Definition mq_replication_tokens (b : bool) : list token := if b then [T "NOT" "not"; T "FOR" "for"; T "REPLICATION" "replication"] else [].
Definition mq_value_tokens (v : mq_value) : list token :=
  match v with
  | QNull => [lpar; T "NULL" "null"; rpar]
  | QInt z => [lpar; lpar; number_token z; rpar; rpar]
  | QString s => [lpar; T "STRING" s; rpar]
  | QGetdate => [lpar; T "GETDATE" "getdate"; lpar; rpar; rpar]
  end.
Definition mq_sql_value (v : mq_value) : sql_val :=
  match v with
  | QNull => mkSqlVal ValArg "null"
  | QInt z => mkSqlVal IntVal (show_Z z)
  | QString s => mkSqlVal StrVal s
  | QGetdate => mkSqlVal ValArg "getdate"
  end.
Definition mq_default_tokens (d : string * mq_value) : list token :=
  T "CONSTRAINT" "constraint" :: name_token (fst d) :: T "DEFAULT" "default" :: mq_value_tokens (snd d).
Definition mq_default_value (d : string * mq_value) : sql_default := mkSqlDefault (Some (mq_sql_value (snd d))) (fst d).
Definition mq_identity_tokens (i : mq_identity) : list token :=
  T "IDENTITY" "identity" :: lpar :: number_token (mqn_seed i) :: comma :: number_token (mqn_increment i) :: rpar :: mq_replication_tokens (mqn_not_for_replication i).
Definition mq_identity_value (i : mq_identity) : identity_opt :=
  mkIdentityOpt "" (Some (mkSqlSequence "" false "" (Some (mkSqlVal IntVal (show_Z (mqn_increment i)))) None None None None (Some (mkSqlVal IntVal (show_Z (mqn_seed i)))) None None None ""))
    (mqn_not_for_replication i).
Definition mq_check_tokens (k : mq_check) : list token :=
  T "CONSTRAINT" "constraint" :: name_token (mqk_name k) :: T "CHECK" "check" :: mq_replication_tokens (mqk_not_for_replication k) ++
  lpar :: ex_tokens (mqk_condition k) ++ [rpar].
Definition mq_check_value (k : mq_check) : sql_check :=
  mkSqlCheck (mkWhere "where" (mkExpr (Some (sql_text (mqk_condition k))) match ex_kind (mqk_condition k) with XParen t => Some t | _ => None end)) (mqk_name k) (mqk_not_for_replication k).

Section Column.
Variables (n : string) (st : list (Z * yval)) (tr : option statement).
Notation named_at := (named_at n st tr).
Notation typed_at := (typed_at n st tr).

Lemma mq_type_leads ty t R : mq_type_ok ty = true -> In t mq_after ->
  leads (named_at (mq_type_tokens ty ++ t :: R)) (typed_at (mq_type_value ty) (t :: R)).
Proof.
  intros Ho H. unfold ProofReadColumn.named_at, ProofReadColumn.typed_at. destruct ty as [w b|w k]; cbn [mq_type_ok] in Ho.
  - apply mem_in in Ho. cbv [In mq_plain_types] in Ho. repeat (destruct Ho as [<-|Ho]); try contradiction; mq_each H; go.
  - apply andb_true_iff in Ho as [Ho _]. apply mem_in in Ho. cbv [In mq_sized_types] in Ho. repeat (destruct Ho as [<-|Ho]); try contradiction; mq_each H; go.
Qed.
Lemma mq_required_leads ty b t R : In t mq_after ->
  leads (typed_at ty (required_tokens b ++ t :: R)) (typed_at (if b then set_ct_not_null (Some true) ty else ty) (t :: R)).
Proof. intros H. destruct b; [|apply leads_refl]. unfold ProofReadColumn.typed_at. destruct ty. mq_each H; go. Qed.
Lemma mq_default_leads ty d t R : In t mq_after ->
  leads (typed_at ty (mq_default_tokens d ++ t :: R)) (typed_at (set_ct_default (Some (mq_default_value d)) ty) (t :: R)).
Proof. intros H. unfold ProofReadColumn.typed_at. destruct ty, d as [name []]; mq_each H; go. Qed.
Definition identity_given (i : mq_identity) (b : bool) : identity_opt :=
  mkIdentityOpt "" (Some (mkSqlSequence "" false "" (Some (mkSqlVal IntVal (show_Z (mqn_increment i)))) None None None None (Some (mkSqlVal IntVal (show_Z (mqn_seed i)))) None None None "")) b.
Lemma identity_plain ty i t R : In t mq_after ->
  leads (typed_at ty (T "IDENTITY" "identity" :: lpar :: number_token (mqn_seed i) :: comma :: number_token (mqn_increment i) :: rpar :: t :: R))
    (typed_at (set_ct_identity (Some (identity_given i false)) ty) (t :: R)).
Proof. intros H. unfold ProofReadColumn.typed_at. destruct ty, i as [a b r]; mq_each H; go. Qed.
Lemma identity_replication ty i t R : In t mq_after ->
  leads (typed_at (set_ct_identity (Some (identity_given i false)) ty) (mq_replication_tokens true ++ t :: R)) (typed_at (set_ct_identity (Some (identity_given i true)) ty) (t :: R)).
Proof. intros H. unfold ProofReadColumn.typed_at. destruct ty, i as [a b r]; mq_each H; go. Qed.
Lemma mq_identity_leads ty i t R : In t mq_after ->
  leads (typed_at ty (mq_identity_tokens i ++ t :: R)) (typed_at (set_ct_identity (Some (mq_identity_value i)) ty) (t :: R)).
Proof.
  intros H. unfold mq_identity_tokens, mq_identity_value. fold (identity_given i (mqn_not_for_replication i)). cbn [app]. destruct (mqn_not_for_replication i).
  - cbn [mq_replication_tokens app]. eapply leads_trans; [apply identity_plain; cbn; tauto|]. exact (identity_replication ty i t R H).
  - now apply identity_plain.
Qed.

Definition checked (ty : column_type) (k : mq_check) : list (Z * yval) :=
  (1411, YBool (mqk_not_for_replication k)) :: (1295, YStr "check") :: (1112, YStr (mqk_name k)) :: (924, YStr "constraint") :: (673, YType ty) :: (463, YStr n) :: st.
Lemma mq_check_open ty k R :
  leads (typed_at ty (T "CONSTRAINT" "constraint" :: name_token (mqk_name k) :: T "CHECK" "check" :: mq_replication_tokens (mqk_not_for_replication k) ++ lpar :: R))
    (mkT ((1500, YNone) :: checked ty k) None R 1 tr).
Proof. unfold ProofReadColumn.typed_at, checked. destruct k as [a e []]; cbn [mqk_name mqk_not_for_replication]; go. Qed.
Lemma mq_check_close ty k a x t R : In t after_column ->
  leads (mkT ((1563, YExpr (Some (mkXp (Some a) x))) :: (1500, YNone) :: checked ty k) None (rpar :: t :: R) 1 tr)
    (typed_at (set_ct_check (Some (mkSqlCheck (mkWhere "where" (mkExpr (Some a) match x with XParen t => Some t | _ => None end)) (mqk_name k) (mqk_not_for_replication k))) ty) (t :: R)).
Proof.
  intros H. unfold ProofReadColumn.typed_at, checked. cbv [after_column] in H. destruct k as [b e r], ty, x; cbn [mqk_name mqk_not_for_replication]; each_in H; go.
Qed.
Lemma mq_check_leads ty k t R : ex_fits (mqk_condition k) = true -> In t after_column ->
  leads (typed_at ty (mq_check_tokens k ++ t :: R)) (typed_at (set_ct_check (Some (mq_check_value k)) ty) (t :: R)).
Proof.
  intros F H. unfold ex_fits in F. apply andb_true_iff in F as [F D]. apply Nat.ltb_lt in D.
  unfold mq_check_tokens. cbn [app]. rewrite <- !app_assoc. cbn [app]. rewrite <- !app_assoc. eapply leads_trans; [apply mq_check_open|].
  eapply leads_trans; [|exact (mq_check_close ty k (sql_text (mqk_condition k)) (ex_kind (mqk_condition k)) t R H)].
  apply (proj2 (ex_runs (mqk_condition k) F) 1500 _ _ rpar); [|split; [cbn; tauto|discriminate]|lia].
  split; [cbn; tauto|]. split; discriminate.
Qed.

(** ** Whole columns *)
Definition mq_column_tokens (c : mq_column) : list token :=
  mq_type_tokens (mqc_type c) ++ required_tokens (negb (mqc_nullable c)) ++ option_tokens mq_default_tokens (mqc_default c) ++
  option_tokens mq_identity_tokens (mqc_identity c) ++ option_tokens mq_check_tokens (mqc_check c).
Definition mq_column_value (c : mq_column) : column_type :=
  opt (fun k => set_ct_check (Some (mq_check_value k))) (mqc_check c)
    (opt (fun i => set_ct_identity (Some (mq_identity_value i))) (mqc_identity c)
      (opt (fun d => set_ct_default (Some (mq_default_value d))) (mqc_default c)
        ((fun t => if negb (mqc_nullable c) then set_ct_not_null (Some true) t else t) (mq_type_value (mqc_type c))))).

Definition mq_heads (l : list token) : Prop := exists t r, l = t :: r /\ In t mq_after.
Lemma mq_heads_after t R : In t after_column -> mq_heads (t :: R).
Proof. intros H. exists t, R. split; [reflexivity|]. cbv [after_column In] in H. destruct H as [<-|[<-|[]]]; cbn; tauto. Qed.
Lemma mq_heads_option {A} (f : A -> list token) (o : option A) l : (forall x, exists t r, f x = t :: r /\ In t mq_after) -> mq_heads l -> mq_heads (option_tokens f o ++ l).
Proof. intros F L. destruct o as [x|]; [|exact L]. destruct (F x) as (t & r & E & I). cbn. rewrite E. exists t, (r ++ l). now split. Qed.
Ltac by_head := let t := fresh "t" in let r := fresh "r" in let I := fresh "I" in intros (t & r & -> & I).
Lemma mq_type_heads ty l : mq_type_ok ty = true -> mq_heads l -> leads (named_at (mq_type_tokens ty ++ l)) (typed_at (mq_type_value ty) l).
Proof. intros Ho. by_head. now apply mq_type_leads. Qed.
Lemma mq_required_heads b ty l : mq_heads l -> leads (typed_at ty (required_tokens b ++ l)) (typed_at (if b then set_ct_not_null (Some true) ty else ty) l).
Proof. by_head. now apply mq_required_leads. Qed.
Lemma mq_default_heads o ty l : mq_heads l ->
  leads (typed_at ty (option_tokens mq_default_tokens o ++ l)) (typed_at (opt (fun d => set_ct_default (Some (mq_default_value d))) o ty) l).
Proof. by_head. destruct o; [now apply mq_default_leads|apply leads_refl]. Qed.
Lemma mq_identity_heads o ty l : mq_heads l ->
  leads (typed_at ty (option_tokens mq_identity_tokens o ++ l)) (typed_at (opt (fun i => set_ct_identity (Some (mq_identity_value i))) o ty) l).
Proof. by_head. destruct o; [now apply mq_identity_leads|apply leads_refl]. Qed.

Lemma mq_column_leads c t R : mq_column_ok c = true -> In t after_column ->
  leads (named_at (mq_column_tokens c ++ t :: R)) (typed_at (mq_column_value c) (t :: R)).
Proof.
  unfold mq_column_ok. intros K H. rewrite !andb_true_iff in K. destruct K as [[[[K Ht] Hd] Hi] Hc].
  unfold mq_column_tokens, mq_column_value. rewrite <- !app_assoc.
  assert (H4 : mq_heads (option_tokens mq_check_tokens (mqc_check c) ++ t :: R)).
  { apply mq_heads_option; [|now apply mq_heads_after]. intros x. eexists _, _. split; [reflexivity|cbn; tauto]. }
  assert (H3 : mq_heads (option_tokens mq_identity_tokens (mqc_identity c) ++ option_tokens mq_check_tokens (mqc_check c) ++ t :: R)).
  { apply mq_heads_option; [|exact H4]. intros x. eexists _, _. split; [reflexivity|cbn; tauto]. }
  assert (H2 : mq_heads (option_tokens mq_default_tokens (mqc_default c) ++ option_tokens mq_identity_tokens (mqc_identity c) ++ option_tokens mq_check_tokens (mqc_check c) ++ t :: R)).
  { apply mq_heads_option; [|exact H3]. intros x. eexists _, _. split; [reflexivity|cbn; tauto]. }
  assert (H1 : mq_heads (required_tokens (negb (mqc_nullable c)) ++ option_tokens mq_default_tokens (mqc_default c) ++ option_tokens mq_identity_tokens (mqc_identity c) ++
    option_tokens mq_check_tokens (mqc_check c) ++ t :: R)).
  { destruct (mqc_nullable c); [exact H2|]. eexists _, _. split; [reflexivity|cbn; tauto]. }
  eapply leads_trans; [exact (mq_type_heads _ _ Ht H1)|]. eapply leads_trans; [exact (mq_required_heads _ _ _ H2)|].
  eapply leads_trans; [exact (mq_default_heads _ _ _ H3)|]. eapply leads_trans; [exact (mq_identity_heads _ _ _ H4)|].
  destruct (mqc_check c) as [k|]; [|apply leads_refl]. cbn [option_tokens opt all_some] in *. unfold mq_check_ok, mq_condition_ok in Hc. rewrite !andb_true_iff in Hc.
  now apply mq_check_leads.
Qed.
End Column.
