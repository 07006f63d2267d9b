(** Columns of a CREATE TABLE as the export writes them, read by sqldef. *)
From Coq Require Import String Ascii List ZArith Bool Lia.
From Verif Require Import GoStr GoStrFacts Ast Formatter Generator Lexer Keywords Numerals SqlAst SchemaParse ParserTables ParserValues ParserActions Parser
  SpecLexer SpecLayout SpecPlan SpecPostgres SpecShown ProofOrder ProofRun ProofLead ProofReadEx.
Import ListNotations.
Local Open Scope Z_scope.
Local Open Scope list_scope.

Definition T (k v : string) : token := (KTok k, v).
Definition number_token (n : Z) : token := T "INTEGRAL" (show_Z n).
Definition sized (n : Z) : list token := [lpar; number_token n; rpar].
Definition lbracket : token := (KChar "[", ""%string).
Definition rbracket : token := (KChar "]", ""%string).

(** ** Types *)
Definition word_token (w : string) : list token :=
  match w with
  | "smallint" => [T "SMALLINT" w] | "integer" => [T "INTEGER" w] | "bigint" => [T "BIGINT" w] | "boolean" => [T "BOOLEAN" w]
  | "text" => [T "TEXT" w] | "uuid" => [T "UUID" w] | "json" => [T "JSON" w] | "jsonb" => [T "JSONB" w] | "date" => [T "DATE" w]
  | "real" => [T "REAL" w] | "numeric" => [T "NUMERIC" w] | "money" => [T "MONEY" w] | "point" => [T "POINT" w]
  | "citext" => [T "CITEXT" w] | "serial" => [T "SERIAL" w] | "smallserial" => [T "SMALLSERIAL" w] | "bigserial" => [T "BIGSERIAL" w]
  | _ => []
  end%string.
Definition base_tokens (b : base_type) : list token :=
  match b with
  | BWord w => word_token w
  | BDouble => [T "DOUBLE" "double"; T "PRECISION" "precision"]
  | BVarying n => [T "CHARACTER" "character"; T "VARYING" "varying"] ++ match n with Some n => sized n | None => [] end
  | BChar n => T "CHARACTER" "character" :: sized n
  | BBit n => T "BIT" "bit" :: sized n
  end.
Definition zone_tokens (zone : bool) : list token :=
  if zone then [T "WITH" "with"; T "TIME" "time"; T "ZONE" "zone"] else [].
Definition type_tokens (t : shown_type) : list token :=
  match t with
  | TBase b => base_tokens b
  | TUser w => word_token w
  | TArray b => base_tokens b ++ [lbracket; rbracket]
  | TSerial w => word_token (serial_name w)
  | TTimestamp z => T "TIMESTAMP" "timestamp" :: zone_tokens z
  | TTime z => T "TIME" "time" :: zone_tokens z
  end.
Definition type_value (t : shown_type) : column_type :=
  let typed name array length zone :=
    mkColumnType name None false None None None false array (option_map (fun n => mkSqlVal IntVal (show_Z n)) length) false None ""%string ""%string zone []
      ColKeyNone ""%string None in
  match t with
  | TBase b => typed (base_name b) false (base_length b) false
  | TUser w => typed w false None false
  | TArray b => typed (base_name b) true (base_length b) false
  | TSerial w => typed (serial_name w) false None false
  | TTimestamp z => typed "timestamp"%string false None z
  | TTime z => typed "time"%string false None z
  end.

Definition after_option : list token :=
  [T "UNIQUE" "unique"; T "NOT" "not"; T "DEFAULT" "default"; T "GENERATED" "generated"; T "CHECK" "check"; comma; rpar].

Ltac each_in H := cbv [In after_option] in H; repeat (destruct H as [<-|H]); try contradiction.
Ltac go :=
  match goal with |- leads _ (mkT ((?q, _) :: _) _ _ _ _) =>
    let q' := eval vm_compute in q in
    eapply (until_leads 80 q'); cbv -[format_id to_lower String.append encode_bytes_sql format_table alias show_Z]; reflexivity
  end.

Section Column.
Variables (n : string) (st : list (Z * yval)) (tr : option statement).
(** The parser after the name of the column, and after its type and some options. *)
Definition named_at (l : list token) : tparser := mkT ((463, YStr n) :: st) None l 0 tr.
Definition typed_at (t : column_type) (l : list token) : tparser := mkT ((673, YType t) :: (463, YStr n) :: st) None l 0 tr.

Lemma type_leads ty t R : type_ok ty = true -> In t after_option ->
  leads (named_at (type_tokens ty ++ t :: R)) (typed_at (type_value ty) (t :: R)).
Proof.
  intros Ho H. unfold named_at, typed_at. destruct ty as [b|w|b|w|z|z].
  - destruct b as [w| |[m|]|m|m]; cbn [type_ok base_ok] in Ho;
      [apply mem_in in Ho; cbv [one_word_types integer_words app] in Ho; repeat (destruct Ho as [<-|Ho]); try contradiction| | | | |]; each_in H; go.
  - apply mem_in in Ho. repeat (destruct Ho as [<-|Ho]); try contradiction; each_in H; go.
  - destruct b as [w| |[m|]|m|m]; cbn [type_ok base_ok] in Ho;
      [apply mem_in in Ho; cbv [one_word_types integer_words app] in Ho; repeat (destruct Ho as [<-|Ho]); try contradiction| | | | |]; each_in H; go.
  - apply mem_in in Ho. repeat (destruct Ho as [<-|Ho]); try contradiction; each_in H; go.
  - destruct z; each_in H; go.
  - destruct z; each_in H; go.
Qed.

(** ** Options *)
Definition default_tokens (d : shown_default) : list token :=
  match d with
  | DInt z => [number_token z]
  | DText s ty =>
      ([T "STRING" s; T "TYPECAST" "::"] ++
       match ty with "text" => [T "TEXT" ty] | "bpchar" => [T "BPCHAR" ty] | _ => [T "CHARACTER" "character"; T "VARYING" "varying"] end)%list
  | DBool b => if b then [T "TRUE" "true"] else [T "FALSE" "false"]
  | DCurrentTimestamp => [T "CURRENT_TIMESTAMP" "current_timestamp"]
  | DNow => [T "NOW" "now"; lpar; rpar]
  end%string.
Definition default_val (d : shown_default) : sql_val :=
  match d with
  | DInt z => mkSqlVal IntVal (show_Z z)
  | DText s _ => mkSqlVal StrVal s
  | DBool b => bool_val b
  | DCurrentTimestamp => mkSqlVal ValArg "current_timestamp"
  | DNow => mkSqlVal BitVal "now"
  end%string.
Definition identity_tokens (always : bool) : list token :=
  T "GENERATED" "generated" :: (if always then [T "ALWAYS" "always"] else [T "BY" "by"; T "DEFAULT" "default"]) ++ [T "AS" "as"; T "IDENTITY" "identity"].

Lemma unique_leads ty t R : In t after_option ->
  leads (typed_at ty (T "UNIQUE" "unique" :: t :: R)) (typed_at (set_ct_key ColKeyUnique ty) (t :: R)).
Proof. intros H. unfold typed_at. destruct ty. each_in H; go. Qed.
Lemma required_leads ty t R : In t after_option ->
  leads (typed_at ty (T "NOT" "not" :: T "NULL" "null" :: t :: R)) (typed_at (set_ct_not_null (Some true) ty) (t :: R)).
Proof. intros H. unfold typed_at. destruct ty. each_in H; go. Qed.
Lemma default_leads ty d t R : default_ok d = true -> In t after_option ->
  leads (typed_at ty (T "DEFAULT" "default" :: default_tokens d ++ t :: R)) (typed_at (set_ct_default (Some (mkSqlDefault (Some (default_val d)) "")) ty) (t :: R)).
Proof.
  intros Ho H. unfold typed_at. destruct ty. destruct d as [z|s ty|b| |].
  - each_in H; go.
  - cbn [default_ok] in Ho. apply andb_true_iff in Ho as [_ Ho]. apply mem_in in Ho. cbv [text_types In] in Ho.
    destruct Ho as [<-|[<-|[<-|[]]]]; each_in H; go.
  - destruct b; each_in H; go.
  - each_in H; go.
  - each_in H; go.
Qed.
Lemma identity_leads ty a t R : In t after_option ->
  leads (typed_at ty (identity_tokens a ++ t :: R))
    (typed_at (set_ct_identity (Some (mkIdentityOpt (if a then "always" else "by default") None false)) (set_ct_not_null (Some true) ty)) (t :: R)).
Proof. intros H. unfold typed_at. destruct ty, a; each_in H; go. Qed.

Definition check_tokens (e : ex) (no_inherit : bool) : list token :=
  T "CHECK" "check" :: lpar :: ex_tokens e ++ rpar :: (if no_inherit then [T "NO" "no"; T "INHERIT" "inherit"] else []).
Definition check_value (e : ex) : sql_check := mkSqlCheck (mkWhere "where" (mkExpr (Some (sql_text e)) match ex_kind e with XParen t => Some t | _ => None end)) ""%string false.
Definition after_column : list token := [comma; rpar].

Lemma check_open ty R : leads (typed_at ty (T "CHECK" "check" :: lpar :: R))
  (mkT ((1297, YNone) :: (1116, YBool false) :: (931, YStr "check") :: (673, YType ty) :: (463, YStr n) :: st) None R 1 tr).
Proof. unfold typed_at. go. Qed.
Lemma check_close ty a k ni t R : In t after_column ->
  leads (mkT ((1412, YExpr (Some (mkXp (Some a) k))) :: (1297, YNone) :: (1116, YBool false) :: (931, YStr "check") :: (673, YType ty) :: (463, YStr n) :: st) None
           (rpar :: (if ni : bool then [T "NO" "no"; T "INHERIT" "inherit"] else []) ++ t :: R) 1 tr)
    (typed_at (set_ct_no_inherit ni (set_ct_check (Some (mkSqlCheck (mkWhere "where" (mkExpr (Some a) match k with XParen t => Some t | _ => None end)) "" false)) ty)) (t :: R)).
Proof. intros H. unfold typed_at. cbv [after_column] in H. destruct ty, ni, k; each_in H; go. Qed.
Lemma check_leads ty e ni t R : ex_fits e = true -> In t after_column ->
  leads (typed_at ty (check_tokens e ni ++ t :: R)) (typed_at (set_ct_no_inherit ni (set_ct_check (Some (check_value e)) ty)) (t :: R)).
Proof.
  intros F H. unfold ex_fits in F. apply andb_true_iff in F as [F D]. apply Nat.ltb_lt in D.
  unfold check_tokens. cbn [app]. rewrite <- app_assoc. eapply leads_trans; [apply check_open|].
  eapply leads_trans; [|exact (check_close ty (sql_text e) (ex_kind e) ni t R H)].
  apply (proj2 (ex_runs e F) 1297 _ _ rpar); [|split; [cbn; tauto|discriminate]|lia].
  split; [cbn; tauto|]. split; discriminate.
Qed.

(** ** Whole columns *)
Definition unique_tokens (u : bool) : list token := if u then [T "UNIQUE" "unique"] else [].
Definition required_tokens (r : bool) : list token := if r then [T "NOT" "not"; T "NULL" "null"] else [].
Definition option_tokens {A} (f : A -> list token) (o : option A) : list token := match o with Some x => f x | None => [] end.
Definition column_tokens (u : bool) (c : shown_column) : list token :=
  type_tokens (sc_type c) ++ unique_tokens u ++ required_tokens (sc_required c) ++
  option_tokens (fun d => T "DEFAULT" "default" :: default_tokens d) (sc_default c) ++
  option_tokens identity_tokens (sc_always c) ++
  option_tokens (fun k => check_tokens (sk_expr k) (sk_no_inherit k)) (sc_check c).
Definition opt {A} (f : A -> column_type -> column_type) (o : option A) (t : column_type) : column_type := match o with Some x => f x t | None => t end.
Definition column_value (u : bool) (c : shown_column) : column_type :=
  opt (fun k t => set_ct_no_inherit (sk_no_inherit k) (set_ct_check (Some (check_value (sk_expr k))) t)) (sc_check c)
    (opt (fun (a : bool) t => set_ct_identity (Some (mkIdentityOpt (if a then "always" else "by default") None false)) (set_ct_not_null (Some true) t)) (sc_always c)
      (opt (fun d => set_ct_default (Some (mkSqlDefault (Some (default_val d)) ""))) (sc_default c)
        ((fun t => if sc_required c then set_ct_not_null (Some true) t else t)
          ((fun t => if u then set_ct_key ColKeyUnique t else t) (type_value (sc_type c)))))).

Definition heads (l : list token) : Prop := exists t r, l = t :: r /\ In t after_option.
Lemma heads_after t R : In t after_column -> heads (t :: R).
Proof. intros H. exists t, R. split; [reflexivity|]. cbv [after_column In] in H. destruct H as [<-|[<-|[]]]; cbn; tauto. Qed.
Lemma heads_option {A} (f : A -> list token) (o : option A) l : (forall x, exists t r, f x = t :: r /\ In t after_option) -> heads l -> heads (option_tokens f o ++ l).
Proof. intros F L. destruct o as [x|]; [|exact L]. destruct (F x) as (t & r & E & I). cbn. rewrite E. exists t, (r ++ l). now split. Qed.
Lemma heads_unique u l : heads l -> heads (unique_tokens u ++ l).
Proof. intros L. destruct u; [|exact L]. exists (T "UNIQUE" "unique"), l. split; [reflexivity|cbn; tauto]. Qed.
Lemma heads_required u l : heads l -> heads (required_tokens u ++ l).
Proof. intros L. destruct u; [|exact L]. exists (T "NOT" "not"), (T "NULL" "null" :: l). split; [reflexivity|cbn; tauto]. Qed.

Ltac by_head := let t := fresh "t" in let r := fresh "r" in let I := fresh "I" in intros (t & r & -> & I).
Lemma type_heads ty l : type_ok ty = true -> heads l -> leads (named_at (type_tokens ty ++ l)) (typed_at (type_value ty) l).
Proof. intros Ho. by_head. now apply type_leads. Qed.
Lemma unique_heads u ty l : heads l -> leads (typed_at ty (unique_tokens u ++ l)) (typed_at (if u then set_ct_key ColKeyUnique ty else ty) l).
Proof. by_head. destruct u; [now apply unique_leads|apply leads_refl]. Qed.
Lemma required_heads b ty l : heads l -> leads (typed_at ty (required_tokens b ++ l)) (typed_at (if b then set_ct_not_null (Some true) ty else ty) l).
Proof. by_head. destruct b; [now apply required_leads|apply leads_refl]. Qed.
Lemma default_heads o ty l : match o with Some d => default_ok d = true | None => True end -> heads l ->
  leads (typed_at ty (option_tokens (fun d => T "DEFAULT" "default" :: default_tokens d) o ++ l))
    (typed_at (opt (fun d => set_ct_default (Some (mkSqlDefault (Some (default_val d)) ""))) o ty) l).
Proof. intros Ho. by_head. destruct o; [now apply default_leads|apply leads_refl]. Qed.
Lemma identity_heads o ty l : heads l ->
  leads (typed_at ty (option_tokens identity_tokens o ++ l))
    (typed_at (opt (fun (a : bool) t => set_ct_identity (Some (mkIdentityOpt (if a then "always" else "by default") None false)) (set_ct_not_null (Some true) t)) o ty) l).
Proof. by_head. destruct o as [a|]; [now apply (identity_leads ty a)|apply leads_refl]. Qed.

Lemma column_leads u c t R : column_ok c = true -> In t after_column ->
  leads (named_at (column_tokens u c ++ t :: R)) (typed_at (column_value u c) (t :: R)).
Proof.
  unfold column_ok. intros K H. rewrite !andb_true_iff in K. destruct K as [[[K Ht] Hd] Hc].
  unfold column_tokens, column_value. rewrite <- !app_assoc.
  assert (H5 : heads (option_tokens (fun k => check_tokens (sk_expr k) (sk_no_inherit k)) (sc_check c) ++ t :: R)).
  { apply heads_option; [|now apply heads_after]. intros x. eexists _, _. split; [reflexivity|cbn; tauto]. }
  assert (H4 := heads_option identity_tokens (sc_always c) _ (fun x => ex_intro _ _ (ex_intro _ _ (conj eq_refl (or_intror (or_intror (or_intror (or_introl eq_refl))))))) H5).
  assert (H3 := heads_option (fun d => T "DEFAULT" "default" :: default_tokens d) (sc_default c) _ (fun x => ex_intro _ _ (ex_intro _ _ (conj eq_refl (or_intror (or_intror (or_introl eq_refl)))))) H4).
  assert (H2 := heads_required (sc_required c) _ H3). assert (H1 := heads_unique u _ H2).
  eapply leads_trans; [exact (type_heads _ _ Ht H1)|]. eapply leads_trans; [exact (unique_heads u _ _ H2)|].
  eapply leads_trans; [exact (required_heads _ _ _ H3)|].
  eapply leads_trans; [refine (default_heads _ _ _ _ H4); destruct (sc_default c); [now apply andb_true_iff in Hd as [Hd _]|exact I]|].
  eapply leads_trans; [exact (identity_heads _ _ _ H5)|].
  destruct (sc_check c) as [k|]; [|apply leads_refl]. cbn [option_tokens opt]. now apply check_leads.
Qed.
End Column.
