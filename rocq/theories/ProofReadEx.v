(** Expressions as PostgreSQL writes them, read by sqldef. *)
From Coq Require Import String Ascii List ZArith Bool Lia.
From Verif Require Import GoStr GoStrFacts Ast Formatter Generator Lexer Keywords SqlAst SchemaParse ParserTables ParserValues ParserActions Parser
  SpecLexer SpecLayout ProofReadback SpecShown ProofRun ProofLead.
Import ListNotations.
Local Open Scope Z_scope.
Local Open Scope list_scope.

Definition token : Type := kind * string.
Definition op_token (o : comparison) : token :=
  match o with
  | CmpEq => (KChar "=", "") | CmpNe => (KTok "NE", "") | CmpLt => (KChar "<", "") | CmpLe => (KTok "LE", "")
  | CmpGt => (KChar ">", "") | CmpGe => (KTok "GE", "")
  end%string.
Definition lpar : token := (KChar "(", ""%string).
Definition rpar : token := (KChar ")", ""%string).
Definition dot : token := (KChar ".", ""%string).
Definition comma : token := (KChar ",", ""%string).
Definition name_token (n : string) : token := (KTok "ID", n).
Definition cast_tokens : list token := [(KTok "TYPECAST", "::"); (KTok "TEXT", "text")]%string.

Fixpoint ex_tokens (e : ex) : list token :=
  match e with
  | EColumn n => [name_token n]
  | EField t n => [name_token t; dot; name_token n]
  | EInt z => [(KTok "INTEGRAL", show_Z z)]
  | EText s => (KTok "STRING", s) :: cast_tokens
  | EString s => [(KTok "STRING", s)]
  | EAsText n => lpar :: name_token n :: rpar :: cast_tokens
  | EGroup e => lpar :: ex_tokens e ++ [rpar]
  | ECompare o a b => ex_tokens a ++ op_token o :: ex_tokens b
  | ENull e => ex_tokens e ++ [(KTok "IS", "is"); (KTok "NULL", "null")]%string
  | ENotNull e => ex_tokens e ++ [(KTok "IS", "is"); (KTok "NOT", "not"); (KTok "NULL", "null")]%string
  | EAnd a b => ex_tokens a ++ (KTok "AND", "and"%string) :: ex_tokens b
  | EOr a b => ex_tokens a ++ (KTok "OR", "or"%string) :: ex_tokens b
  end.
Definition ex_kind (e : ex) : expr_kind :=
  match e with EInt z => XInt (show_Z z) | EGroup e => XParen (Some (sql_text e)) | _ => XOther end.
Definition ex_value (e : ex) : yval := YExpr (Some (mkXp (Some (sql_text e)) (ex_kind e))).

(** ** States *)
Definition starts : list Z := [1297; 1500; 303; 581; 528; 529].
Definition value_at (q : Z) : Z := if q =? 537 then 798 else 270.
Definition expr_at (q : Z) : Z :=
  if q =? 1297 then 1412 else if q =? 1500 then 1563 else if q =? 528 then 786 else if q =? 529 then 787 else 580.
Definition inside_at (q : Z) : Z := if (q =? 303) || (q =? 581) then 581 else 303.

Definition after_expr : list token := [(KTok "AND", "and"); (KTok "OR", "or"); rpar]%string.
Definition after_value : list token :=
  after_expr ++ map op_token [CmpEq; CmpNe; CmpLt; CmpLe; CmpGt; CmpGe] ++ [(KTok "IS", "is"%string)].

Ltac each H := cbv [In starts after_expr after_value map app] in H; repeat (destruct H as [<-|H]); try contradiction.
Ltac run_until q :=
  eapply (until_leads 60 q);
  cbv -[format_id to_lower String.append encode_bytes_sql format_table alias]; reflexivity.

Ltac run :=
  match goal with |- leads _ (mkT ((?q, _) :: _) _ _ _ _) => let q' := eval vm_compute in q in run_until q' end.

Section Segments.
Variables (v0 : yval) (st : list (Z * yval)) (R : list token) (z : Z) (tr : option statement).

Lemma id_seg q n t : In q (537 :: starts) -> In t after_value ->
  leads (mkT ((q, v0) :: st) None (name_token n :: t :: R) z tr)
        (mkT ((value_at q, YExpr (Some (mkXp (Some (format_id n)) XOther))) :: (q, v0) :: st) None (t :: R) z tr).
Proof.
  intros H G. each H; each G; run.
Qed.
Lemma field_seg q c n n' t : In q (537 :: starts) -> In t after_value ->
  leads (mkT ((q, v0) :: st) None (name_token (String c n) :: dot :: name_token n' :: t :: R) z tr)
        (mkT ((value_at q, YExpr (Some (mkXp (Some (format_id (String c n) ++ "." ++ format_id n')%string) XOther))) :: (q, v0) :: st) None (t :: R) z tr).
Proof. intros H G. each H; each G; run. Qed.
Lemma int_seg q n : In q (537 :: starts) ->
  leads (mkT ((q, v0) :: st) None ((KTok "INTEGRAL", n) :: R) z tr)
        (mkT ((value_at q, YExpr (Some (mkXp (Some n) (XInt n)))) :: (q, v0) :: st) None R z tr).
Proof. intros H. each H; run. Qed.
Lemma str_seg q n : In q (537 :: starts) ->
  leads (mkT ((q, v0) :: st) None ((KTok "STRING", n) :: R) z tr)
        (mkT ((value_at q, YExpr (Some (mkXp (Some (encode_bytes_sql n)) XOther))) :: (q, v0) :: st) None R z tr).
Proof. intros H. each H; run. Qed.
Lemma cast_seg q a k : In q (537 :: starts) ->
  leads (mkT ((value_at q, YExpr (Some (mkXp (Some a) k))) :: (q, v0) :: st) None (cast_tokens ++ R) z tr)
        (mkT ((value_at q, YExpr (Some (mkXp (Some ("convert(" ++ a ++ ", text)")%string) XOther))) :: (q, v0) :: st) None R z tr).
Proof. intros H. each H; run. Qed.
Lemma open_seg q : In q (537 :: starts) -> z + 1 <> 200 ->
  leads (mkT ((q, v0) :: st) None (lpar :: R) z tr) (mkT ((inside_at q, YNone) :: (q, v0) :: st) None R (z + 1) tr).
Proof.
  intros H Z. apply leads_trans with (mkT ((50, YStr ""%string) :: (q, v0) :: st) None R z tr); [each H; run|].
  apply open_leads; [each H; vm_compute; reflexivity|exact Z].
Qed.
Lemma close_seg q a k : In q (537 :: starts) ->
  leads (mkT ((580, YExpr (Some (mkXp (Some a) k))) :: (inside_at q, YNone) :: (q, v0) :: st) None (rpar :: R) z tr)
        (mkT ((value_at q, YExpr (Some (mkXp (Some ("(" ++ a ++ ")")%string) (XParen (Some a))))) :: (q, v0) :: st) None R (z - 1) tr).
Proof.
  intros H.
  apply leads_trans with (mkT ((510, YStr ""%string) :: (579, YExprs [mkXp (Some a) k]) :: (inside_at q, YNone) :: (q, v0) :: st) None R z tr); [each H; run|].
  eapply leads_trans; [apply (close_leads 579 836); vm_compute; reflexivity|]. each H; run.
Qed.
Lemma expr_seg q x t : In q starts -> In t after_expr ->
  leads (mkT ((270, YExpr (Some x)) :: (q, v0) :: st) None (t :: R) z tr)
        (mkT ((expr_at q, YExpr (Some x)) :: (q, v0) :: st) None (t :: R) z tr).
Proof. intros H G. destruct x. each H; each G; run. Qed.
Lemma compare_seg q x o : In q starts ->
  leads (mkT ((270, YExpr (Some x)) :: (q, v0) :: st) None (op_token o :: R) z tr)
        (mkT ((537, YStr (sql_operator o)) :: (270, YExpr (Some x)) :: (q, v0) :: st) None R z tr).
Proof. intros H. destruct x. each H; destruct o; run. Qed.
Lemma compare_end q a k b k' o t : In q starts -> In t after_expr ->
  leads (mkT ((798, YExpr (Some (mkXp (Some b) k'))) :: (537, YStr o) :: (270, YExpr (Some (mkXp (Some a) k))) :: (q, v0) :: st) None (t :: R) z tr)
        (mkT ((expr_at q, YExpr (Some (mkXp (Some (a ++ (" " ++ o ++ " ") ++ b ++ "")%string) XOther))) :: (q, v0) :: st) None (t :: R) z tr).
Proof. intros H G. each H; each G; run. Qed.
Lemma null_seg q a k t : In q starts -> In t after_expr ->
  leads (mkT ((270, YExpr (Some (mkXp (Some a) k))) :: (q, v0) :: st) None ((KTok "IS", "is"%string) :: (KTok "NULL", "null"%string) :: t :: R) z tr)
        (mkT ((expr_at q, YExpr (Some (mkXp (Some (a ++ " is null")%string) XOther))) :: (q, v0) :: st) None (t :: R) z tr).
Proof.
  intros H G. apply leads_trans with
    (mkT ((expr_at q, YExpr (Some (mkXp (Some a) k))) :: (q, v0) :: st) None ((KTok "IS", "is"%string) :: (KTok "NULL", "null"%string) :: t :: R) z tr).
  - each H; run.
  - each H; each G; run.
Qed.
Lemma not_null_seg q a k t : In q starts -> In t after_expr ->
  leads (mkT ((270, YExpr (Some (mkXp (Some a) k))) :: (q, v0) :: st) None
          ((KTok "IS", "is"%string) :: (KTok "NOT", "not"%string) :: (KTok "NULL", "null"%string) :: t :: R) z tr)
        (mkT ((expr_at q, YExpr (Some (mkXp (Some (a ++ " is not null")%string) XOther))) :: (q, v0) :: st) None (t :: R) z tr).
Proof.
  intros H G. apply leads_trans with (mkT ((expr_at q, YExpr (Some (mkXp (Some a) k))) :: (q, v0) :: st) None
          ((KTok "IS", "is"%string) :: (KTok "NOT", "not"%string) :: (KTok "NULL", "null"%string) :: t :: R) z tr).
  - each H; run.
  - each H; each G; run.
Qed.
Lemma and_seg q x : In q starts -> q <> 528 ->
  leads (mkT ((expr_at q, YExpr (Some x)) :: (q, v0) :: st) None ((KTok "AND", "and"%string) :: R) z tr)
        (mkT ((528, YStr "and"%string) :: (expr_at q, YExpr (Some x)) :: (q, v0) :: st) None R z tr).
Proof. intros H N. destruct x. each H; try congruence; run. Qed.
Lemma and_end q a k b k' t : In q starts -> q <> 528 -> In t after_expr ->
  leads (mkT ((786, YExpr (Some (mkXp (Some b) k'))) :: (528, YStr "and"%string) :: (expr_at q, YExpr (Some (mkXp (Some a) k))) :: (q, v0) :: st) None (t :: R) z tr)
        (mkT ((expr_at q, YExpr (Some (mkXp (Some (a ++ " and " ++ b ++ "")%string) XOther))) :: (q, v0) :: st) None (t :: R) z tr).
Proof. intros H N G. each H; try congruence; each G; run. Qed.
Lemma or_seg q x : In q starts -> q <> 528 -> q <> 529 ->
  leads (mkT ((expr_at q, YExpr (Some x)) :: (q, v0) :: st) None ((KTok "OR", "or"%string) :: R) z tr)
        (mkT ((529, YStr "or"%string) :: (expr_at q, YExpr (Some x)) :: (q, v0) :: st) None R z tr).
Proof. intros H N N'. destruct x. each H; try congruence; run. Qed.
Lemma or_end q a k b k' t : In q starts -> q <> 528 -> q <> 529 -> In t after_expr -> t <> (KTok "AND", "and"%string) ->
  leads (mkT ((787, YExpr (Some (mkXp (Some b) k'))) :: (529, YStr "or"%string) :: (expr_at q, YExpr (Some (mkXp (Some a) k))) :: (q, v0) :: st) None (t :: R) z tr)
        (mkT ((expr_at q, YExpr (Some (mkXp (Some (a ++ " or " ++ b ++ "")%string) XOther))) :: (q, v0) :: st) None (t :: R) z tr).
Proof. intros H N N' G M. each H; try congruence; each G; try congruence; run. Qed.
End Segments.

(** ** Names and texts are printed as they are *)
Lemma name_start_letter c : name_start c = true -> is_letter c = true.
Proof. destruct c as [[] [] [] [] [] [] [] []]; vm_compute; congruence. Qed.
Lemma name_char_word c : name_char c = true -> is_letter c || is_digit c = true.
Proof. destruct c as [[] [] [] [] [] [] [] []]; vm_compute; congruence. Qed.
Lemma name_char_lower c : name_char c = true -> lower_ascii c = c.
Proof. destruct c as [[] [] [] [] [] [] [] []]; vm_compute; congruence. Qed.
Lemma name_start_char c : name_start c = true -> name_char c = true.
Proof. unfold name_char. now intros ->. Qed.
Lemma all_chars_in f s : all_chars f s = true <-> forall c, In c (list_ascii_of_string s) -> f c = true.
Proof.
  induction s as [|c s IH]; [split; [intros _ c []|reflexivity]|]. cbn [all_chars list_ascii_of_string]. rewrite andb_true_iff, IH.
  split; [intros [A B] d [<-|D]; auto|intros H; split; [now apply H; left|intros d D; apply H; now right]].
Qed.
Lemma to_lower_same s : all_chars name_char s = true -> to_lower s = s.
Proof.
  induction s as [|c s IH]; [reflexivity|]. cbn [all_chars to_lower]. intros H. apply andb_true_iff in H as [H1 H2]. now rewrite (name_char_lower c H1), IH.
Qed.
Lemma keyword_none n : is_keyword n = false -> find_keyword keywords n = None.
Proof.
  unfold is_keyword. induction keywords as [|[w k] l IH]; [reflexivity|]. cbn [existsb fst find_keyword]. intros H. apply orb_false_iff in H as [H1 H2].
  rewrite String.eqb_sym in H1. rewrite ?H1. rewrite String.eqb_sym in H1. rewrite ?H1. auto.
Qed.
Lemma simple_parts n : simple_name n = true -> exists c w, n = String c w /\ name_start c = true /\ all_chars name_char w = true /\
  is_keyword n = false /\ n <> "dual"%string.
Proof.
  unfold simple_name. intros H. rewrite !andb_true_iff, !negb_true_iff in H. destruct H as [[[H1 H2] H3] H4]. destruct n as [|c w]; [discriminate|].
  exists c, w. cbn [all_chars] in H2. apply andb_true_iff in H2 as [_ H2]. repeat split; auto. now apply String.eqb_neq.
Qed.
Lemma simple_bare n : simple_name n = true -> bare_name n = true.
Proof.
  intros H. destruct (simple_parts n H) as (c & w & -> & H1 & H2 & H3 & H4). unfold bare_name.
  rewrite to_lower_same by (cbn [all_chars]; now rewrite (name_start_char c H1), H2). rewrite (keyword_none _ H3). rewrite andb_true_r, negb_true_iff.
  cbn [must_escape]. rewrite (name_start_letter c H1). cbn [negb andb]. apply must_escape_false. rewrite all_chars_in in *. intros d D.
  now rewrite (name_char_word d (H2 d D)).
Qed.
Lemma simple_format n : simple_name n = true -> format_id n = n.
Proof. intros H. now rewrite format_id_eq, (simple_bare n H). Qed.
Lemma plain_encode s : all_chars plain_text_char s = true -> encode_bytes_sql s = ("'" ++ s ++ "'")%string.
Proof.
  intros H. unfold encode_bytes_sql. do 2 f_equal. induction s as [|c s IH]; [reflexivity|]. cbn [all_chars] in H. apply andb_true_iff in H as [H1 H2].
  cbn [encode_chars]. rewrite (IH H2). revert H1. clear. destruct c as [[] [] [] [] [] [] [] []]; vm_compute; congruence.
Qed.

(** ** Expressions *)
Definition after_level (e : ex) (t : token) : Prop := In t after_expr /\ (ex_level e = 3%nat -> t <> (KTok "AND", "and"%string)).
Definition start_level (e : ex) (q : Z) : Prop := In q starts /\ (q = 528 -> (ex_level e <= 1)%nat) /\ (q = 529 -> (ex_level e <= 2)%nat).

Lemma after_expr_value t : In t after_expr -> In t after_value.
Proof. intros H. unfold after_value. apply in_app_iff. now left. Qed.
Lemma op_after_value o : In (op_token o) after_value.
Proof. unfold after_value. apply in_app_iff. right. apply in_app_iff. left. apply in_map. destruct o; cbn; tauto. Qed.
Lemma value_270 q : In q starts -> value_at q = 270.
Proof. intros H. each H; reflexivity. Qed.

Definition value_run (e : ex) : Prop :=
  forall q v0 st t R z tr, In q (537 :: starts) -> In t after_value -> z + Z.of_nat (ex_depth e) < 200 ->
  leads (mkT ((q, v0) :: st) None (ex_tokens e ++ t :: R) z tr) (mkT ((value_at q, ex_value e) :: (q, v0) :: st) None (t :: R) z tr).
Definition expr_run (e : ex) : Prop :=
  forall q v0 st t R z tr, start_level e q -> after_level e t -> z + Z.of_nat (ex_depth e) < 200 ->
  leads (mkT ((q, v0) :: st) None (ex_tokens e ++ t :: R) z tr) (mkT ((expr_at q, ex_value e) :: (q, v0) :: st) None (t :: R) z tr).

Lemma value_expr e : ex_level e = O -> value_run e -> expr_run e.
Proof.
  intros L V q v0 st t R z tr (Q & _) (T & _) Z. eapply leads_trans; [apply V; [now right|now apply after_expr_value|exact Z]|].
  rewrite (value_270 q Q). now apply expr_seg.
Qed.
Lemma inside_in q : In q (537 :: starts) -> start_level (EColumn "") (inside_at q) /\ expr_at (inside_at q) = 580.
Proof. intros H. each H; repeat split; try reflexivity; cbn; try tauto; try discriminate. Qed.

Lemma group_leads e q v0 st R z tr : expr_run e -> In q (537 :: starts) -> z + Z.of_nat (S (ex_depth e)) < 200 ->
  leads (mkT ((q, v0) :: st) None (ex_tokens (EGroup e) ++ R) z tr) (mkT ((value_at q, ex_value (EGroup e)) :: (q, v0) :: st) None R z tr).
Proof.
  intros E Q Z. destruct (inside_in q Q) as [[Q1 Q2] Q3]. cbn [ex_tokens]. cbn [app]. rewrite <- app_assoc. cbn [app].
  eapply leads_trans; [apply open_seg; [exact Q|lia]|].
  eapply leads_trans; [apply E; [|split; [cbn; tauto|discriminate]|lia]|].
  - split; [exact Q1|]. assert (N : inside_at q = 303 \/ inside_at q = 581) by (unfold inside_at; destruct (_ || _); auto). split; intros X; lia.
  - rewrite Q3. unfold ex_value. cbn [ex_kind sql_text]. rewrite <- (Z.add_simpl_r z 1) at 2. now apply close_seg.
Qed.
Lemma group_run e : expr_run e -> value_run (EGroup e).
Proof. intros E q v0 st t R z tr Q T Z. now apply group_leads. Qed.
Lemma column_run n : simple_name n = true -> value_run (EColumn n).
Proof.
  intros O q v0 st t R z tr Q T Z. unfold ex_value. cbn [sql_text ex_kind ex_tokens app]. rewrite <- (simple_format n O) at 2. now apply id_seg.
Qed.

Lemma ex_runs e : ex_ok e = true -> (ex_level e = O -> value_run e) /\ expr_run e.
Proof.
  assert (Zero : forall e, ex_level e = O -> value_run e -> (ex_level e = O -> value_run e) /\ expr_run e) by (intros; split; [auto|now apply value_expr]).
  induction e as [n|tb n|i|s|s|n|e IH|o a IHa b IHb|e IH|e IH|a IHa b IHb|a IHa b IHb]; intros O; cbn [ex_ok] in O.
  - apply Zero; [reflexivity|]. now apply column_run.
  - apply Zero; [reflexivity|]. apply andb_true_iff in O as [O1 O2]. intros q v0 st t R z tr Q T Z. unfold ex_value. cbn [sql_text ex_kind ex_tokens app].
    rewrite <- (simple_format tb O1) at 2. rewrite <- (simple_format n O2) at 2. destruct (simple_parts tb O1) as (c & w & -> & _). now apply field_seg.
  - apply Zero; [reflexivity|]. intros q v0 st t R z tr Q T Z. unfold ex_value. cbn [sql_text ex_kind ex_tokens app]. now apply int_seg.
  - apply Zero; [reflexivity|]. intros q v0 st t R z tr Q T Z. unfold ex_value. cbn [sql_text ex_kind ex_tokens].
    eapply leads_trans; [now apply str_seg|]. eapply leads_trans; [apply (cast_seg v0 st (t :: R) z tr q _ _ Q)|].
    rewrite (plain_encode s O), !sapp_assoc. apply leads_refl.
  - apply Zero; [reflexivity|]. intros q v0 st t R z tr Q T Z. unfold ex_value. cbn [sql_text ex_kind ex_tokens app]. rewrite <- (plain_encode s O). now apply str_seg.
  - apply Zero; [reflexivity|]. intros q v0 st t R z tr Q T Z. cbn [ex_depth] in Z.
    change (ex_tokens (EAsText n) ++ t :: R) with (ex_tokens (EGroup (EColumn n)) ++ cast_tokens ++ t :: R).
    eapply leads_trans; [apply group_leads; [apply value_expr, column_run; auto|exact Q|cbn [ex_depth]; lia]|].
    unfold ex_value. eapply leads_trans; [apply (cast_seg v0 st (t :: R) z tr q _ _ Q)|]. cbn [sql_text ex_kind]. rewrite !sapp_assoc. apply leads_refl.
  - apply Zero; [reflexivity|]. apply group_run. now apply IH.
  - split; [discriminate|]. rewrite !andb_true_iff in O. destruct O as [[[L1 L2] O1] O2]. apply Nat.eqb_eq in L1, L2.
    intros q v0 st t R z tr (Q & _) (T & _) Z. cbn [ex_depth] in Z. cbn [ex_tokens]. rewrite <- app_assoc. cbn [app].
    eapply leads_trans; [apply (proj1 (IHa O1) L1); [now right|apply op_after_value|lia]|]. rewrite (value_270 q Q).
    eapply leads_trans; [now apply compare_seg|].
    eapply leads_trans; [apply (proj1 (IHb O2) L2); [now left|now apply after_expr_value|lia]|].
    eapply leads_trans; [now apply compare_end|]. unfold ex_value. cbn [sql_text ex_kind]. rewrite !sapp_nil_r, !sapp_assoc. apply leads_refl.
  - split; [discriminate|]. rewrite !andb_true_iff in O. destruct O as [L O]. apply Nat.eqb_eq in L.
    intros q v0 st t R z tr (Q & _) (T & _) Z. cbn [ex_depth] in Z. cbn [ex_tokens]. rewrite <- app_assoc. cbn [app].
    eapply leads_trans; [apply (proj1 (IH O) L); [now right|cbn; tauto|lia]|]. rewrite (value_270 q Q). now apply null_seg.
  - split; [discriminate|]. rewrite !andb_true_iff in O. destruct O as [L O]. apply Nat.eqb_eq in L.
    intros q v0 st t R z tr (Q & _) (T & _) Z. cbn [ex_depth] in Z. cbn [ex_tokens]. rewrite <- app_assoc. cbn [app].
    eapply leads_trans; [apply (proj1 (IH O) L); [now right|cbn; tauto|lia]|]. rewrite (value_270 q Q). now apply not_null_seg.
  - split; [discriminate|]. rewrite !andb_true_iff in O. destruct O as [[[L1 L2] O1] O2]. apply Nat.leb_le in L1, L2.
    intros q v0 st t R z tr (Q & Q2 & Q3) (T & _) Z. cbn [ex_level] in Q2, Q3. cbn [ex_depth] in Z. cbn [ex_tokens]. rewrite <- app_assoc. cbn [app].
    assert (N : q <> 528) by (intros X; specialize (Q2 X); lia).
    eapply leads_trans; [apply (proj2 (IHa O1)); [repeat split; [exact Q|intros; contradiction|lia]|split; [cbn; tauto|intros X; lia]|lia]|].
    eapply leads_trans; [now apply and_seg|].
    eapply leads_trans; [apply (proj2 (IHb O2)); [repeat split; [cbn; tauto|lia|discriminate]|split; [exact T|lia]|lia]|].
    eapply leads_trans; [apply (and_end v0 st R z tr q); auto|]. unfold ex_value. cbn [sql_text ex_kind]. rewrite !sapp_nil_r. apply leads_refl.
  - split; [discriminate|]. rewrite !andb_true_iff in O. destruct O as [[[L1 L2] O1] O2]. apply Nat.leb_le in L1, L2.
    intros q v0 st t R z tr (Q & Q2 & Q3) (T & T2) Z. cbn [ex_level] in Q2, Q3, T2. specialize (T2 eq_refl). cbn [ex_depth] in Z. cbn [ex_tokens]. rewrite <- app_assoc. cbn [app].
    assert (N : q <> 528) by (intros X; specialize (Q2 X); lia). assert (N' : q <> 529) by (intros X; specialize (Q3 X); lia).
    eapply leads_trans; [apply (proj2 (IHa O1)); [repeat split; [exact Q|intros; contradiction|intros; contradiction]|split; [cbn; tauto|discriminate]|lia]|].
    eapply leads_trans; [now apply or_seg|].
    eapply leads_trans; [apply (proj2 (IHb O2)); [repeat split; [cbn; tauto|discriminate|lia]|split; [exact T|lia]|lia]|].
    eapply leads_trans; [apply (or_end v0 st R z tr q); auto|]. unfold ex_value. cbn [sql_text ex_kind]. rewrite !sapp_nil_r. apply leads_refl.
Qed.
