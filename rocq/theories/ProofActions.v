(** The values of symbols are of the kind the actions expect. *)
From Coq Require Import String Ascii List ZArith Bool Lia.
From Verif Require Import Lexer ParserTables SqlAst ParserValues ParserActions Parser SpecGrammar ParserCert ProofGrammar.
Import ListNotations.
Local Open Scope Z_scope.

Definition has_type (ty : value_type) (v : yval) : Prop :=
  match ty with
  | TAny => True
  | TNone => v = YNone
  | TStr => exists x, v = YStr x
  | TBool => exists x, v = YBool x
  | TStrs => exists x, v = YStrs x
  | TText => exists x, v = YText x
  | TTexts => exists x, v = YTexts x
  | TExpr => exists x, v = YExpr (Some x)
  | TExprOpt => exists x, v = YExpr x
  | TExprs => exists x, v = YExprs x
  | TColName => exists x y, v = YColName x y
  | TUpdate => exists x, v = YUpdate x
  | TUpdates => exists x, v = YUpdates x
  | TInsert => exists x y, v = YInsert x y
  | TVal => exists x, v = YVal x
  | TLens => exists x y, v = YLens x y
  | TTable => exists x, v = YTable x
  | TTables => exists x, v = YTables x
  | TType => exists x, v = YType x
  | TColumn => exists x, v = YColumn x
  | TSeq => exists x, v = YSeq x
  | TIndexInfo => exists x, v = YIndexInfo x
  | TIndexColumn => exists x, v = YIndexColumn x
  | TIndexColumns => exists x, v = YIndexColumns x
  | TIndexOption => exists x, v = YIndexOption x
  | TIndexOptions => exists x, v = YIndexOptions x
  | TIndexPartition => exists x, v = YIndexPartition x
  | TIndex => exists x, v = YIndex x
  | TFk => exists x, v = YFk x
  | TSpec => exists x, v = YSpec x
  | TStmt => exists x, v = YStmt x
  | TCommand => (exists x, v = YStmt x) \/ (exists x, v = YText x)
  end.

Definition type_named (name : string) : value_type :=
  match List.find (fun x => String.eqb (fst x) name) nonterminals with Some (_, ty) => ty | None => TAny end.
Definition type_of (x : symbol) : value_type :=
  match x with Terminal _ => TStr | Nonterminal name => type_named name end.

(** What the action of production [i] may give. *)
Definition well_typed (i : Z) (ty : value_type) (r : reduced) : Prop :=
  match r with Value v => has_type ty v | ReturnOne => i = 667 | NilDereference => i = 139 | IllTyped => False end.
Definition typed (x : Z * (list value_type * value_type)) : Prop :=
  forall args, Forall2 has_type (fst (snd x)) args -> well_typed (fst x) (snd (snd x)) (act (fst x) args).

Fixpoint numbered {A} (i : Z) (l : list A) : list (Z * A) :=
  match l with [] => [] | x :: l' => (i, x) :: numbered (i + 1) l' end.
Definition signature (p : string * list symbol) : list value_type * value_type :=
  (map type_of (snd p), type_named (fst p)).
Definition signatures : list (Z * (list value_type * value_type)) :=
  Eval vm_compute in numbered 0 (map signature productions).

Lemma args_cons ty tys args : Forall2 has_type (ty :: tys) args ->
  exists v l, args = v :: l /\ has_type ty v /\ Forall2 has_type tys l.
Proof. intros H. inversion H; subst. eauto. Qed.
Lemma args_nil args : Forall2 has_type [] args -> args = [].
Proof. intros H. now inversion H. Qed.
Ltac inv_args :=
  repeat match goal with
  | H : Forall2 has_type (_ :: _) _ |- _ => apply args_cons in H; destruct H as (? & ? & -> & ? & H)
  | H : Forall2 has_type [] _ |- _ => apply args_nil in H; subst
  end.
Ltac open_values :=
  repeat match goal with
  | H : has_type TCommand _ |- _ => destruct H as [[? ->]|[? ->]]
  | H : has_type TAny _ |- _ => clear H
  | H : has_type _ _ |- _ => cbv [has_type] in H
  | H : exists _, _ |- _ => destruct H as [? H]
  | H : ?v = _ |- _ => subst v
  end.
Ltac typed_action :=
  let args := fresh "args" in let H := fresh "H" in
  unfold typed; cbn [fst snd]; intros args H; inv_args;
  cbv beta iota zeta delta [act statements definitions column_options column_types keys_and_options other_statements
    table_expressions expressions values_and_names first_value Z.leb Z.compare Pos.compare Pos.compare_cont Z.to_pos];
  open_values;
  cbv beta iota zeta delta [get nth_error as_str as_bool as_strs as_text as_texts as_expr as_expr_opt as_exprs as_col_name
    as_update as_updates as_insert as_val as_lens as_table as_tables as_type as_column as_seq as_index_info as_index_column
    as_index_columns as_index_option as_index_options as_index_partition as_index as_fk as_spec as_stmt];
  try match goal with
  | |- well_typed 139 _ (match ?o with Some _ => _ | None => _ end) => destruct o
  | |- well_typed 667 _ (if ?b then _ else _) => destruct b
  end;
  cbv beta iota zeta delta [well_typed];
  first
  [ exact I | reflexivity
  | cbv [has_type]; first [exact I | reflexivity | eexists; reflexivity | do 2 eexists; reflexivity
      | left; eexists; reflexivity | right; eexists; reflexivity ] ].

Definition part (k : nat) := firstn 100 (skipn (100 * k) signatures).
Ltac typed_part k := cbv [part Nat.mul Nat.add firstn skipn signatures];
  repeat (apply Forall_cons; [typed_action|]); apply Forall_nil.
Lemma typed_0 : Forall typed (part 0). Proof. typed_part 0. Qed.
Lemma typed_1 : Forall typed (part 1). Proof. typed_part 1. Qed.
Lemma typed_2 : Forall typed (part 2). Proof. typed_part 2. Qed.
Lemma typed_3 : Forall typed (part 3). Proof. typed_part 3. Qed.
Lemma typed_4 : Forall typed (part 4). Proof. typed_part 4. Qed.
Lemma typed_5 : Forall typed (part 5). Proof. typed_part 5. Qed.
Lemma typed_6 : Forall typed (part 6). Proof. typed_part 6. Qed.
Lemma typed_7 : Forall typed (part 7). Proof. typed_part 7. Qed.
Lemma typed_8 : Forall typed (part 8). Proof. typed_part 8. Qed.
Lemma typed_9 : Forall typed (part 9). Proof. typed_part 9. Qed.

Lemma numbered_nth {A} (l : list A) : forall i n x, nth_error l n = Some x -> In (i + Z.of_nat n, x) (numbered i l).
Proof.
  induction l as [|y l IH]; intros i n x H; [destruct n; discriminate|]. destruct n as [|n].
  - injection H as <-. left. f_equal. lia.
  - right. cbn in H. specialize (IH (i + 1) n x H). replace (i + Z.of_nat (S n)) with (i + 1 + Z.of_nat n) by lia. exact IH.
Qed.
Lemma signatures_eq : signatures = numbered 0 (map signature productions).
Proof. vm_compute. reflexivity. Qed.
Lemma parts : signatures = part 0 ++ part 1 ++ part 2 ++ part 3 ++ part 4 ++ part 5 ++ part 6 ++ part 7 ++ part 8 ++ part 9.
Proof. vm_compute. reflexivity. Qed.
Lemma all_typed : Forall typed signatures.
Proof.
  rewrite parts. repeat (apply Forall_app; split); 
  auto using typed_0, typed_1, typed_2, typed_3, typed_4, typed_5, typed_6, typed_7, typed_8, typed_9.
Qed.

Lemma act_typed i name xs args : production i = Some (name, xs) -> Forall2 has_type (map type_of xs) args ->
  well_typed i (type_named name) (act i args).
Proof.
  intros P H. unfold production in P. destruct (i <? 0) eqn:E; [discriminate|]. apply Z.ltb_ge in E.
  assert (I : In (i, signature (name, xs)) signatures).
  { rewrite signatures_eq. replace i with (0 + Z.of_nat (Z.to_nat i)) by lia. apply numbered_nth.
    rewrite nth_error_map, P. reflexivity. }
  pose proof (proj1 (Forall_forall _ _) all_typed _ I) as T. exact (T args H).
Qed.
