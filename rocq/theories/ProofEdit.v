(** Proofs for C105: editing one object of a file touches no other. *)
From Coq Require Import String Ascii List ZArith Bool.
From Verif Require Import GoStr GoStrFacts Ast Generator SpecPlan SpecMysql SpecDatabase SpecPostgres SpecMssql SpecEdit ProofPlan ProofSteps ProofTables
  ProofCompare ProofExact ProofObjects ProofColumns ProofSelf ProofMysql ProofConverge ProofSettle ProofDatabase ProofPg ProofMs ProofFrame.
Import ListNotations.
Local Open Scope string_scope.
Local Open Scope list_scope.

Theorem unedited m n l l' current out' :
  NoDup (created l) -> NoDup (created l') -> plan m l current = Ok [] -> plan m l' current = Ok out' ->
  statements_on n l = statements_on n l' -> forall s, In s out' -> eff_table (s_eff s) <> Some n.
Proof.
  intros N N' P P' E s S T. assert (F := plan_frame m n l current [] l' current out' N N' P P' E eq_refl).
  assert (I : In s (table_part n out')) by (apply filter_In; split; [exact S|]; rewrite T; cbn; apply String.eqb_refl).
  rewrite <- F in I. exact I.
Qed.

(** ** Views *)
Lemma contrib_in {A B} (R : A -> list B -> Prop) l out : contrib R l out -> forall y, In y out -> exists x o, In x l /\ R x o /\ In y o.
Proof.
  induction 1 as [|x o l out H _ IH]; intros y Y; [destruct Y|]. apply in_app_iff in Y as [Y|Y]; [exists x, o; cbn; auto|].
  destruct (IH y Y) as (x' & o' & X & Q & Z). exists x', o'. cbn. auto.
Qed.
Lemma contrib_none {A B} (R : A -> list B -> Prop) l out : contrib R l out -> out = [] -> forall x, In x l -> R x [].
Proof.
  induction 1 as [|x o l out H _ IH]; intros E y Y; [destruct Y|]. apply app_eq_nil in E as [-> E]. destruct Y as [<-|Y]; [exact H|exact (IH E y Y)].
Qed.
Theorem unedited_view m n l l' current out' :
  NoDup (created l) -> NoDup (created l') -> plan m l current = Ok [] -> plan m l' current = Ok out' ->
  same_view_in n l l' -> In n (map vw_name (views_in l')) ->
  forall s o, In s out' -> In o (view_ops (s_eff s)) -> view_op_name o <> n.
Proof.
  intros N N' P P' (v & V & <- & U) IN s o S O E.
  destruct (view_ops_exact m l current [] N P) as (r & C & Z). cbn in Z. symmetry in Z. apply app_eq_nil in Z as [-> _].
  assert (H := contrib_none _ _ _ C eq_refl v V).
  destruct (view_ops_exact m l' current out' N' P') as (r' & C' & Z').
  assert (I : In o (effects view_ops out')) by (apply in_flat_map; eauto). rewrite Z' in I. apply in_app_iff in I as [I|I].
  - destruct (contrib_in _ _ _ C' o I) as (w & ops & W & D & X). unfold desired_view in H, D.
    assert (Nw : vw_name w = view_op_name o).
    { destruct (named vw_name (vw_name w) (views_in current)) as [cv|].
      - destruct D as [[_ ->]|[_ ->]]; [destruct X|]. destruct m; cbn in X; repeat (destruct X as [<-|X]; [reflexivity|]); destruct X.
      - subst ops. destruct X as [<-|[]]. reflexivity. }
    assert (Dw := U w W (eq_trans Nw E)). rewrite Nw, E in D.
    destruct (named vw_name (vw_name v) (views_in current)) as [cv|]; [|discriminate H].
    destruct H as [[L _]|[_ H]]; [|destruct m; discriminate H]. rewrite Dw in D.
    destruct D as [[_ ->]|[K _]]; [destruct X|exact (K L)].
  - apply in_map_iff in I as (w & <- & W). cbn in E. apply filter_In in W as [_ W]. rewrite E in W.
    apply negb_true_iff in W. apply mem_false in W. exact (W IN).
Qed.

(** ** Databases *)
Section Database.
Context {T : Type} (name : T -> string) (create : table -> option T) (alter : effect -> T -> option T) (replaceable : view -> string -> bool).
Hypothesis create_name : forall t x, create t = Some x -> name x = t_name t.
Hypothesis alter_keeps_name : forall e x x', alter e x = Some x' -> name x' = name x.

Lemma table_run_other e k l l' n : eff_table e = Some k -> k <> n -> table_run name create alter e k l = Some l' -> named name n l' = named name n l.
Proof.
  intros He N R.
  assert (A : match named name k l with
      | None => None
      | Some t => match alter e t with Some t' => Some (replace_named name k t' l) | None => None end
      end = Some l' -> named name n l' = named name n l).
  { destruct (named name k l) as [t|] eqn:Et; [|discriminate]. destruct (alter e t) as [t'|] eqn:Ea; [|discriminate]. intros H. injection H as <-.
    assert (Hn : name t' = k) by (rewrite (alter_keeps_name _ _ _ Ea); now apply named_some in Et).
    rewrite (lookup_replaced name k t' l n Hn). destruct (named name n l); [|reflexivity]. destruct (String.eqb_spec n k); [congruence|reflexivity]. }
  destruct e; cbn [eff_table] in He; try discriminate; try (exact (A R)).
  - destruct d; cbn [ddl_table] in He; try discriminate; try (exact (A R)). clear A. injection He as He. cbn [table_run] in R.
    destruct (mem k (map name l)); [discriminate|]. destruct (create t) as [y|] eqn:Ec; [|discriminate]. injection R as <-.
    rewrite named_app, named_cons, (create_name _ _ Ec), He. destruct (named name n l); [reflexivity|]. destruct (String.eqb_spec k n); [congruence|reflexivity].
  - clear A. cbn [table_run] in R. destruct (mem k (map name l)); [|discriminate]. injection R as <-. rewrite named_remove.
    destruct (String.eqb_spec n k); [congruence|reflexivity].
Qed.

Lemma execute_other e c c' n : eff_table e <> Some n -> execute name create alter replaceable e c = Some c' ->
  named name n (db_tables c') = named name n (db_tables c).
Proof.
  intros N. unfold execute. destruct (eff_table e) as [k|] eqn:E.
  - destruct (table_run name create alter e k (db_tables c)) as [l'|] eqn:R; [|discriminate]. intros H. injection H as <-. cbn.
    apply (table_run_other e k _ _ n E); [congruence|exact R].
  - destruct (view_ops e) as [|o [|? ?]]; destruct (trigger_ops e) as [|o' [|? ?]]; try discriminate;
      repeat match goal with |- context [match ?x with Some _ => _ | None => _ end] => destruct x; try discriminate end;
      intros H; injection H as <-; reflexivity.
Qed.

Lemma execute_all_other n out : forall c c', (forall s, In s out -> eff_table (s_eff s) <> Some n) ->
  execute_all name create alter replaceable out c = Some c' -> named name n (db_tables c') = named name n (db_tables c).
Proof.
  induction out as [|s out IH]; intros c c' H E; cbn in E; [now injection E as <-|].
  destruct (execute name create alter replaceable (s_eff s) c) as [c1|] eqn:X; [|discriminate].
  rewrite (IH c1 c' (fun y Y => H y (or_intror Y)) E). exact (execute_other _ _ _ n (H s (or_introl eq_refl)) X).
Qed.

Lemma stays m n l l' current out' pre b b' :
  NoDup (created l) -> NoDup (created l') -> plan m l current = Ok [] -> plan m l' current = Ok out' ->
  statements_on n l = statements_on n l' -> executed_first pre out' -> execute_all name create alter replaceable pre b = Some b' ->
  named name n (db_tables b') = named name n (db_tables b).
Proof.
  intros N N' P P' E (post & ->) X. apply (execute_all_other n pre); [|exact X].
  intros s S. apply (unedited m n l l' current _ N N' P P' E). apply in_app_iff. now left.
Qed.
End Database.

Theorem pg_stays castable replaceable n l l' b out' pre b' :
  NoDup (created l) -> NoDup (created l') -> plan Postgres l (pg_dump b) = Ok [] -> plan Postgres l' (pg_dump b) = Ok out' ->
  statements_on n l = statements_on n l' -> executed_first pre out' -> execute_all g_name pg_create (pg_alter castable) replaceable pre b = Some b' ->
  named g_name n (db_tables b') = named g_name n (db_tables b).
Proof. exact (stays g_name pg_create (pg_alter castable) replaceable pg_create_name (pg_alter_name castable) Postgres n l l' (pg_dump b) out' pre b b'). Qed.

Theorem ms_stays w replaceable n l l' b out' pre b' :
  NoDup (created l) -> NoDup (created l') -> plan Mssql l (ms_shown b) = Ok [] -> plan Mssql l' (ms_shown b) = Ok out' ->
  statements_on n l = statements_on n l' -> executed_first pre out' -> execute_all m_name (ms_create w) (ms_alter w) replaceable pre b = Some b' ->
  named m_name n (db_tables b') = named m_name n (db_tables b).
Proof. exact (stays m_name (ms_create w) (ms_alter w) replaceable (ms_create_name w) (ms_alter_name w) Mssql n l l' (ms_shown b) out' pre b b'). Qed.

(** ** MySQL *)
Lemma run_other e c c' n : eff_table e <> Some n -> run e c = Some c' -> named t_name n (cat_tables c') = named t_name n (cat_tables c).
Proof.
  intros N R.
  assert (A : match eff_table e with
      | None => None
      | Some n =>
          match table_named n (cat_tables c) with
          | None => None
          | Some t =>
              match alter_table e t with
              | Some t' => if integrity t'
                           then Some (mkCatalogue (replace_table n t' (cat_tables c)) (cat_views c) (cat_triggers c))
                           else None
              | None => None
              end
          end
      end = Some c' -> named t_name n (cat_tables c') = named t_name n (cat_tables c)).
  { destruct (eff_table e) as [k|]; [|discriminate]. destruct (table_named k (cat_tables c)) as [t|] eqn:Et; [|discriminate].
    destruct (alter_table e t) as [t'|] eqn:Ea; [|discriminate]. destruct (integrity t'); [|discriminate]. intros H. injection H as <-. cbn [cat_tables].
    assert (Hn : t_name t' = k) by (rewrite (alter_name _ _ _ Ea); now apply named_some in Et).
    pose proof (replace_lookup k t' (cat_tables c) n Hn) as L. unfold table_named in L. rewrite L. destruct (named t_name n (cat_tables c)); [|reflexivity].
    destruct (String.eqb_spec n k); [congruence|reflexivity]. }
  destruct e; cbn [run] in R; try (exact (A R)); try discriminate;
    try (repeat (destruct (mem _ _); try discriminate R); injection R as <-; reflexivity).
  - destruct d; cbn [run] in R; try (exact (A R)); try discriminate.
    + destruct (mem _ _); [discriminate|]. destruct (integrity (created_table t)); [|discriminate]. injection R as <-. cbn [cat_tables].
      rewrite named_app, named_cons. change (t_name (created_table t)) with (t_name t). destruct (named t_name n (cat_tables c)); [reflexivity|].
      destruct (String.eqb_spec (t_name t) n); [exfalso; apply N; cbn; congruence|reflexivity].
    + destruct (mem _ _); [discriminate|]. injection R as <-. reflexivity.
  - destruct (mem _ _); [|discriminate]. injection R as <-. cbn [cat_tables]. rewrite named_remove.
    destruct (String.eqb_spec n t); [exfalso; apply N; cbn; congruence|reflexivity].
Qed.
Lemma run_all_other n out : forall c c', (forall s, In s out -> eff_table (s_eff s) <> Some n) ->
  run_all out c = Some c' -> named t_name n (cat_tables c') = named t_name n (cat_tables c).
Proof.
  induction out as [|s out IH]; intros c c' H E; cbn in E; [now injection E as <-|].
  destruct (run (s_eff s) c) as [c1|] eqn:X; [|discriminate].
  rewrite (IH c1 c' (fun y Y => H y (or_intror Y)) E). exact (run_other _ _ _ n (H s (or_introl eq_refl)) X).
Qed.
Theorem my_stays n l l' b out' pre b' :
  NoDup (created l) -> NoDup (created l') -> plan Mysql l (dump b) = Ok [] -> plan Mysql l' (dump b) = Ok out' ->
  statements_on n l = statements_on n l' -> executed_first pre out' -> run_all pre b = Some b' ->
  named t_name n (cat_tables b') = named t_name n (cat_tables b).
Proof.
  intros N N' P P' E (post & ->) X. apply (run_all_other n pre); [|exact X].
  intros s S. apply (unedited Mysql n l l' (dump b) _ N N' P P' E). apply in_app_iff. now left.
Qed.
