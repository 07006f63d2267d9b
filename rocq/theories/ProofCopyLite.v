(** A SQLite database is copied by its export (C101). *)
From Coq Require Import String Ascii List ZArith Bool.
From Verif Require Import GoStr GoStrFacts Ast Generator SchemaText SchemaParse Parser Planner Catalog AdapterSqlite SpecText SpecExport SpecPlan SpecLayout SpecSqlite
  ProofPlan ProofSteps ProofSelf ProofSqlite ProofSqliteRun Runner SpecRunner SpecTwoRuns CommandLine SpecUrl SpecCommand SpecLine ProofLine.
Import ListNotations.
Local Open Scope string_scope.
Local Open Scope list_scope.

Section Copy.
Variables (master : list lite_row) (text : string).
Hypothesis Hk : lite_ok master.
Hypothesis Hset : forall n t, holds master n (LTable t) -> settled SQLite3 [CreateTable "" t].
Hypothesis Hsays : forall r x, In r master -> object_row r -> lr_sql r = Some x -> ~ lite_hidden (lr_table r) /\ exists w, SpecLayout.says SQLite3 x w.
Hypothesis Hd : lite_dump master = Some text.

Lemma exported_schema : exists l, parse_file SQLite3 text = Ok l /\ export_of master l /\ lite_schema l.
Proof.
  destruct (export_read master Hk) as (t' & ds & D' & P & X). rewrite Hd in D'. injection D' as <-. exists ds. split; [exact P|]. split; [exact X|].
  assert (S : settled SQLite3 ds).
  { pose proof (nodup_l _ _ (eo_names _ _ X)) as N. split; [exact N|]. split.
    - unfold triggers_in. rewrite (only_none _ ds (eo_only _ _ X)) by (intros []; auto). constructor.
    - intros d I. pose proof (eo_only _ _ X d I) as O. destruct d as [s t| | | | | |v|]; try contradiction; [|exact Logic.I].
      assert (T : In t (tables_in ds)) by (apply in_tables_in; eauto). pose proof (proj1 (eo_table _ _ X t) T) as Q. apply Hset in Q. destruct Q as (_ & _ & Q).
      specialize (Q _ (or_introl eq_refl)). cbn [settled_ddl] in *.
      assert (N1 : NoDup (created [CreateTable "" t])) by (constructor; [intros []|constructor]).
      assert (T1 : In t (tables_in [CreateTable "" t])) by now left.
      unfold index_names_of, fk_names_of, policy_names_of in *.
      rewrite !(only_names _ ds t N T). rewrite !(only_names _ [CreateTable "" t] t) in Q by (exact N1 || exact T1).
      unfold indexes_on, fks_on, policies_on in *. rewrite !(only_none _ ds (eo_only _ _ X)) by (intros []; auto). exact Q. }
  constructor; [|exact (eo_names _ _ X)|exact S].
  intros d I. pose proof (eo_only _ _ X d I) as O.
  assert (Rd : exists r x, In r master /\ object_row r /\ lr_sql r = Some x /\ plain_statement x /\ ddl_statement d = x /\
    match d with CreateTable _ t => t_name t = lr_table r | DView v => vw_name v = lr_table r | _ => False end).
  { destruct (export_rows master Hk) as (ts & vs & T & V & E). unfold lite_dump in Hd. rewrite E in Hd. cbn [option_map] in Hd.
    destruct (row_reads_parse _ _ (Forall2_app T V)) as [A B]. pose proof (join_read (ts ++ vs) B A) as J.
    assert (Ht : join (";" ++ nl ++ nl)%string (map ddl_statement (ts ++ vs)) = text) by (now inversion Hd). rewrite Ht, P in J. injection J as ->.
    destruct (reads_in _ _ (Forall2_app T V) d I) as (r & R & x & o & Sq & Ty & M & Z). exists r, x.
    assert (Rm : In r master /\ object_row r).
    { apply in_app_or in R as [R|R]; apply filter_In in R as [R Y]; (split; [exact R|]); [now apply table_row_object|now apply view_row_object]. }
    destruct Rm as [Rm Ro]. split; [exact Rm|]. split; [exact Ro|]. split; [exact Sq|]. destruct M as [M1 M2]. split; [exact M1|]. subst d. destruct o as [t|e]; cbn; split; auto. exact (proj2 M2). }
  destruct Rd as (r & x & R1 & R2 & R3 & R4 & R5 & R6). destruct (Hsays r x R1 R2 R3) as [H1 H2]. destruct d as [s t| | | | | |v|]; try contradiction; cbn in *; subst.
  - split; [split; assumption|]. now rewrite R6.
  - split; [split; assumption|]. now rewrite R6.
Qed.

Lemma empty_ok : lite_ok [].
Proof. constructor; [intros r []| |intros r []]. intros a r b E. destruct a; discriminate. Qed.
Lemma empty_convertible l : lite_convertible l [].
Proof. constructor; [intros t o _ (r & x & [] & _)|intros v o _ (r & x & [] & _)|intros r []]. Qed.

Theorem lite_copy_typed step connect mc words path file db :
  line_names_file mc words path file -> connect (FileAddress path) = Some db ->
  answers (on_machine mc db) file text "" -> serves step (on_machine mc db) [] ->
  (forall l out, parse_file SQLite3 text = Ok l -> plan SQLite3 l [] = Ok out -> allows step executes out) ->
  opened (typed connect SQLite3 mc words) = [FileAddress path] /\
  exists c, applied step (doings (typed connect SQLite3 mc words)) [] c /\ lite_ok c /\
    (forall n t, holds c n (LTable t) <-> holds master n (LTable t)) /\
    (forall n e, holds c n (LView e) -> exists e', holds master n (LView e') /\ same_letters e e') /\
    (forall n e, holds master n (LView e) -> exists e', holds c n (LView e') /\ same_letters e' e).
Proof.
  intros Hl Hf A V U. destruct exported_schema as (l & P & X & S).
  destruct (lite_typed step connect mc words path file db [] "" text l Hl Hf P S empty_ok (empty_convertible l) eq_refl A V) as (O & c & C1 & C2 & C3 & _).
  { intros out ds E F. change (parse_file SQLite3 "") with (Ok (@nil ddl)) in E. injection E as <-. exact (U l out P F). }
  split; [exact O|]. exists c. split; [exact C1|]. split; [exact C3|].
  assert (Forth : forall n t, holds master n (LTable t) -> holds c n (LTable t)).
  { intros n t H. pose proof H as (r & x & _ & _ & _ & _ & _ & _ & _ & N). rewrite <- N in *. apply (lh_table _ _ C2). now apply (eo_table _ _ X). }
  assert (View : forall n e, holds master n (LView e) -> exists e', holds c n (LView e') /\ same_letters e' e).
  { intros n e H. destruct (eo_held _ _ X n e H) as (v & I & <- & <-). exact (lh_view _ _ C2 v I). }
  assert (Back : forall n o, holds c n o -> exists o', holds master n o' /\ match o, o' with LTable t, LTable t' => t = t' | LView e, LView e' => same_letters e e' | _, _ => False end).
  { intros n o H. pose proof (lh_other _ _ C2 n o H) as I. apply in_app_or in I as [I|I].
    - unfold created in I. apply in_map_iff in I as (t & <- & I). pose proof (lh_table _ _ C2 t I) as H2. rewrite (holds_unique c _ _ _ C3 H H2). exists (LTable t). split; [now apply (eo_table _ _ X)|reflexivity].
    - apply in_map_iff in I as (v & <- & I). destruct (lh_view _ _ C2 v I) as (e & H2 & E). rewrite (holds_unique c _ _ _ C3 H H2). exists (LView (vw_definition v)). split; [exact (eo_view _ _ X v I)|exact E]. }
  split; [|split].
  - intros n t. split; [|apply Forth]. intros H. destruct (Back n _ H) as ([t'|e'] & H1 & H2); [now subst|destruct H2].
  - intros n e H. destruct (Back n _ H) as ([t'|e'] & H1 & H2); [destruct H2|]. now exists e'.
  - exact View.
Qed.
End Copy.
