(** CLUSTERED in the statements that add indexes on SQL Server. *)
From Coq Require Import String Ascii List ZArith Bool.
From Verif Require Import GoStr GoStrFacts Ast Generator SpecPlan SpecColumns SpecMysql SpecSql ProofSql SpecSource ProofSource SpecClustered.
Import ListNotations.
Local Open Scope string_scope.
Local Open Scope list_scope.

Lemma sentence_cons a b l : sentence (a :: b :: l) = (a ++ " " ++ sentence (b :: l))%string.
Proof. reflexivity. Qed.

Lemma added_index_word desired current out st t i :
  plan Mssql desired current = Ok out -> In st out -> s_eff st = EffAddIndex t i ->
  In i (table_indexes_of t desired) /\ creates_index (i_clustered i) (i_unique i) (i_name i) (s_text st).
Proof.
  intros P Hin E. pose proof (plan_says _ _ _ _ P) as S. pose proof (plan_asked _ _ _ _ P) as A. rewrite Forall_forall in S, A.
  specialize (S st Hin). specialize (A st Hin). cbn beta in S, A. unfold says in S. rewrite E in S, A. split; [exact A|]. cbn [sql_of] in S. destruct (i_primary i) eqn:Ep; [discriminate|].
  unfold add_key in S. rewrite Ep in S. destruct (option_words Mssql (i_options i)) as [o|]; [|discriminate]. injection S as <-.
  unfold creates_index, clustered_word, when. set (r := o ++ given _ _). destruct (i_unique i), (i_clustered i); cbn [app]; rewrite !sentence_cons;
    exists (table_ref Mssql t ++ " " ++ sentence (SpecSql.key_columns Mssql i :: r))%string; cbn [quoted]; do 3 (cbn [quoted append]; rewrite ?sapp_assoc); reflexivity.
Qed.

Lemma added_key_word desired current out st t i :
  plan Mssql desired current = Ok out -> In st out -> s_eff st = EffAddPrimaryKey t i ->
  (In i (table_indexes_of t desired) \/ exists x, In x (tables_in desired) /\ t_name x = t /\ key_of_columns x i) /\ adds_key (i_clustered i) (i_type i) (s_text st).
Proof.
  intros P Hin E. pose proof (plan_says _ _ _ _ P) as S. pose proof (plan_asked _ _ _ _ P) as A. rewrite Forall_forall in S, A.
  specialize (S st Hin). specialize (A st Hin). cbn beta in S, A. unfold says in S. rewrite E in S, A. split; [exact A|]. cbn [sql_of] in S. destruct (i_primary i) eqn:Ep; [|discriminate].
  unfold add_key in S. rewrite Ep in S. destruct (option_words Mssql (i_options i)) as [o|]; [|discriminate]. injection S as <-.
  unfold adds_key, clustered_word, when. assert (Hk : exists rest, sentence (SpecSql.key_columns Mssql i :: o) = ("(" ++ rest)%string).
  { unfold SpecSql.key_columns, parens. destruct o as [|x o]; [eexists; reflexivity|]. rewrite sentence_cons. eexists. cbn [append]. reflexivity. }
  destruct Hk as (rest & Hk). destruct (negb (String.eqb (i_name i) "PRIMARY")), (i_clustered i); cbn [app]; rewrite !sentence_cons, Hk.
  1-2: exists (table_ref Mssql t ++ " ADD CONSTRAINT " ++ quoted Mssql (i_name i))%string, rest.
  3-4: exists (table_ref Mssql t ++ " ADD")%string, rest.
  all: do 3 (cbn [quoted append]; rewrite ?sapp_assoc); reflexivity.
Qed.
