(** Added columns and foreign keys in MySQL's words, from the schema file to the text sent. *)
From Coq Require Import String Ascii List ZArith Bool.
From Verif Require Import GoStr GoStrFacts Ast Generator SpecPlan SpecMysql SpecLexer SpecLayout SpecShown SpecShownMysql SpecWordsMysql ProofWordsMysqlPlan SpecSource ProofSource.
Import ListNotations.
Local Open Scope string_scope.
Local Open Scope list_scope.

Lemma auto_ideal mc k : set_autoinc false (set_position k (my_ideal_column mc)) = set_position k (my_ideal_column (with_auto false mc)).
Proof. unfold my_ideal_column, with_auto. cbn [mc_type mc_name mc_null mc_default mc_on_update mc_auto]. destruct (mc_type mc); reflexivity. Qed.
Lemma same_auto mc : with_auto (mc_auto mc) mc = mc.
Proof. destruct mc; reflexivity. Qed.
Lemma auto_sayable mc : sayable_column mc = true -> sayable_column (with_auto false mc) = true.
Proof.
  unfold sayable_column, my_column_ok, with_auto. cbn [mc_type mc_name mc_null mc_default mc_on_update mc_auto mc_comment negb orb].
  rewrite !andb_true_iff. tauto.
Qed.
Lemma ideal_name mc k : c_name (set_position k (my_ideal_column mc)) = mc_name mc.
Proof. unfold my_ideal_column. destruct (mc_type mc); reflexivity. Qed.
Lemma sayable_name mc : sayable_column mc = true -> my_name (mc_name mc) = true.
Proof. unfold sayable_column, my_column_ok. rewrite !andb_true_iff. tauto. Qed.

Lemma placed_ok t p desired : sayable_columns t desired ->
  match p with PosAfter y => In y (map c_name (columns_of t desired)) | _ => True end -> position_ok p = true.
Proof.
  intros S. destruct p as [| |y]; try reflexivity. intros I. apply in_map_iff in I as (c & <- & I). destruct (S c I) as (mc & k & M & ->).
  cbn [position_ok]. rewrite ideal_name. now apply sayable_name.
Qed.

Theorem added_column_words desired current out st t c p : plan Mysql desired current = Ok out -> In st out -> s_eff st = EffAddColumn t c p ->
  my_name t = true -> sayable_columns t desired ->
  exists mc k auto, In (set_position k (my_ideal_column mc)) (columns_of t desired) /\ mc_name mc = c_name c /\ (auto = true -> mc_auto mc = true) /\
    same_words Mysql (s_text st) (spell (altering t ["ADD"; "COLUMN"] ++ shown_column (with_auto auto mc) ++ at_position p)).
Proof.
  intros P I E N S. pose proof (plan_asked _ _ _ _ P) as A. rewrite Forall_forall in A. specialize (A st I). rewrite E in A. cbn [asked_for] in A.
  destruct A as (A & c0 & C & Cn & Hc). destruct (S c0 C) as (mc & k & M & ->). rewrite ideal_name in Cn. pose proof (placed_ok _ _ _ S A) as O.
  destruct Hc as [->|Hc].
  - exists mc, k, (mc_auto mc). rewrite same_auto. repeat (split; auto). apply (plan_words _ _ _ _ _ P I). rewrite E. now constructor.
  - exists mc, k, false. repeat (split; auto; try discriminate). apply (plan_words _ _ _ _ _ P I). rewrite E, Hc, auto_ideal. constructor; auto. now apply auto_sayable.
Qed.

Theorem added_default_words desired current out st t c p d : plan Mysql desired current = Ok out -> In st out -> s_eff st = EffAddColumn t c p ->
  my_name t = true -> sayable_columns t desired ->
  (forall mc k, In (set_position k (my_ideal_column mc)) (columns_of t desired) -> mc_name mc = c_name c -> mc_default mc = Some d) ->
  exists before after, same_words Mysql (s_text st)
    (spell (altering t ["ADD"; "COLUMN"] ++ [MName (c_name c); blank1] ++ before ++ [blank1; MWord "DEFAULT"; blank1] ++ shown_default_value d ++ after)).
Proof.
  intros P I E N S D. destruct (added_column_words _ _ _ _ _ _ _ P I E N S) as (mc & k & a & C & M & _ & W).
  unfold shown_column in W. change (mc_name (with_auto a mc)) with (mc_name mc) in W. change (mc_default (with_auto a mc)) with (mc_default mc) in W.
  rewrite (D mc k C M), M in W. cbn [shown_if] in W.
  eexists (shown_type (mc_type (with_auto a mc)) ++ shown_if _ (mc_null (with_auto a mc))), _. rewrite <- !app_assoc in W. rewrite <- !app_assoc. exact W.
Qed.

Theorem added_fk_words desired current out st t f : plan Mysql desired current = Ok out -> In st out -> s_eff st = EffAddForeignKey t f ->
  my_name t = true -> (forall f0, In f0 (table_fks_of t desired) -> exists mf, my_fk_ok mf = true /\ f0 = my_ideal_fk mf) ->
  exists mf, In (my_ideal_fk mf) (table_fks_of t desired) /\ mf_name mf = fk_constraint f /\
    same_words Mysql (s_text st) (spell (altering t ["ADD"] ++ shown_fk mf)).
Proof.
  intros P I E N S. pose proof (plan_asked _ _ _ _ P) as A. rewrite Forall_forall in A. specialize (A st I). rewrite E in A. cbn [asked_for] in A.
  destruct (S f A) as (mf & M & ->). exists mf. split; [exact A|]. split; [reflexivity|]. apply (plan_words _ _ _ _ _ P I). rewrite E. now constructor.
Qed.
