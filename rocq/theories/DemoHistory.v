(** Histories for the examples of C104. *)
From Coq Require Import String Ascii List ZArith Bool.
From Verif Require Import GoStr Ast Generator Catalog SchemaText Parser Planner AdapterSqlite SpecPlan SpecColumns SpecOrder SpecMysql SpecDatabase SpecPostgres SpecMssql
  SpecConverge SpecConvergePg SpecConvergeMs SpecSqlite SpecHistory SpecShownMssql DemoPlan DemoConverge DemoConvergePg DemoConvergeMs DemoSqlite DemoAgree ProofPgCheck ProofMsCheck ProofSqlite ProofSqliteRun.
Import ListNotations.
Local Open Scope string_scope.
Local Open Scope list_scope.

Lemma then_last {F D} (step : F -> D -> D -> Prop) f a b : step f a b -> history step [f] a b.
Proof. intros S. econstructor; [exact S|constructor]. Qed.

(** MySQL: prices, then the shop. *)
Definition priced_shop : catalogue := Eval vm_compute in after_run price_file bare.
Definition shop_end : catalogue := Eval vm_compute in after_run DemoConverge.shop_desired DemoConverge.shop.
Definition new_end : catalogue := Eval vm_compute in after_run DemoConverge.shop_desired priced_shop.
Lemma prices_then_shop : history my_step [price_file; DemoConverge.shop_desired] bare new_end.
Proof.
  apply hi_cons with priced_shop.
  - split; [exact price_schema|]. split; [exact (bare_convertible _)|]. exists (mysql_plan price_file bare). split; vm_compute; reflexivity.
  - apply then_last. split; [exact DemoConverge.shop_schema|]. split.
    + split; each; discriminate.
    + exists (mysql_plan DemoConverge.shop_desired priced_shop). split; vm_compute; reflexivity.
Qed.
Lemma only_shop : history my_step [DemoConverge.shop_desired] DemoConverge.shop shop_end.
Proof.
  apply then_last. split; [exact DemoConverge.shop_schema|]. split; [exact DemoConverge.shop_convertible|].
  exists (mysql_plan DemoConverge.shop_desired DemoConverge.shop). split; vm_compute; reflexivity.
Qed.

(** PostgreSQL: the store, something else, and the store again. *)
Definition store_one : database pg_tab := Eval vm_compute in pg_after store_desired store.
Definition store_two : database pg_tab := Eval vm_compute in pg_after unique_file store_one.
Definition store_three : database pg_tab := Eval vm_compute in pg_after store_desired store_two.
Lemma store_and_back : history (pg_step every_cast every_view) [store_desired; unique_file; store_desired] store store_three.
Proof.
  apply hi_cons with store_one; [|apply hi_cons with store_two; [|apply then_last]].
  - split; [exact store_schema|]. split; [exact store_convertible|]. exists (pg_plan store_desired store). split; vm_compute; reflexivity.
  - split; [exact unique_schema|]. split; [apply pg_convertible_b_ok; vm_compute; reflexivity|]. exists (pg_plan unique_file store_one). split; vm_compute; reflexivity.
  - split; [exact store_schema|]. split; [apply pg_convertible_b_ok; vm_compute; reflexivity|]. exists (pg_plan store_desired store_two). split; vm_compute; reflexivity.
Qed.
Lemma only_store : history (pg_step every_cast every_view) [store_desired] store store_one.
Proof.
  apply then_last. split; [exact store_schema|]. split; [exact store_convertible|]. exists (pg_plan store_desired store). split; vm_compute; reflexivity.
Qed.

(** SQL Server: a table with an index, then the market. *)
Definition other_schema : list ddl := Eval vm_compute in ms_parsed unfilled_file.
Lemma other_wanted : ms_schema some_ways other_schema.
Proof. apply ms_schema_b_ok. vm_compute. reflexivity. Qed.
Definition market_one : database ms_tab := Eval vm_compute in ms_after other_schema ms_none.
Definition market_two : database ms_tab := Eval vm_compute in ms_after market_schema market_one.
Definition market_end : database ms_tab := Eval vm_compute in ms_after market_schema (mq_ideal market).
Lemma other_then_market : history (ms_step some_ways every_ms_view) [other_schema; market_schema] ms_none market_two.
Proof.
  apply hi_cons with market_one; [|apply then_last].
  - split; [exact other_wanted|]. split; [exact (ms_none_convertible _)|]. exists (ms_plan other_schema ms_none). split; vm_compute; reflexivity.
  - split; [exact market_wanted|]. split; [apply ms_convertible_b_ok; vm_compute; reflexivity|]. exists (ms_plan market_schema market_one). split; vm_compute; reflexivity.
Qed.
Lemma only_market : history (ms_step some_ways every_ms_view) [market_schema] (mq_ideal market) market_end.
Proof.
  apply then_last. split; [exact market_wanted|]. split; [exact market_convertible|]. exists (ms_plan market_schema (mq_ideal market)).
  split; [exact market_planned|vm_compute; reflexivity].
Qed.

(** SQLite: an empty file, then the shop. *)
Definition left_over : list lite_row := [row_table "sqlite_sequence" "CREATE TABLE sqlite_sequence(name,seq)"].
Lemma left_ok : lite_ok left_over.
Proof. apply rows_ok; vm_compute; reflexivity. Qed.
Lemma left_convertible : lite_convertible shop_parsed left_over.
Proof.
  constructor.
  - intros t o T H. apply (holds_at_name _ _ _ left_ok eq_refl) in H. unfold shop_parsed in T. cbn in T. destruct T as [<-|[<-|[]]]; vm_compute in H; discriminate.
  - intros v o V H. apply (holds_at_name _ _ _ left_ok eq_refl) in H. unfold shop_parsed in V. cbn in V. destruct V as [<-|[<-|[<-|[]]]]; vm_compute in H; discriminate.
  - intros r [<-|[]] N. exfalso. revert N. vm_compute. intuition discriminate.
Qed.
Lemma nothing_schema : lite_schema [].
Proof. constructor; [intros ? []|constructor|]. split; [constructor|]. split; [constructor|intros ? []]. Qed.
Lemma nothing_convertible m : lite_convertible [] m.
Proof. constructor; [intros ? ? []|intros ? ? []|intros ? _ []]. Qed.
Definition there (kind n : string) (m : list lite_row) : bool := existsb (fun r => String.eqb (lr_type r) kind && String.eqb (lr_name r) n) m.
Lemma there_row kind n m : there kind n m = true -> exists r, In r m /\ lr_type r = kind /\ lr_name r = n.
Proof.
  intros T. apply existsb_exists in T as (r & R & E). apply andb_true_iff in E as [E1 E2]. apply String.eqb_eq in E1, E2. eauto.
Qed.
Lemma drops_table x n out m b : there "table" n m = true -> executes_all out (without_object n m) b -> executes_all (mkStmt x (EffDropTable n) :: out) m b.
Proof. intros T H. destruct (there_row _ _ _ T) as (r & R & K & N). eapply ea_cons; [|exact H]. now apply ex_drop_table with r. Qed.
Lemma drops_view x n out m b : there "view" n m = true -> executes_all out (without_object n m) b -> executes_all (mkStmt x (EffDropView n) :: out) m b.
Proof. intros T H. destruct (there_row _ _ _ T) as (r & R & K & N). eapply ea_cons; [|exact H]. now apply ex_drop_view with r. Qed.
Lemma emptied : lite_step "" DemoSqlite.shop left_over.
Proof.
  eexists [], _, _, _. split; [vm_compute; reflexivity|]. split; [exact nothing_schema|]. split; [exact (nothing_convertible _)|].
  split; [vm_compute; reflexivity|]. split; [vm_compute; reflexivity|]. split; [vm_compute; reflexivity|].
  do 2 (apply drops_table; [vm_compute; reflexivity|]). do 3 (apply drops_view; [vm_compute; reflexivity|]). apply ea_nil.
Qed.
Lemma lite_steps file l a : parse_file SQLite3 file = Ok l -> lite_schema l -> lite_ok a -> lite_convertible l a -> exists b, lite_step file a b.
Proof.
  intros F S K V. destruct (sqlite_exported a K) as (current & D). destruct (sqlite_run file l a current F S K V D) as (ds & out & R & P & _ & G & _).
  assert (W : forall o m, (forall pre s post m1, o = pre ++ s :: post -> executes_all pre m m1 -> exists m2, executes s m1 m2) -> exists m', executes_all o m m').
  { intros o. induction o as [|s o IH]; intros m H; [exists m; constructor|]. destruct (H [] s o m eq_refl (ea_nil m)) as (m1 & E1).
    destruct (IH m1) as (m' & E').
    - intros pre s' post m2 -> Y. exact (H (s :: pre) s' post m2 eq_refl (ea_cons _ _ _ _ _ E1 Y)).
    - exists m'. econstructor; eassumption. }
  destruct (W out a G) as (b & X). exists b, l, current, ds, out. repeat (split; [assumption|]). assumption.
Qed.

(** MySQL: a collation is given, then left out again. *)
Lemma collated_and_back : history my_step [plain_file; collated_file; plain_file] bare collated.
Proof.
  apply hi_cons with uncollated; [|apply hi_cons with collated; [|apply then_last]].
  - split; [exact plain_file_schema|]. split; [exact (bare_convertible _)|]. exists (mysql_plan plain_file bare). split; vm_compute; reflexivity.
  - split; [exact collated_file_schema|]. split; [|exists (mysql_plan collated_file uncollated); split; vm_compute; reflexivity].
    split; each; constructor; try (vm_compute; reflexivity); each; try discriminate; fact.
  - split; [exact plain_file_schema|]. split; [|exists (mysql_plan plain_file collated); split; vm_compute; reflexivity].
    split; each; constructor; try (vm_compute; reflexivity); each; try discriminate; fact.
Qed.
Lemma only_plain : history my_step [plain_file] bare uncollated.
Proof.
  apply then_last. split; [exact plain_file_schema|]. split; [exact (bare_convertible _)|]. exists (mysql_plan plain_file bare). split; vm_compute; reflexivity.
Qed.
