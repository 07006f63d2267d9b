(** Runs with --skip-drop used by the examples. *)
From Coq Require Import String Ascii List ZArith Bool.
From Verif Require Import GoStr Ast Generator SpecPlan SpecColumns SpecMysql SpecDatabase SpecPostgres SpecMssql SpecShownMssql SpecSource SpecKeep SpecAccepted Lexer Catalog AdapterMysql SpecLexer SpecLayout SpecWordsMysql SpecShownMysql ProofRun DemoReadMysql DemoPlan DemoConverge DemoConvergePg DemoConvergeMs SchemaText SchemaParse Parser Planner SpecConvergePg SpecWordsMysql SpecAccepted ProofDemo.
Import ListNotations.
Local Open Scope string_scope.
Local Open Scope list_scope.

(** The statements a database accepts one after the other. *)
Fixpoint accepted {C} (f : effect -> C -> option C) (l : list stmt) (c : C) : list stmt :=
  match l with
  | [] => []
  | st :: l' => match f (s_eff st) c with Some c' => st :: accepted f l' c' | None => accepted f l' c end
  end.
Definition without_drop (l : list stmt) : list stmt := filter (fun st => negb (contains (s_text st) "DROP")) l.
Lemma accepted_in {C} f l : forall c : C, incl (accepted f l c) l.
Proof.
  induction l as [|x l IH]; intros c; [apply incl_refl|]. cbn [accepted]. destruct (f (s_eff x) c).
  - apply incl_cons; [now left|]. apply incl_tl, IH.
  - apply incl_tl, IH.
Qed.
Lemma accepted_let_through {C} m desired current out (f : effect -> C -> option C) c : plan m desired current = Ok out ->
  let_through m desired current (accepted f (without_drop out) c).
Proof.
  intros P. exists out. split; [exact P|]. intros st I. apply accepted_in in I. unfold without_drop in I. apply filter_In in I as [I D]. split; [exact I|]. now apply negb_true_iff.
Qed.

Definition shop_sent : list stmt := accepted run (without_drop (mysql_plan shop_desired shop)) shop.
Definition store_sent : list stmt := accepted (execute g_name pg_create (pg_alter every_cast) every_view) (without_drop (pg_plan store_desired store)) store.
Definition market_sent : list stmt :=
  accepted (execute m_name (ms_create some_ways) (ms_alter some_ways) every_ms_view) (without_drop (ms_plan market_schema (mq_ideal market))) (mq_ideal market).

(** DEFAULT NULL where the database has a default. *)
Definition forgets_default : list ddl := [CreateTable "CREATE TABLE t (a integer DEFAULT NULL)"
  (mkTable "public.t" [with_default (mkValue VValArg "null" "" 0 (SpecFloat.S754_zero false) false) (col "a" 0 "integer")] [] [] [])].
Definition had_default : database pg_tab := pg_one (pg_t [with_default (int_value 1 "1") (col "a" 0 "integer")]).

(** Boolean test of [same_words]. *)
Definition same_wordsb (m : mode) (x y : string) : bool :=
  match scan_all (S (S (String.length x))) (new_tokenizer m x) with Some l => saysb m x (without_comments l) && saysb m y (without_comments l) | None => false end.
Lemma same_wordsb_ok m x y : same_wordsb m x y = true -> same_words m x y.
Proof.
  unfold same_wordsb. destruct (scan_all _ _) as [l|]; [|discriminate]. intros H. apply andb_true_iff in H as [A B].
  exists (without_comments l). split; now apply saysb_says.
Qed.

(** The export of [yard], typed anew. *)
Definition typed : string :=
  ("create table users (id BIGINT not null auto_increment, -- the key" ++ nl ++ "  `age` INT default '18', nick VARCHAR ( 20 ) Default null," ++ nl ++
   "  primary key (id), key by_nick (nick)) ENGINE = InnoDB;")%string.
Definition exported : string := Eval vm_compute in match my_dump (server_of yard) with Some s => s | None => "" end.
Lemma yard_exported : my_dump (server_of yard) = Some exported.
Proof. vm_compute. reflexivity. Qed.
Lemma typed_exported : same_file Mysql typed exported.
Proof. unfold same_file. vm_compute split_statements. constructor; [|constructor]. apply same_wordsb_ok. vm_compute. reflexivity. Qed.
Lemma typed_settled : exists l, parse_file Mysql typed = Ok l /\ settled Mysql l /\ well_formed l = true.
Proof.
  eexists. split; [vm_compute; reflexivity|]. split; [|vm_compute; reflexivity].
  split; [apply distinct_NoDup; vm_compute; reflexivity|]. split; [apply distinct_NoDup; vm_compute; reflexivity|].
  intros d [<-|[]]. cbn [settled_ddl]. do 4 (split; [apply distinct_NoDup; vm_compute; reflexivity|]). split; [|split].
  all: intros c Hc; simpl in Hc; repeat (destruct Hc as [<-|Hc]); try (now destruct Hc).
  all: try (apply distinct_NoDup; reflexivity).
  all: intros _; repeat split; try reflexivity; discriminate.
Qed.

Lemma no_null_defaults_test l :
  forallb (fun t => forallb (fun c => match c_default c with Some d => match real_default (Some d) with Some _ => true | None => false end | None => true end) (t_columns t)) (tables_in l) = true ->
  no_null_defaults l.
Proof.
  intros H t c d I D. unfold columns_of, inline in I. apply in_flat_map in I as (x & X & I). destruct (String.eqb _ _); [|destruct I].
  rewrite forallb_forall in H. specialize (H x X). rewrite forallb_forall in H. specialize (H c I). rewrite D in H. destruct (real_default (Some d)); [discriminate|discriminate H].
Qed.
Lemma default_forgotten : exists desired db out db',
  plan Postgres desired (pg_dump db) = Ok out /\ let_through Postgres desired (pg_dump db) out /\ pg_run out db = Some db' /\
  map s_text out = ["ALTER TABLE ""public"".""t"" ALTER COLUMN ""a"" SET DEFAULT null"] /\ ~ kept g_name pg_table_kept db db'.
Proof.
  exists forgets_default, had_default, (pg_plan forgets_default had_default). assert (P : plan Postgres forgets_default (pg_dump had_default) = Ok (pg_plan forgets_default had_default)) by (vm_compute; reflexivity).
  eexists. split; [exact P|]. split.
  { exists (pg_plan forgets_default had_default). split; [exact P|]. intros st I. split; [exact I|]. vm_compute in I. destruct I as [<-|[]]. vm_compute. reflexivity. }
  split; [vm_compute; reflexivity|]. split; [vm_compute; reflexivity|].
  intros (K & _). destruct (K "public.t" _ eq_refl) as (y & Y & (S & _)). vm_compute in Y. injection Y as <-.
  destruct (S "a" _ eq_refl) as (z & Z & (_ & _ & _ & D)). vm_compute in Z. injection Z as <-. apply D; [discriminate|reflexivity].
Qed.
