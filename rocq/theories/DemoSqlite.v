(** SQLite catalogues used by the examples and refutations beside the theorems on them. *)
From Coq Require Import String Ascii List ZArith Bool.
From Verif Require Import GoStr GoStrFacts Ast Generator SchemaText SchemaParse Lexer Parser Planner Catalog AdapterSqlite SpecText SpecExport SpecPlan SpecLayout SpecSqlite
  ProofExport3 ProofRun ProofPlan ProofSqlite.
Import ListNotations.
Local Open Scope string_scope.
Local Open Scope list_scope.

(** Deciding the conditions. *)
Definition plainb (s : string) : bool :=
  match first_char s, last_char s with
  | Some a, Some b => negb (is_space a) && negb (is_space b) && negb (has_char semicolon s) && negb (has_prefix s "--") && negb (contains s (String newline "--"))
  | _, _ => false
  end.
Lemma plainb_plain s : plainb s = true -> plain_statement s.
Proof.
  unfold plainb. destruct (first_char s) eqn:F; [|discriminate]. destruct (last_char s) eqn:L; [|discriminate].
  rewrite !andb_true_iff, !negb_true_iff. intros ((((A & B) & C) & D) & E). constructor; eauto.
Qed.
Definition wordsb (s : string) : bool :=
  match scan_all (S (S (String.length s))) (new_tokenizer SQLite3 s) with Some l => saysb SQLite3 s (without_comments l) | None => false end.
Lemma wordsb_words s : wordsb s = true -> exists w, says SQLite3 s w.
Proof. unfold wordsb. destruct (scan_all _ _) as [l|]; [|discriminate]. intros H. exists (without_comments l). now apply saysb_says. Qed.

Ltac means_it := split; [apply plainb_plain; vm_compute; reflexivity|]; first [split; [vm_compute; reflexivity|reflexivity] | vm_compute; reflexivity].
Ltac each_row := let r := fresh "r" in let R := fresh "R" in intros r R; cbn [In] in R; repeat (destruct R as [<-|R]; [|]); [..|destruct R].

Definition row_table n sql := mkLiteRow "table" n n (Some sql).
Definition row_view n sql := mkLiteRow "view" n n (Some sql).

(** The catalogue. *)
Definition x_users := "CREATE TABLE users (id integer PRIMARY KEY AUTOINCREMENT, name text NOT NULL UNIQUE)".
Definition x_logs := "CREATE TABLE logs (at text, message text)".
Definition x_names := "CREATE VIEW names AS select NAME from users".
Definition x_people := "CREATE VIEW people AS select id from users".
Definition x_old := "CREATE VIEW old AS select message from logs".
Definition shop : list lite_row :=
  [ row_table "users" x_users;
    mkLiteRow "index" "sqlite_autoindex_users_1" "users" None;
    row_table "sqlite_sequence" "CREATE TABLE sqlite_sequence(name,seq)";
    row_table "logs" x_logs;
    mkLiteRow "index" "logs_at" "logs" (Some "CREATE INDEX logs_at ON logs (at)");
    row_view "names" x_names; row_view "people" x_people; row_view "old" x_old;
    mkLiteRow "trigger" "watch" "users" (Some "CREATE TRIGGER watch AFTER INSERT ON users BEGIN SELECT 1; END") ].

(** The file. *)
Definition shop_file : string :=
  "CREATE TABLE users (id integer PRIMARY KEY AUTOINCREMENT, name text NOT NULL UNIQUE);" ++ nl ++
  "create table posts (id integer primary key, author integer not null, -- who" ++ nl ++
  " constraint of_user foreign key (author) references users (id));" ++ nl ++
  "CREATE VIEW names AS select name from users;" ++ nl ++
  "CREATE VIEW people AS select id, name from users;" ++ nl ++
  "CREATE VIEW written AS select author from posts;".
Definition shop_parsed : list ddl := Eval vm_compute in match parse_file SQLite3 shop_file with Ok l => l | _ => [] end.
Lemma shop_parses : parse_file SQLite3 shop_file = Ok shop_parsed.
Proof. vm_compute. reflexivity. Qed.

(** Reading catalogues by computation. *)
Definition objectb (r : lite_row) : bool := String.eqb (lr_type r) "table" && negb (like_sqlite (lr_table r)) || String.eqb (lr_type r) "view".
Lemma objectb_object r : objectb r = true <-> object_row r.
Proof.
  unfold objectb, object_row. rewrite orb_true_iff, andb_true_iff, negb_true_iff, !String.eqb_eq, <- not_true_iff_false, like_sqlite_spec. reflexivity.
Qed.
Definition read_row (r : lite_row) : option lite_object :=
  match lr_sql r with
  | None => None
  | Some x =>
      if plainb x then
        match parse_ddl parse_strict_ddl SQLite3 x with
        | Ok (CreateTable _ t) => if String.eqb (t_name t) (lr_table r) && String.eqb (lr_type r) "table" then Some (LTable t) else None
        | Ok (DView v) => if String.eqb (vw_name v) (lr_table r) && String.eqb (lr_type r) "view" then Some (LView (vw_definition v)) else None
        | _ => None
        end
      else None
  end.
Lemma read_row_means r o : read_row r = Some o -> exists x, lr_sql r = Some x /\ lr_type r = lite_kind o /\ means x (lr_table r) o.
Proof.
  unfold read_row. destruct (lr_sql r) as [x|]; [|discriminate]. destruct (plainb x) eqn:P; [|discriminate]. apply plainb_plain in P.
  destruct (parse_ddl parse_strict_ddl SQLite3 x) as [d| | |] eqn:E; try discriminate. pose proof (parse_kept _ _ _ E) as K.
  destruct d as [s t| | | | | |v|]; try discriminate.
  - destruct (String.eqb_spec (t_name t) (lr_table r)) as [A|]; [|discriminate]. destruct (String.eqb_spec (lr_type r) "table") as [B|]; [|discriminate].
    intros [= <-]. cbn in K. subst s. exists x. repeat split; try apply P; auto.
  - destruct (String.eqb_spec (vw_name v) (lr_table r)) as [A|]; [|discriminate]. destruct (String.eqb_spec (lr_type r) "view") as [B|]; [|discriminate].
    intros [= <-]. cbn in K. exists x. split; [reflexivity|]. split; [exact B|]. split; [exact P|]. rewrite E, <- A, <- K. now destruct v.
Qed.
Definition row_ok (m : list lite_row) (r : lite_row) : bool :=
  (if objectb r then String.eqb (lr_name r) (lr_table r) && match read_row r with Some _ => true | None => false end else true) &&
  existsb (fun q => String.eqb (lr_name q) (lr_table r) && String.eqb (lr_table q) (lr_table r)) m.
Fixpoint first_rows (seen : list string) (m : list lite_row) : bool :=
  match m with
  | [] => true
  | r :: m' => (if objectb r then negb (mem (lr_table r) seen) else true) && first_rows (lr_table r :: seen) m'
  end.
Lemma first_rows_spec m : forall seen, first_rows seen m = true -> forall a r b, m = a ++ r :: b -> object_row r ->
  (forall n, In n seen -> n <> lr_table r) /\ (forall q, In q a -> lr_table q <> lr_table r).
Proof.
  induction m as [|z m IH]; intros seen H a r b E O; [now destruct a|]. cbn [first_rows] in H. apply andb_true_iff in H as [H1 H2].
  destruct a as [|z' a]; cbn in E; injection E as -> ->.
  - apply objectb_object in O. rewrite O in H1. apply negb_true_iff in H1. split; [|now intros q []]. intros n N ->. apply mem_spec in N. congruence.
  - destruct (IH _ H2 a r b eq_refl O) as [A B]. split.
    + intros n N. apply A. now right.
    + intros q [<-|Q]; [apply A; now left|now apply B].
Qed.
Lemma rows_ok m : forallb (row_ok m) m = true -> first_rows [] m = true -> lite_ok m.
Proof.
  intros A B. rewrite forallb_forall in A. constructor.
  - intros r R O. specialize (A r R). unfold row_ok in A. apply andb_true_iff in A as [A _]. apply objectb_object in O. rewrite O in A.
    apply andb_true_iff in A as [A1 A2]. apply String.eqb_eq in A1. split; [exact A1|]. destruct (read_row r) as [o|] eqn:E; [|discriminate].
    destruct (read_row_means r o E) as (x & S & T & M). eauto.
  - intros a r b E O. exact (proj2 (first_rows_spec m [] B a r b E O)).
  - intros r R. specialize (A r R). unfold row_ok in A. apply andb_true_iff in A as [_ A]. apply existsb_exists in A as (q & Q & X).
    apply andb_true_iff in X as [X1 X2]. apply String.eqb_eq in X1, X2. eauto.
Qed.
Definition at_name (m : list lite_row) (n : string) : option lite_object :=
  match find (fun r => objectb r && String.eqb (lr_table r) n) m with Some r => read_row r | None => None end.
Lemma at_name_holds m n o : lite_ok m -> at_name m n = Some o -> holds m n o.
Proof.
  intros K. unfold at_name. destruct (find _ m) as [r|] eqn:F; [|discriminate]. apply find_some in F as [R F]. apply andb_true_iff in F as [O E]. apply String.eqb_eq in E.
  intros X. destruct (read_row_means r o X) as (x & S & T & M). exists r, x. rewrite <- E. repeat split; try apply M; auto. now apply objectb_object.
Qed.
Lemma holds_at_name m n o : lite_ok m -> forallb (row_ok m) m = true -> holds m n o -> at_name m n = Some o.
Proof.
  intros K A H. destruct (at_name m n) as [o'|] eqn:E; [f_equal; eapply holds_unique; eauto using at_name_holds|exfalso].
  destruct H as (r & x & R & O & T & N & S & M). unfold at_name in E. destruct (find _ m) as [q|] eqn:F.
  - apply find_some in F as [Q F]. apply andb_true_iff in F as [Oq _]. rewrite forallb_forall in A. specialize (A q Q). unfold row_ok in A. rewrite Oq, E in A. now rewrite andb_false_r in A.
  - pose proof (find_none _ _ F r R) as X. cbn in X. apply objectb_object in O. rewrite O, N, String.eqb_refl in X. discriminate.
Qed.

Lemma shop_rows : forallb (row_ok shop) shop = true.
Proof. vm_compute. reflexivity. Qed.
Lemma shop_ok : lite_ok shop.
Proof. apply rows_ok; [exact shop_rows|vm_compute; reflexivity]. Qed.
Ltac names_once := vm_compute; repeat (constructor; [cbn; intuition discriminate|]); constructor.
Lemma shop_schema : lite_schema shop_parsed.
Proof.
  constructor.
  - intros d D. unfold shop_parsed in D. cbn [In] in D. repeat (destruct D as [<-|D]; [|]); [..|destruct D];
      (split; [split; [apply plainb_plain; vm_compute; reflexivity|apply wordsb_words; vm_compute; reflexivity]|]);
      rewrite <- like_sqlite_spec; vm_compute; discriminate.
  - names_once.
  - split; [names_once|]. split; [constructor|].
    intros d D. unfold shop_parsed in D. cbn [In] in D. repeat (destruct D as [<-|D]; [|]); [..|destruct D]; try exact I.
    + split; [names_once|]. split; [names_once|]. split; [names_once|]. split; [names_once|]. split; [|split]; [|intros ? []|intros ? []].
      intros c C. cbn in C. destruct C as [<-|[<-|[]]]; repeat split; try discriminate.
    + split; [names_once|]. split; [names_once|]. split; [names_once|]. split; [names_once|]. split; [|split]; [|intros ? []|].
      * intros c C. cbn in C. destruct C as [<-|[<-|[]]]; repeat split; try discriminate.
      * intros f [<-|[]]. discriminate.
Qed.
Lemma shop_convertible : lite_convertible shop_parsed shop.
Proof.
  constructor.
  - intros t o T H. apply (holds_at_name _ _ _ shop_ok shop_rows) in H. unfold shop_parsed in T. cbn in T. destruct T as [<-|[<-|[]]]; vm_compute in H; [now injection H as <-|discriminate].
  - intros v o V H. apply (holds_at_name _ _ _ shop_ok shop_rows) in H. unfold shop_parsed in V. cbn in V. destruct V as [<-|[<-|[<-|[]]]]; vm_compute in H; try discriminate; injection H as <-.
    + eexists. split; [reflexivity|]. left. vm_compute. reflexivity.
    + eexists. split; [reflexivity|]. right. split; [apply wordsb_words; vm_compute; reflexivity|]. split; [apply plainb_plain; vm_compute; reflexivity|vm_compute; reflexivity].
  - intros r R N. revert N. vm_compute in R. repeat (destruct R as [<-|R]; [|]); [..|destruct R]; intros N;
      try (split; [apply objectb_object; vm_compute; reflexivity|reflexivity]); exfalso; revert N; vm_compute; intuition discriminate.
Qed.

(** The catalogue after the run: SQLite writes CREATE TABLE in capitals. *)
Definition shop_after : list lite_row :=
  [ row_table "users" x_users;
    mkLiteRow "index" "sqlite_autoindex_users_1" "users" None;
    row_table "sqlite_sequence" "CREATE TABLE sqlite_sequence(name,seq)";
    row_view "names" x_names;
    mkLiteRow "trigger" "watch" "users" (Some "CREATE TRIGGER watch AFTER INSERT ON users BEGIN SELECT 1; END");
    row_table "posts" ("CREATE TABLE posts (id integer primary key, author integer not null, -- who" ++ nl ++
       " constraint of_user foreign key (author) references users (id))");
    row_view "people" "CREATE VIEW `people` AS select id, name from users";
    row_view "written" "CREATE VIEW written AS select author from posts" ].
Definition shop_plan : list stmt := Eval vm_compute in
  match parse_file SQLite3 (match lite_dump shop with Some c => c | None => "" end) with
  | Ok ds => match plan SQLite3 shop_parsed ds with Ok out => out | _ => [] end
  | _ => [] end.
Definition keepsb (x y : string) : bool :=
  plainb y && match scan_all (S (S (String.length x))) (new_tokenizer SQLite3 x) with Some l => saysb SQLite3 x (without_comments l) && saysb SQLite3 y (without_comments l) | None => false end.
Lemma keepsb_keeps x y : keepsb x y = true -> keeps x y.
Proof.
  unfold keepsb. rewrite andb_true_iff. intros [P H]. split; [now apply plainb_plain|]. destruct (scan_all _ _) as [l|]; [|discriminate].
  apply andb_true_iff in H as [A B]. exists (without_comments l). split; now apply saysb_says.
Qed.
Lemma shop_executed : executes_all shop_plan shop shop_after.
Proof.
  unfold shop_plan.
  assert (F : forall m n, forallb (fun r => negb (String.eqb (lr_name r) n)) m = true -> free m n).
  { intros m n H r R E. rewrite forallb_forall in H. specialize (H r R). rewrite E, String.eqb_refl in H. discriminate. }
  eapply ea_cons. { apply ex_create_table with (own := []) (y := ("CREATE TABLE posts (id integer primary key, author integer not null, -- who" ++ nl ++
       " constraint of_user foreign key (author) references users (id))")%string); [apply F; vm_compute; reflexivity|apply keepsb_keeps; vm_compute; reflexivity|constructor]. }
  eapply ea_cons. { eapply ex_drop_view with (r := row_view "people" x_people); [vm_compute; tauto|reflexivity|reflexivity]. }
  eapply ea_cons. { eapply ex_new_view with (y := "CREATE VIEW `people` AS select id, name from users"); [apply F; vm_compute; reflexivity|apply keepsb_keeps; vm_compute; reflexivity]. }
  eapply ea_cons. { apply ex_create_view with (y := "CREATE VIEW written AS select author from posts"); [apply F; vm_compute; reflexivity|apply keepsb_keeps; vm_compute; reflexivity]. }
  eapply ea_cons. { eapply ex_drop_table with (r := row_table "logs" x_logs); [vm_compute; tauto|reflexivity|reflexivity]. }
  eapply ea_cons. { eapply ex_drop_view with (r := row_view "old" x_old); [vm_compute; tauto|reflexivity|reflexivity]. }
  match goal with |- executes_all [] ?a ?b => replace a with b by (vm_compute; reflexivity) end. constructor.
Qed.

(** A table alone in a catalogue. *)
Definition alone (sql : string) : list lite_row := [row_table "t" sql].
Definition own_plan (master : list lite_row) : res (list string) :=
  match lite_dump master with Some c => plan_text SQLite3 c c | None => Err (EParse "no export") end.

(** A table with an index. *)
Definition x_t := "CREATE TABLE t (a integer)".
Definition indexed : list lite_row := [row_table "t" x_t; mkLiteRow "index" "i" "t" (Some "CREATE INDEX i ON t (a)")].
Definition indexed_file : string := x_t ++ ";" ++ nl ++ "CREATE INDEX i ON t (a);".

(** A table that becomes a view. *)
Definition became_view : string := "CREATE VIEW t AS select 1;".
Definition view_plan : list stmt := Eval vm_compute in
  match parse_file SQLite3 became_view, parse_file SQLite3 x_t with
  | Ok l, Ok ds => match plan SQLite3 l ds with Ok out => out | _ => [] end
  | _, _ => [] end.
