(** Worlds whose server has a state, for the examples beside the theorems on two runs. *)
From Coq Require Import String Ascii List ZArith Bool.
From Verif Require Import GoStr GoStrFacts Ast Generator SchemaText SchemaParse Parser Planner Catalog CatalogMysql AdapterPostgres AdapterSqlite AdapterMysql AdapterMssql ExportMssql
  SpecPlan SpecLayout SpecMysql SpecDatabase SpecPostgres SpecMssql SpecShown SpecShownMysql SpecShownMssql SpecConverge SpecConvergePg SpecConvergeMs SpecSqlite
  DemoConverge DemoConvergePg DemoReadBack DemoReadMysql DemoReadMssql DemoConvergeMs DemoSqlite ProofMsCheck ProofReadMyExport Runner SpecRunner SpecTwoRuns.
Import ListNotations.
Local Open Scope string_scope.
Local Open Scope list_scope.

(** A server that knows the statements of one plan by their texts. *)
Definition by_text {S} (eff : stmt -> S -> option S) (out : list stmt) (t : string) (s : S) : option S :=
  match find (fun st => String.eqb (s_text st) t) out with Some st => eff st s | None => None end.

Fixpoint differ (l : list string) : bool :=
  match l with [] => true | x :: r => negb (existsb (String.eqb x) r) && differ r end.

Lemma by_text_does {S} (eff : stmt -> S -> option S) out : differ (map s_text out) = true -> does (by_text eff out) eff out.
Proof.
  intros N st I s. unfold by_text. replace (find (fun x => String.eqb (s_text x) (s_text st)) out) with (Some st); [reflexivity|].
  induction out as [|x out IH]; [destruct I|]. simpl in N. apply andb_true_iff in N as (N1 & N2). simpl. destruct I as [->|I]; [now rewrite String.eqb_refl|].
  destruct (String.eqb_spec (s_text x) (s_text st)) as [E|]; [|now apply IH].
  exfalso. apply negb_true_iff in N1. assert (X : existsb (String.eqb (s_text x)) (map s_text out) = true); [|congruence].
  apply existsb_exists. exists (s_text st). split; [now apply in_map|]. rewrite E. apply String.eqb_refl.
Qed.

(** The world of a server in the state [s0] that answers with these names and texts. *)
Definition serving {S} (step : string -> S -> option S) (s0 : S) (tables : list (string * string)) (views triggers : list string) (file desired : string) : world :=
  mkWorld (fun _ => Some (map fst tables)) (fun _ n => option_map snd (find (fun p => String.eqb (fst p) n) tables))
          (fun _ => Some views) (fun _ => Some triggers) (fun _ f => if String.eqb f file then Some desired else None)
          (fun _ => true) (fun h t => match step t (state_after step s0 h) with Some _ => true | None => false end) (fun _ => true) (fun _ => true).

Lemma serving_serves {S} (step : string -> S -> option S) s0 tables views triggers file desired :
  serves step (serving step s0 tables views triggers file desired) s0.
Proof.
  split; [reflexivity|]. split; [reflexivity|]. intros h t. simpl. destruct (step t (state_after step s0 h)) as [s|].
  - split; [now exists s|reflexivity].
  - split; [discriminate|now intros (s & X)].
Qed.

Lemma serving_answers {S} (step : string -> S -> option S) s0 tables views triggers file desired :
  differ (map fst tables) = true ->
  answers (serving step s0 tables views triggers file desired) file desired (join (";" ++ nl ++ nl) (map snd tables ++ views ++ triggers)).
Proof.
  intros N. exists (map fst tables), (map snd tables), views, triggers. split; [|split; [|reflexivity]].
  - intros h _. simpl. now rewrite String.eqb_refl.
  - simpl. assert (X : forall p, In p tables -> find (fun q => String.eqb (fst q) (fst p)) tables = Some p).
    { induction tables as [|x tables IH]; intros p I; [destruct I|]. simpl in N. apply andb_true_iff in N as (N1 & N2). simpl. destruct I as [->|I]; [now rewrite String.eqb_refl|].
      destruct (String.eqb_spec (fst x) (fst p)) as [E|]; [|now apply IH].
      exfalso. apply negb_true_iff in N1. assert (Y : existsb (String.eqb (fst x)) (map fst tables) = true); [|congruence].
      apply existsb_exists. exists (fst p). split; [now apply in_map|]. rewrite E. apply String.eqb_refl. }
    assert (Y : forall l, (forall p, In p l -> In p tables) ->
      Forall2 (fun n t => forall h : list event, untouched h -> option_map snd (find (fun q => String.eqb (fst q) n) tables) = Some t) (map fst l) (map snd l)).
    { induction l as [|p l IH]; intros Z; simpl; [constructor|]. constructor; [|apply IH; intros q I; apply Z; now right]. intros h _. rewrite X; [reflexivity|]. apply Z. now left. }
    apply Y. auto.
Qed.

(** ** MySQL: the yard *)
Definition yard_plan : list stmt := Eval vm_compute in match plan Mysql yard_parsed (dump (my_ideal yard)) with Ok out => out | _ => [] end.
Definition yard_step := by_text (fun st => SpecMysql.run (s_eff st)) yard_plan.
Definition yard_world (d : my_database) : world := serving yard_step (my_ideal d) (srv_tables (server_of d)) [] [] "schema.sql" yard_wants.
Lemma yard_planned out : plan Mysql yard_parsed (dump (my_ideal yard)) = Ok out -> out = yard_plan.
Proof. vm_compute. intros E. injection E as <-. reflexivity. Qed.
Lemma yard_does out : plan Mysql yard_parsed (dump (my_ideal yard)) = Ok out -> does yard_step (fun st => SpecMysql.run (s_eff st)) out.
Proof. intros E. rewrite (yard_planned _ E). apply by_text_does. vm_compute. reflexivity. Qed.

Ltac paired := repeat first [apply Forall2_nil | apply Forall2_cons].
(** The yard after the run, as it is exported next. *)
Lemma yard_left : exists c, SpecMysql.run_all yard_plan (my_ideal yard) = Some c /\ catalogue_alike c (my_ideal yard_after).
Proof.
  eexists. split; [vm_compute; reflexivity|]. split; [|split; reflexivity]. paired. split; [reflexivity|]. split; [vm_compute; reflexivity|]. split; [reflexivity|]. split; [reflexivity|].
  paired; repeat (split; [reflexivity|]); paired; (split; [reflexivity|cbn; tauto]).
Qed.

(** ** PostgreSQL: the club *)
Definition club_plan : list stmt := Eval vm_compute in match plan Postgres club_parsed (pg_dump (ideal club)) with Ok out => out | _ => [] end.
Definition club_effect (st : stmt) := execute g_name pg_create (pg_alter every_cast) every_view (s_eff st).
Definition club_step := by_text club_effect club_plan.
Definition club_world (d : shown_database) : world :=
  serving club_step (ideal d) (map (fun n => (n, dump_table_ddl (SpecShown.catalogue is_quoted d) n)) (table_names (SpecShown.catalogue is_quoted d))) (views (SpecShown.catalogue is_quoted d)) [] "schema.sql" club_wants.
Lemma club_answers d : differ (table_names (SpecShown.catalogue is_quoted d)) = true ->
  answers (club_world d) "schema.sql" club_wants (dump_database (SpecShown.catalogue is_quoted d)).
Proof.
  intros N. unfold dump_database, club_world. set (c := SpecShown.catalogue is_quoted d) in *.
  pose proof (serving_answers club_step (ideal d) (map (fun n => (n, dump_table_ddl c n)) (table_names c)) (views c) [] "schema.sql" club_wants) as A.
  rewrite !map_map, map_id, app_nil_r in A. exact (A N).
Qed.
Lemma club_planned out : plan Postgres club_parsed (pg_dump (ideal club)) = Ok out -> out = club_plan.
Proof. vm_compute. intros E. injection E as <-. reflexivity. Qed.
Lemma club_does out : plan Postgres club_parsed (pg_dump (ideal club)) = Ok out -> does club_step club_effect out.
Proof. intros E. rewrite (club_planned _ E). apply by_text_does. vm_compute. reflexivity. Qed.
Lemma club_left : exists c, execute_all g_name pg_create (pg_alter every_cast) every_view club_plan (ideal club) = Some c /\ database_alike pg_alike c (ideal club_after).
Proof.
  eexists. split; [vm_compute; reflexivity|]. split; [|split; reflexivity]. paired. repeat (split; [vm_compute; reflexivity|]).
  paired; repeat (split; [reflexivity|]); paired; (split; [reflexivity|cbn; tauto]).
Qed.

(** ** SQL Server: the market before it had its index *)
Definition stall : mq_database :=
  mkMqDatabase
    [ mkMqTable "dbo" "users"
        (mkMqColumn "id" (QPlain "bigint" "8") false None (Some (mkMqIdentity 1 1 false)) None)
        [ mkMqColumn "name" (QSized "varchar" 40) false (Some ("DF__users__name", QString "you")) None None;
          mkMqColumn "age" (QPlain "int" "4") true None None (Some (mkMqCheck "CK__users__age" (ECompare CmpGt (EColumn "age") (EGroup (EInt 17))) false));
          mkMqColumn "nick" (QSized "varchar" 20) true None None None ]
        (Some (mkMqIndex "PK__users" true true ("id", false) [] [] usual))
        (Some (mkMqIndex "by_nick" false false ("nick", false) [] [] usual)) [] ] [] [].
Definition stall_plan : list stmt := Eval vm_compute in match plan Mssql small_schema (mq_definitions stall) with Ok out => out | _ => [] end.
Definition stall_effect (st : stmt) := execute m_name (ms_create some_ways) (ms_alter some_ways) every_ms_view (s_eff st).
Definition stall_step := by_text stall_effect stall_plan.
Lemma stall_left : exists c, execute_all m_name (ms_create some_ways) (ms_alter some_ways) every_ms_view stall_plan (mq_ideal stall) = Some c /\ database_alike ms_alike c (mq_ideal market_there).
Proof.
  eexists. split; [vm_compute; reflexivity|]. split; [|split; reflexivity]. paired. repeat (split; [vm_compute; reflexivity|]).
  paired; repeat (split; [reflexivity|]); paired; (split; [reflexivity|cbn; tauto]).
Qed.
Definition ms_table_text (s : ms_server) (n : string) : string :=
  match ms_find s n with
  | Some t => ms_build_dump n (mst_columns t) (map ms_index_of (mst_indexes t)) (mst_fks t)
  | None => ms_build_dump n [] [] []
  end.
Definition stall_world (d : mq_database) : world :=
  serving stall_step (mq_ideal d) (map (fun n => (n, ms_table_text (mq_server d) n)) (ms_table_names (mq_server d))) (map ms_view_text (mss_views (mq_server d)))
    (mss_triggers (mq_server d)) "schema.sql" market_small.
Lemma stall_answers d : differ (ms_table_names (mq_server d)) = true -> answers (stall_world d) "schema.sql" market_small (ms_export (mq_server d)).
Proof.
  intros N. unfold stall_world, ms_export. set (s := mq_server d) in *.
  pose proof (serving_answers stall_step (mq_ideal d) (map (fun n => (n, ms_table_text s n)) (ms_table_names s)) (map ms_view_text (mss_views s)) (mss_triggers s) "schema.sql" market_small) as A.
  rewrite !map_map, map_id in A. exact (A N).
Qed.
Lemma stall_readable : mq_readable stall = true.
Proof. vm_compute. reflexivity. Qed.
Lemma stall_ok : ms_database_ok (mq_ideal stall).
Proof. apply ms_database_b_ok. vm_compute. reflexivity. Qed.
Lemma stall_convertible : ms_convertible some_ways small_schema (mq_ideal stall).
Proof. apply ms_convertible_b_ok. vm_compute. reflexivity. Qed.
Lemma stall_planned out : plan Mssql small_schema (mq_definitions stall) = Ok out -> out = stall_plan.
Proof. vm_compute. intros E. injection E as <-. reflexivity. Qed.
Lemma stall_does out : plan Mssql small_schema (mq_definitions stall) = Ok out -> does stall_step stall_effect out.
Proof. intros E. rewrite (stall_planned _ E). apply by_text_does. vm_compute. reflexivity. Qed.

(** ** MySQL, the answers *)
Lemma yard_dump d : SpecShownMysql.md_views d = [] -> SpecShownMysql.md_triggers d = [] -> my_readable d = true -> my_shows d (server_of d) ->
  my_dump (server_of d) = Some (join (";" ++ nl ++ nl) (map snd (srv_tables (server_of d)) ++ [] ++ [])).
Proof.
  intros V T R H. rewrite (my_dump_shown d (server_of d) R H). unfold my_export. rewrite V, T. cbn [map]. rewrite !app_nil_r.
  unfold server_of. cbn [srv_tables]. rewrite map_map. reflexivity.
Qed.

(** ** SQLite: the shop.  The server writes CREATE TABLE in capitals. *)
Definition kept_text (x : string) : string :=
  if String.prefix "create table " x then ("CREATE TABLE " ++ substring 13 (String.length x) x)%string else x.
Definition freeb (master : list lite_row) (n : string) : bool := forallb (fun r => negb (String.eqb (lr_name r) n)) master.
Definition has_row (kind n : string) (master : list lite_row) : bool := existsb (fun r => String.eqb (lr_type r) kind && String.eqb (lr_name r) n) master.
Definition lite_effect (st : stmt) (a : list lite_row) : option (list lite_row) :=
  match s_eff st with
  | EffVerbatim (CreateTable _ t) => if freeb a (t_name t) then Some (a ++ [mkLiteRow "table" (t_name t) (t_name t) (Some (kept_text (s_text st)))]) else None
  | EffVerbatim (DView v) => if freeb a (vw_name v) then Some (a ++ [mkLiteRow "view" (vw_name v) (vw_name v) (Some (kept_text (s_text st)))]) else None
  | EffCreateView n _ => if freeb a n then Some (a ++ [mkLiteRow "view" n n (Some (kept_text (s_text st)))]) else None
  | EffDropTable n => if has_row "table" n a then Some (without_object n a) else None
  | EffDropView n => if has_row "view" n a then Some (without_object n a) else None
  | _ => None
  end.
Lemma freeb_free a n : freeb a n = true <-> free a n.
Proof.
  unfold freeb, free. rewrite forallb_forall. split; intros H r I.
  - intros E. specialize (H r I). rewrite E, String.eqb_refl in H. discriminate.
  - destruct (String.eqb_spec (lr_name r) n) as [E|]; [destruct (H r I E)|reflexivity].
Qed.
Lemma has_row_in kind n a : has_row kind n a = true <-> exists r, In r a /\ lr_type r = kind /\ lr_name r = n.
Proof.
  unfold has_row. rewrite existsb_exists. split; intros (r & I & H).
  - apply andb_true_iff in H as (A & B). apply String.eqb_eq in A, B. eauto.
  - destruct H as (<- & <-). exists r. split; [exact I|]. now rewrite !String.eqb_refl.
Qed.
Lemma lite_effect_executes st a : keepsb (s_text st) (kept_text (s_text st)) = true ->
  (forall b, lite_effect st a = Some b -> executes st a b) /\ ((exists b, executes st a b) -> exists b, lite_effect st a = Some b).
Proof.
  intros K. destruct st as [x e]. cbn [s_text] in K. apply keepsb_keeps in K. split.
  - intros b. unfold lite_effect. cbn [s_eff s_text]. destruct e; try discriminate.
    + destruct d; try discriminate.
      * destruct (freeb a (t_name t)) eqn:F; [|discriminate]. intros E. injection E as <-. apply freeb_free in F. now apply ex_create_table.
      * destruct (freeb a (vw_name v)) eqn:F; [|discriminate]. intros E. injection E as <-. apply freeb_free in F. now apply ex_create_view.
    + destruct (has_row "table" t a) eqn:F; [|discriminate]. intros E. injection E as <-. apply has_row_in in F as (r & I & A & B). exact (ex_drop_table x t a r I A B).
    + destruct (has_row "view" v a) eqn:F; [|discriminate]. intros E. injection E as <-. apply has_row_in in F as (r & I & A & B). exact (ex_drop_view x v a r I A B).
    + destruct (freeb a v) eqn:F; [|discriminate]. intros E. injection E as <-. apply freeb_free in F. now apply ex_new_view.
  - intros (b & X). unfold lite_effect. inversion X as [x0 x' t y own a0 F _ _|x0 v y a0 F _|x0 n d y a0 F _|x0 n a0 r I A B|x0 n a0 r I A B]; subst; cbn [s_eff s_text];
      try (rewrite (proj2 (freeb_free _ _) F); eauto); rewrite (proj2 (has_row_in _ _ _)) by eauto; eauto.
Qed.
Definition shop_step := by_text lite_effect shop_plan.
Lemma shop_kept : forallb (fun st => keepsb (s_text st) (kept_text (s_text st))) shop_plan = true.
Proof. vm_compute. reflexivity. Qed.
Lemma shop_planned ds out current : lite_dump shop = Some current -> parse_file SQLite3 current = Ok ds -> plan SQLite3 shop_parsed ds = Ok out -> out = shop_plan.
Proof.
  intros D. assert (E : parse_file SQLite3 (match lite_dump shop with Some c => c | None => "" end) = parse_file SQLite3 current) by now rewrite D. rewrite <- E.
  clear D E. intros E. vm_compute in E. injection E as <-. vm_compute. intros E. injection E as <-. reflexivity.
Qed.
Lemma shop_allows current : lite_dump shop = Some current ->
  forall out ds, parse_file SQLite3 current = Ok ds -> plan SQLite3 shop_parsed ds = Ok out -> allows shop_step executes out.
Proof.
  intros D out ds P E. rewrite (shop_planned _ _ _ D P E). intros st I a.
  assert (B : shop_step (s_text st) a = lite_effect st a) by (apply by_text_does; [vm_compute; reflexivity|exact I]). rewrite B.
  apply lite_effect_executes. pose proof shop_kept as K. rewrite forallb_forall in K. exact (K st I).
Qed.
Definition lite_world (master : list lite_row) : world :=
  serving shop_step master (map (fun n => (n, match lite_dump_table master n with Some t => t | None => "" end)) (lite_table_names master))
    (flat_map (fun v => match v with Some t => [t] | None => [] end) (lite_views master)) [] "schema.sql" shop_file.
