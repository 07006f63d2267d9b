(** Views of the sys schema for the examples and refutations of C95. *)
From Coq Require Import String Ascii List ZArith Bool Permutation Lia.
From Verif Require Import GoStr GoStrFacts Ast Generator Catalog AdapterPostgres AdapterMssql ExportMssql QueryMssql SpecShown SpecShownMssql DemoReadMssql DemoConvergeMs ProofSysMssql SpecSysMssql.
Import ListNotations.
Local Open Scope string_scope.
Local Open Scope list_scope.

(** ** The export with every answer in the order of the views *)
Definition columns_first (s : sys) (schema name : string) : res (list ms_column) := scan_all_rows (scan_column s) (column_query s schema name).
Definition indexes_first (s : sys) (schema name : string) : res (list ms_index_row) :=
  bind (scan_all_rows scan_index (index_query s schema name)) (fun rows => add_index_columns s (index_column_query s schema name) (fold_left (fun l x => set_index x l) rows [])).
Definition fks_first (s : sys) (schema name : string) : res (list ms_fk_row) := scan_all_rows (scan_fk s) (fk_query s schema name).
Definition dump_table_first (s : sys) (table : string) : res string :=
  let (schema, name) := split_table_name "dbo" table in
  bind (columns_first s schema name) (fun cols => bind (indexes_first s schema name) (fun l => bind (fks_first s schema name) (fun fks =>
    Ok (ms_build_dump table cols (map ms_index_of l) fks)))).
Fixpoint dump_tables_first (s : sys) (l : list string) : res (list string) :=
  match l with [] => Ok [] | n :: l' => bind (dump_table_first s n) (fun text => bind (dump_tables_first s l') (fun texts => Ok (text :: texts))) end.
Definition names_first (s : sys) : list string := map (fun o => (so_schema o ++ "." ++ so_name o)%string) (filter (fun o => String.eqb (so_type o) "U") (sys_objects s)).
Definition modules_first (s : sys) (ids : list Z) : res (list string) := scan_all_rows (fun m : Z * option string => not_null (snd m)) (module_query s ids).
Definition dump_first (s : sys) : res string :=
  bind (dump_tables_first s (names_first s)) (fun tables => bind (modules_first s (view_ids s)) (fun views => bind (modules_first s (sys_triggers s)) (fun triggers =>
    Ok (join (";" ++ nl ++ nl) (tables ++ map ms_view_text views ++ triggers))))).
Lemma dump_table_first_is s n : sys_dump_table s n (dump_table_first s n).
Proof.
  unfold sys_dump_table, dump_table_first. destruct (split_table_name "dbo" n) as [schema name].
  exists (columns_first s schema name), (indexes_first s schema name), (fks_first s schema name).
  split; [eexists; split; [apply Permutation_refl|reflexivity]|]. split; [eexists _, _; split; [apply Permutation_refl|]; split; [apply Permutation_refl|reflexivity]|].
  split; [eexists; split; [apply Permutation_refl|reflexivity]|].
  destruct (indexes_first s schema name) as [l| | |]; (eexists; split; [first [apply Permutation_refl|reflexivity]|reflexivity]).
Qed.
Lemma dump_first_is s : sys_dump s (dump_first s).
Proof.
  exists (names_first s), (dump_tables_first s (names_first s)), (modules_first s (view_ids s)), (modules_first s (sys_triggers s)).
  split; [eexists; split; [apply Permutation_refl|reflexivity]|]. split.
  - generalize (names_first s). intros l. induction l as [|n l IH]; [constructor|]. cbn [dump_tables_first]. constructor; [apply dump_table_first_is|exact IH].
  - split; [eexists; split; [apply Permutation_refl|reflexivity]|]. split; [eexists; split; [apply Permutation_refl|reflexivity]|]. reflexivity.
Qed.

(** With one row at most in every answer there is no other export. *)
Definition lone {A} (l : list A) : bool := match l with [] | [_] => true | _ => false end.
Lemma lone_answer {A} (rows got : list A) : lone rows = true -> Permutation rows got -> got = rows.
Proof. destruct rows as [|x [|y l]]; [intros _; apply Permutation_nil|intros _; apply Permutation_length_1_inv|discriminate]. Qed.
Lemma lone_map {A B} (f : A -> B) l : lone (map f l) = lone l.
Proof. now destruct l as [|x [|y l]]. Qed.
Definition lone_table (s : sys) (n : string) : bool :=
  let (schema, name) := split_table_name "dbo" n in
  lone (column_query s schema name) && lone (index_query s schema name) && lone (index_column_query s schema name) && lone (fk_query s schema name) &&
  match indexes_first s schema name with Ok l => lone l | _ => true end.
Definition lone_views (s : sys) : bool :=
  lone (names_first s) && forallb (lone_table s) (names_first s) && lone (module_query s (view_ids s)) && lone (module_query s (sys_triggers s)).
Lemma lone_table_dump s n r : lone_table s n = true -> sys_dump_table s n r -> r = dump_table_first s n.
Proof.
  unfold lone_table, sys_dump_table, dump_table_first. destruct (split_table_name "dbo" n) as [schema name]. rewrite !andb_true_iff. intros [[[[L1 L2] L3] L4] L5].
  intros (cols & indexes & fks & (g1 & A1 & ->) & (g2 & g3 & A2 & A3 & E) & (g4 & A4 & ->) & shown & S & ->).
  apply lone_answer in A1; [|exact L1]. apply lone_answer in A2; [|exact L2]. apply lone_answer in A3; [|exact L3]. apply lone_answer in A4; [|exact L4]. subst.
  fold (columns_first s schema name). fold (indexes_first s schema name) in *. fold (fks_first s schema name).
  destruct (indexes_first s schema name) as [l| | |]; [|now destruct (columns_first s schema name)..].
  apply lone_answer in S; [|now rewrite lone_map]. now subst.
Qed.
Lemma lone_dump s r : lone_views s = true -> sys_dump s r -> r = dump_first s.
Proof.
  unfold lone_views. rewrite !andb_true_iff. intros [[[L1 L2] L3] L4] (names & tables & views & triggers & (g1 & A1 & E) & D & (g2 & A2 & ->) & (g3 & A3 & ->) & ->). injection E as ->.
  apply lone_answer in A1; [|unfold names_first in L1; now rewrite lone_map in L1]. apply lone_answer in A2; [|exact L3]. apply lone_answer in A3; [|exact L4]. subst.
  change (dump_tables s (names_first s) tables) in D. unfold dump_first. fold (modules_first s (view_ids s)). fold (modules_first s (sys_triggers s)).
  replace tables with (dump_tables_first s (names_first s)); [reflexivity|].
  revert L2 D. generalize (names_first s). clear. intros ns L2 D. revert L2. induction D as [|n l r rest T D IH]; [reflexivity|]. cbn [forallb]. rewrite andb_true_iff. intros [T1 T2].
  cbn [dump_tables_first]. rewrite <- (lone_table_dump s n r T1 T). now rewrite <- IH.
Qed.

(** ** The views of the database [shop] *)
Definition shop_sys : sys :=
  mkSys
    [ mkSysObject 101 "dbo" "users" "U" None; mkSysObject 201 "dbo" "DF_users_name" "D" (Some "('it''s me')"); mkSysObject 202 "dbo" "DF_users_age" "D" (Some "((-1))");
      mkSysObject 203 "dbo" "DF_users_since" "D" (Some "(getdate())"); mkSysObject 102 "sales" "orders" "U" None; mkSysObject 301 "dbo" "people" "V" (Some "");
      mkSysObject 401 "dbo" "log" "TR" (Some "") ]
    [ mkSysColumn 101 1 "id" 127 "8" false true 0; mkSysColumn 101 2 "name" 167 "40" false false 201; mkSysColumn 101 3 "age" 56 "4" true false 202;
      mkSysColumn 101 5 "since" 61 "8" false false 203; mkSysColumn 102 1 "id" 56 "4" false false 0; mkSysColumn 102 2 "buyer" 127 "8" false false 0 ]
    [ mkSysType 56 "int"; mkSysType 61 "datetime"; mkSysType 127 "bigint"; mkSysType 167 "varchar" ]
    [ mkSysCheck "CK_age" 101 3 (Some ("(" ++ mq_text (EAnd (ECompare CmpGt (EColumn "age") (EGroup (EInt 0))) (ENotNull (EColumn "age"))) ++ ")")%string) true ]
    [ mkSysIdentity 101 1 (Some "1000") (Some "10") (Some true) ]
    [ mkSysIndex 101 1 (Some "PK_users") true true "CLUSTERED" false "0" false true true; mkSysIndex 101 2 (Some "by name") false true "NONCLUSTERED" true "80" true true false;
      mkSysIndex 102 0 None false false "HEAP" false "0" false true true; mkSysIndex 102 2 (Some "PK_orders") true true "NONCLUSTERED" false "0" false true true ]
    [ mkSysStat 101 1 false false; mkSysStat 101 2 false false; mkSysStat 101 3 false false; mkSysStat 102 2 false false ]
    [ mkSysIndexColumn 101 1 1 false false; mkSysIndexColumn 101 2 2 true false; mkSysIndexColumn 101 2 5 false false; mkSysIndexColumn 101 2 3 false true;
      mkSysIndexColumn 102 2 1 true false; mkSysIndexColumn 102 2 2 false false ]
    [ mkSysFk 501 "FK_buyer" 102 101 "NO_ACTION" "CASCADE" false ]
    [ mkSysFkColumn 501 2 1 ]
    [301%Z] [401%Z]
    [ (301%Z, Some (mq_view_text (hd (mkMqView (mkShownView "" "" [] "" None) "" false) (mqd_views shop))));
      (401%Z, Some (mq_trigger_text (hd (mkMqTrigger "" "" QInsert "" [] []) (mqd_triggers shop)))) ].
Ltac each := match goal with |- Forall2 ?R ?a ?b => let a' := eval vm_compute in a in let b' := eval vm_compute in b in change (Forall2 R a' b'); repeat (first [apply Forall2_nil|apply Forall2_cons]) end.
Ltac no_dup := vm_compute; repeat (constructor; [cbn [In]; intuition congruence|]); constructor.
Ltac some_in := cbn; repeat (first [left; reflexivity|right]).
Ltac in_list := (left; reflexivity) + (right; in_list).
Ltac found := cbn; eexists; split; [in_list|solve [repeat split]].
Ltac called := unfold column_called; found.
Lemma shop_told : sys_tells shop_sys (mq_server shop).
Proof.
  split.
  - split; no_dup.
  - each; unfold tells_table; cbn [so_id].
    + split; [reflexivity|]. split; [reflexivity|]. split; [|split; [|split; [|split; [|]]]].
      * each; unfold tells_column; (split; [reflexivity|]); (split; [reflexivity|]); (split; [reflexivity|]); (split; [some_in|]);
          (split; [first [reflexivity|cbn; split; [discriminate|found]]|]);
          (split; [first [reflexivity|cbn; split; [reflexivity|some_in]]|]); vm_compute; reflexivity.
      * each; unfold tells_index; do 9 (split; [reflexivity|]); (split; [some_in|]); each; (split; [called|split; reflexivity]).
      * no_dup.
      * split; intros x H E; cbn in H; repeat (destruct H as [<-|H]; [try discriminate; cbn in *; discriminate|]); destruct H.
      * eexists []. split; [constructor|reflexivity].
    + split; [reflexivity|]. split; [reflexivity|]. split; [|split; [|split; [|split; [|]]]].
      * each; unfold tells_column; (split; [reflexivity|]); (split; [reflexivity|]); (split; [reflexivity|]); (split; [some_in|]);
          (split; [first [reflexivity|cbn; split; [discriminate|found]]|]);
          (split; [first [reflexivity|cbn; split; [reflexivity|some_in]]|]); vm_compute; reflexivity.
      * each; unfold tells_index; do 9 (split; [reflexivity|]); (split; [some_in|]); each; (split; [called|split; reflexivity]).
      * no_dup.
      * split; intros x H E; cbn in H; repeat (destruct H as [<-|H]; [try discriminate; cbn in *; discriminate|]); destruct H.
      * exists [[mkMsFkRow "FK_buyer" "buyer" "users" "id" "NO_ACTION" "CASCADE" false]]. split; [|reflexivity]. each. unfold tells_fk_row. do 4 (split; [reflexivity|]). split; [called|]. split; [called|]. found.
  - each; unfold tells_module; some_in.
  - intros id [<-|[]]. some_in.
  - each; unfold tells_module; some_in.
Qed.

(** ** One table [t] with the columns, checks, indexes and so on given *)
Definition tiny (objects : list sys_object) (columns : list sys_column) (checks : list sys_check) (indexes : list sys_index) (stats : list sys_stat)
    (index_columns : list sys_index_column) (fks : list sys_fk) (fk_columns : list sys_fk_column) (modules : list (Z * option string)) : sys :=
  mkSys (mkSysObject 1 "dbo" "t" "U" None :: objects) (mkSysColumn 1 1 "a" 56 "4" false false 0 :: columns) [mkSysType 56 "int"] checks [] indexes stats index_columns fks fk_columns
    (map fst modules) [] modules.
Definition pair_sys : sys :=
  tiny [] [mkSysColumn 1 2 "b" 56 "4" false false 0] [] [mkSysIndex 1 2 (Some "i") false true "NONCLUSTERED" false "0" false true true] [mkSysStat 1 2 false false]
    [mkSysIndexColumn 1 2 1 false false; mkSysIndexColumn 1 2 2 false false] [] [] [].
Definition pair_shop : mq_database :=
  mkMqDatabase [mkMqTable "dbo" "t" (plain_column "a" "int" "4") [plain_column "b" "int" "4"] None (Some (mkMqIndex "i" true false ("a", false) [("b", false)] [] usual)) []] [] [].
Lemma pair_told : sys_tells pair_sys (mq_server pair_shop).
Proof.
  split.
  - split; no_dup.
  - each; unfold tells_table; cbn [so_id].
    split; [reflexivity|]. split; [reflexivity|]. split; [|split; [|split; [|split; [|]]]].
    + each; unfold tells_column; (split; [reflexivity|]); (split; [reflexivity|]); (split; [reflexivity|]); (split; [some_in|]); (split; [reflexivity|]); (split; [reflexivity|]); reflexivity.
    + each; unfold tells_index; do 9 (split; [reflexivity|]); (split; [some_in|]); each; (split; [called|split; reflexivity]).
    + no_dup.
    + split; intros x H E; cbn in H; repeat (destruct H as [<-|H]; [cbn in *; discriminate|]); destruct H.
    + eexists []. split; [constructor|reflexivity].
  - constructor.
  - intros id [].
  - constructor.
Qed.
(** The export whose answer on the columns of the index comes in the other order. *)
Definition turned (s : sys) : sys :=
  mkSys (sys_objects s) (sys_columns s) (sys_types s) (sys_checks s) (sys_identities s) (sys_indexes s) (sys_stats s) (rev (sys_index_columns s)) (sys_fks s) (sys_fk_columns s)
    (sys_views s) (sys_triggers s) (sys_modules s).
Lemma pair_turned : sys_dump pair_sys (dump_first (turned pair_sys)).
Proof.
  exists ["dbo.t"], (bind (dump_table_first (turned pair_sys) "dbo.t") (fun text => bind (Ok []) (fun texts => Ok (text :: texts)))), (Ok []), (Ok []).
  split; [eexists; split; [apply Permutation_refl|reflexivity]|]. split; [|split; [eexists; split; [apply Permutation_refl|reflexivity]|]; split; [eexists; split; [apply Permutation_refl|reflexivity]|vm_compute; reflexivity]].
  constructor; [|constructor]. change (sys_dump_table pair_sys "dbo.t") with (fun r => exists cols indexes fks, columns_read pair_sys "dbo" "t" cols /\ indexes_read pair_sys "dbo" "t" indexes /\
    fks_read pair_sys "dbo" "t" fks /\ exists shown, match indexes with Ok l => index_order (map ms_index_of l) shown | _ => shown = [] end /\
    r = bind cols (fun cols => bind indexes (fun _ => bind fks (fun fks => Ok (ms_build_dump "dbo.t" cols shown fks))))).
  exists (columns_first pair_sys "dbo" "t"), (indexes_first (turned pair_sys) "dbo" "t"), (fks_first pair_sys "dbo" "t").
  split; [eexists; split; [apply Permutation_refl|reflexivity]|]. split.
  - exists (index_query pair_sys "dbo" "t"), (index_column_query (turned pair_sys) "dbo" "t"). split; [apply Permutation_refl|]. split; [vm_compute; apply perm_swap|vm_compute; reflexivity].
  - split; [eexists; split; [apply Permutation_refl|reflexivity]|]. eexists. split; [cbn; apply Permutation_refl|vm_compute; reflexivity].
Qed.

(** The views of the database [market_there]. *)
Definition there_sys : sys :=
  mkSys
    [ mkSysObject 101 "dbo" "users" "U" None; mkSysObject 201 "dbo" "DF__users__name" "D" (Some "('you')"); mkSysObject 202 "dbo" "CK__users__age" "C" (Some "([age]>(17))") ]
    [ mkSysColumn 101 1 "id" 127 "8" false true 0; mkSysColumn 101 2 "name" 167 "40" false false 201; mkSysColumn 101 3 "age" 56 "4" true false 0 ]
    [ mkSysType 56 "int"; mkSysType 127 "bigint"; mkSysType 167 "varchar" ]
    [ mkSysCheck "CK__users__age" 101 3 (Some "([age]>(17))") false ]
    [ mkSysIdentity 101 1 (Some "1") (Some "1") (Some false) ]
    [ mkSysIndex 101 1 (Some "PK__users") true true "CLUSTERED" false "0" false true true; mkSysIndex 101 2 (Some "by_name") false false "NONCLUSTERED" false "0" false true true ]
    [ mkSysStat 101 1 false false; mkSysStat 101 2 false false ]
    [ mkSysIndexColumn 101 1 1 false false; mkSysIndexColumn 101 2 2 true false ]
    [] [] [] [] [].
Lemma there_told : sys_tells there_sys (mq_server market_there).
Proof.
  split.
  - split; no_dup.
  - each; unfold tells_table; cbn [so_id].
    split; [reflexivity|]. split; [reflexivity|]. split; [|split; [|split; [|split; [|]]]].
    + each; unfold tells_column; (split; [reflexivity|]); (split; [reflexivity|]); (split; [reflexivity|]); (split; [some_in|]);
        (split; [first [reflexivity|cbn; split; [discriminate|found]]|]);
        (split; [first [reflexivity|cbn; split; [reflexivity|some_in]]|]); vm_compute; reflexivity.
    + each; unfold tells_index; do 9 (split; [reflexivity|]); (split; [some_in|]); each; (split; [called|split; reflexivity]).
    + no_dup.
    + split; intros x H E; cbn in H; repeat (destruct H as [<-|H]; [cbn in *; discriminate|]); destruct H.
    + eexists []. split; [constructor|reflexivity].
  - constructor.
  - intros id [].
  - constructor.
Qed.

(** ** For the refutations *)
Definition no_rows : sys_index := mkSysIndex 1 2 (Some "x") false false "XML" false "0" false true true.
(** A column with two checks. *)
Definition two_checks : sys :=
  tiny [] [] [mkSysCheck "c" 1 1 (Some "([a]>(0))") false; mkSysCheck "d" 1 1 (Some "([a]<(9))") false] [] [] [] [] [] [].
(** A check of the table. *)
Definition one_check : sys := tiny [] [] [mkSysCheck "c" 1 0 (Some "([a]<(9) AND [a]>(0))") false] [] [] [] [] [] [].
(** A foreign key into another schema. *)
Definition foreign (schema : string) : sys :=
  tiny [mkSysObject 2 schema "u" "U" None] [mkSysColumn 2 1 "id" 56 "4" false false 0] [] [] [] [] [mkSysFk 5 "f" 1 2 "NO_ACTION" "NO_ACTION" false] [mkSysFkColumn 5 1 1] [].
(** An index without statistics: of type XML, say. *)
Definition without_statistics : sys := tiny [] [] [] [no_rows] [] [mkSysIndexColumn 1 2 1 false false] [] [] [].
(** A default whose text may not be seen, and a view with encryption. *)
Definition unseen_default : sys := 
  mkSys [mkSysObject 1 "dbo" "t" "U" None; mkSysObject 2 "dbo" "d" "D" None] [mkSysColumn 1 1 "a" 56 "4" false false 2] [mkSysType 56 "int"] [] [] [] [] [] [] [] [] [] [].
Definition encrypted_view : sys := tiny [mkSysObject 3 "dbo" "v" "V" None] [] [] [] [] [] [] [] [(3%Z, None)].
