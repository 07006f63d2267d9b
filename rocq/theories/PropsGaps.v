(** Properties C20, C23, C25, C46: changes of the schema that the plan misses or gets wrong. *)
From Coq Require Import String Ascii List ZArith Bool.
From Verif Require Import GoStr Ast Generator SpecPlan SpecColumns DemoPlan ProofDemo ProofGaps.
Import ListNotations.
Local Open Scope string_scope.
Local Open Scope list_scope.

(** C20: a foreign key that now references another table, from another column, is kept. *)
Theorem C20_foreign_key_target_refuted : exists desired current t ct f cf,
  well_formed desired = true /\ readable current = true /\
  In t (tables_in desired) /\ In ct (schema current) /\ t_name ct = t_name t /\
  In f (t_fks t) /\ In cf (t_fks ct) /\ fk_constraint cf = fk_constraint f /\
  fk_ref_name cf <> fk_ref_name f /\ fk_index_columns cf <> fk_index_columns f /\
  plan Mysql desired current = Ok [].
Proof.
  pose (t f := mkTable "posts" [col "a" 0 "int"; col "b" 1 "int"] [idx "fk_user" false ["a"]] [f] []).
  pose (f1 := fk "fk_user" "a" "users" "id" "CASCADE"). pose (f2 := fk "fk_user" "b" "people" "id" "CASCADE").
  exists [CreateTable "..." (t f2)], [CreateTable "..." (t f1)], (t f2), (t f1), f2, f1.
  repeat split; try (vm_compute; auto; fail); discriminate.
Qed.
Print Assumptions C20_foreign_key_target_refuted.

(** What is applied: a change of the referential actions (or of NOT FOR REPLICATION). *)
Theorem C20_foreign_key_actions_partial m desired current out t ct f cf :
  m <> SQLite3 ->
  NoDup (created desired) -> NoDup (created current) -> plan m desired current = Ok out ->
  In t (tables_in desired) -> In ct (schema current) -> t_name ct = t_name t ->
  In f (t_fks t) -> named fk_constraint (fk_constraint f) (t_fks ct) = Some cf -> ~ fk_matches m cf f ->
  exists a b, effects (fk_ops (t_name t)) out = a ++ [Drop (fk_constraint f); Add f] ++ b.
Proof. exact (changed_fk_is_recreated m desired current out t ct f cf). Qed.
Print Assumptions C20_foreign_key_actions_partial.

Example C20_example : kept_example Mysql "" 1 /\
  let f := nth 0 (t_fks (nth_created 1 (blog_desired ""))) (fk "" "" "" "" "") in
  let cf := nth 0 (t_fks (nth_table 1 (blog_current ""))) (fk "" "" "" "" "") in
  In f (t_fks (nth_created 1 (blog_desired ""))) /\
  named fk_constraint (fk_constraint f) (t_fks (nth_table 1 (blog_current ""))) = Some cf /\
  ~ fk_matches Mysql cf f.
Proof.
  split; [blog_example|]. cbv zeta. split; [vm_compute; auto|]. split; [vm_compute; auto|].
  vm_compute. intros (_ & H & _). destruct H as [H|([H|H] & _)]; discriminate.
Qed.

(** C23: no plan ever drops a trigger that left the schema. *)
Theorem C23_obsolete_triggers_stay m desired current out n :
  NoDup (created desired) -> plan m desired current = Ok out ->
  ~ In n (map tr_name (triggers_in desired)) -> ~ In (TriggerDrop n) (effects trigger_ops out).
Proof. exact (obsolete_trigger_stays m desired current out n). Qed.
Print Assumptions C23_obsolete_triggers_stay.

Theorem C23_trigger_is_dropped_refuted : exists current,
  readable current = true /\ triggers_in current <> [] /\ plan Mysql [] current = Ok [].
Proof.
  exists [DTrigger (mkTrigger "CREATE TRIGGER t1 ..." "t1" "users" "BEFORE" "INSERT" ["SET NEW.age = 1"])].
  vm_compute. repeat split; discriminate.
Qed.
Print Assumptions C23_trigger_is_dropped_refuted.

Example C23_example : plan Mysql (blog_desired "") (blog_current "") = Ok (plan_of Mysql "") /\
  In "t2" (map tr_name (triggers_in (blog_current ""))) /\ ~ In "t2" (map tr_name (triggers_in (blog_desired ""))).
Proof. vm_compute. split; [reflexivity|]. split; [auto|]. intros [H|[H|[]]]; discriminate. Qed.

(** C25: a policy gains parentheses around USING and loses its WITH CHECK clause and a role;
    nothing is planned. *)
Theorem C25_policy_clause_refuted : exists desired current p cp,
  well_formed desired = true /\ readable current = true /\
  policies_on "public.users" desired = [p] /\ policies_on "public.users" current = [cp] /\
  p_name cp = p_name p /\ p_with_check cp <> p_with_check p /\ p_roles cp <> p_roles p /\
  plan Postgres desired current = Ok [].
Proof.
  pose (t := CreateTable "..." (mkTable "public.users" [col "id" 0 "int"] [] [] [])).
  pose (p := mkPolicy "own" "public.users" "permissive" "all" ["public"] "(owner = me())" "").
  pose (cp := mkPolicy "own" "public.users" "permissive" "all" ["admin"; "public"] "owner = me()" "checked").
  exists [t; AddPolicy "..." "public.users" p], [t; AddPolicy "..." "public.users" cp], p, cp.
  repeat split; discriminate.
Qed.
Print Assumptions C25_policy_clause_refuted.

(** Without such parentheses every clause counts. *)
Theorem C25_policy_change_is_applied_partial m desired current out t ct s p cp :
  NoDup (created desired) -> NoDup (created current) -> plan m desired current = Ok out ->
  In t (tables_in desired) -> In ct (schema current) -> t_name ct = t_name t ->
  In (AddPolicy s (t_name t) p) desired -> named p_name (p_name p) (t_policies ct) = Some cp ->
  p_using p <> ("(" ++ p_using cp ++ ")")%string -> p_with_check p <> ("(" ++ p_with_check cp ++ ")")%string ->
  to_lower (p_scope cp) <> to_lower (p_scope p) \/
  to_lower (p_permissive cp) <> to_lower (p_permissive p) \/
  to_lower (p_using cp) <> to_lower (p_using p) \/
  to_lower (p_with_check cp) <> to_lower (p_with_check p) \/
  map to_lower (sort_strings (p_roles cp)) <> map to_lower (sort_strings (p_roles p)) ->
  exists a b, effects (policy_ops (t_name t)) out = a ++ [Drop (p_name p); Add p] ++ b.
Proof. exact (changed_policy_is_recreated m desired current out t ct s p cp). Qed.
Print Assumptions C25_policy_change_is_applied_partial.

Example C25_example : kept_example Postgres "public." 0 /\
  let p := nth 0 (policies_on "public.users" (blog_desired "public.")) (pol "" "" "" []) in
  let cp := nth 0 (t_policies (nth_table 0 (blog_current "public."))) (pol "" "" "" []) in
  In p (policies_on "public.users" (blog_desired "public.")) /\
  named p_name (p_name p) (t_policies (nth_table 0 (blog_current "public."))) = Some cp /\
  to_lower (p_using cp) <> to_lower (p_using p) /\
  p_using p <> ("(" ++ p_using cp ++ ")")%string /\ p_with_check p <> ("(" ++ p_with_check cp ++ ")")%string.
Proof. split; [blog_example|]. vm_compute. repeat split; auto; discriminate. Qed.

(** C46: on SQL Server a column that is to lose its IDENTITY is dropped and not added again. *)
Theorem C46_identity_removal_drops_the_column desired current out t ct c cc :
  NoDup (created desired) -> NoDup (created current) -> plan Mssql desired current = Ok out ->
  In t (tables_in desired) -> In ct (schema current) -> t_name ct = t_name t ->
  NoDup (map c_name (t_columns t)) -> In c (t_columns t) ->
  named c_name (c_name c) (t_columns ct) = Some cc -> c_identity cc <> None -> c_identity c = None ->
  In (c_name c) (effects (dropped_columns (t_name t)) out) /\
  forall c' p, In (c', p) (effects (added_columns (t_name t)) out) -> c_name c' <> c_name c.
Proof. exact (identity_removal desired current out t ct c cc). Qed.
Print Assumptions C46_identity_removal_drops_the_column.

Theorem C46_identity_removal_keeps_the_column_refuted : exists desired current,
  well_formed desired = true /\ readable current = true /\
  map (fun t => map c_name (t_columns t)) (tables_in desired) = [["id"; "x"]] /\
  map (fun t => map c_name (t_columns t)) (schema current) = [["id"; "x"]] /\
  texts (plan Mssql desired current) = Some ["ALTER TABLE [dbo].[t] DROP COLUMN [id]"].
Proof.
  pose (t c := mkTable "dbo.t" [c; col "x" 1 "int"] [] [] []).
  exists [CreateTable "..." (t (col "id" 0 "int"))],
         [CreateTable "..." (t (with_serial (col "id" 0 "int")))].
  vm_compute. auto.
Qed.
Print Assumptions C46_identity_removal_keeps_the_column_refuted.

(** A column that is to get an IDENTITY is added although it exists. *)
Theorem C46_identity_addition_refuted : exists desired current,
  well_formed desired = true /\ readable current = true /\
  map (fun t => map c_name (t_columns t)) (schema current) = [["id"; "x"]] /\
  effects (added_columns "dbo.t")
    match plan Mssql desired current with Ok out => out | _ => [] end =
    [(with_serial (col "id" 0 "int"), PosNone)] /\
  effects (dropped_columns "dbo.t")
    match plan Mssql desired current with Ok out => out | _ => [] end = [].
Proof.
  pose (t c := mkTable "dbo.t" [c; col "x" 1 "int"] [] [] []).
  exists [CreateTable "..." (t (with_serial (col "id" 0 "int")))],
         [CreateTable "..." (t (col "id" 0 "int"))].
  vm_compute. auto.
Qed.
Print Assumptions C46_identity_addition_refuted.

Example C46_example :
  let t c := mkTable "dbo.t" [c; col "x" 1 "int"] [] [] [] in
  let desired := [CreateTable "..." (t (col "id" 0 "int"))] in
  let current := [CreateTable "..." (t (with_serial (col "id" 0 "int")))] in
  NoDup (created desired) /\ NoDup (created current) /\
  match plan Mssql desired current with Ok out => out <> [] | _ => False end.
Proof.
  split; [apply distinct_NoDup; reflexivity|]. split; [apply distinct_NoDup; reflexivity|]. vm_compute. discriminate.
Qed.
