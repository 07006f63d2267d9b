(** A SQLite file from which all but one table is taken out, used by the example of C105. *)
From Coq Require Import String Ascii List ZArith Bool.
From Verif Require Import GoStr Ast Generator SchemaText SchemaParse Parser Planner Catalog AdapterSqlite SpecText SpecExport SpecPlan SpecLayout SpecSqlite
  DemoSqlite DemoHistory.
Import ListNotations.
Local Open Scope string_scope.
Local Open Scope list_scope.

Definition users_left : list ddl := Eval vm_compute in statements_on "users" shop_parsed.
Definition users_rows : list lite_row :=
  without_object "written" (without_object "people" (without_object "names" (without_object "posts" shop_after))).
Definition after_read : list ddl := Eval vm_compute in
  match parse_file SQLite3 (match lite_dump shop_after with Some c => c | None => "" end) with Ok ds => ds | _ => [] end.
Definition users_plan : list stmt := Eval vm_compute in match plan SQLite3 users_left after_read with Ok out => out | _ => [] end.
Definition users_table : table := Eval vm_compute in match at_name shop_after "users" with Some (LTable t) => t | _ => mkTable "users" [] [] [] [] end.
Lemma after_ok : lite_ok shop_after.
Proof. apply rows_ok; vm_compute; reflexivity. Qed.
Lemma after_users : holds shop_after "users" (LTable users_table).
Proof. apply at_name_holds; [exact after_ok|vm_compute; reflexivity]. Qed.
Lemma users_planned : plan SQLite3 users_left after_read = Ok users_plan.
Proof. vm_compute. reflexivity. Qed.
Lemma users_executed : executes_all users_plan shop_after users_rows.
Proof.
  unfold users_plan. apply drops_table; [vm_compute; reflexivity|]. do 3 (apply drops_view; [vm_compute; reflexivity|]). apply ea_nil.
Qed.
