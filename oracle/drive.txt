From Coq Require Import String Ascii List ZArith Bool.
From Verif Require Import GoStr GoStrFacts Ast Generator SchemaText SchemaParse Parser Planner Catalog CatalogMysql AdapterPostgres AdapterSqlite
  SpecPlan SpecLayout SpecMysql SpecDatabase SpecPostgres SpecMssql SpecSqlite DemoConvergeMs.
Import ListNotations.
Local Open Scope string_scope.
Definition out_text (texts : list string) : string :=
  match texts with [] => "-- Nothing is modified --" ++ nl | _ => "-- Apply --" ++ nl ++ String.concat "" (map (fun t => t ++ ";" ++ nl) texts) end.
Inductive verdict := Same | Diff (got : string) | NoParse | NoPlan (s : string) | Ran | Rejected (t : list string).
Section D.
Context {S : Type} (m : mode) (shown : S -> list ddl) (exec : effect -> S -> option S) (empty : S).
Fixpoint go_all (out : list stmt) (s : S) : S * list string :=
  match out with [] => (s, []) | st :: r => match exec (s_eff st) s with Some s' => go_all r s' | None => let '(s', l) := go_all r s in (s', s_text st :: l) end end.
Definition one (s : S) (desired : string) (want : option string) : S * list verdict :=
  match parse_file m desired with
  | Ok l => match plan m l (shown s) with
            | Ok out => let '(s', rej) := go_all out s in
                let got := out_text (map s_text out) in
                (s', match want with Some w => if String.eqb w got then [] else [Diff got] | None => [] end ++ match rej with [] => [] | _ => [Rejected rej] end)%list
            | Err _ => (s, [NoPlan "err"]) | Panic => (s, [NoPlan "panic"]) | Fatal => (s, [NoPlan "fatal"]) end
  | _ => (s, [NoParse])
  end.
Fixpoint test (n : nat) (s : S) (steps : list (option (string * option string))) : list (nat * verdict) :=
  match steps with
  | [] => []
  | None :: r => test (n + 1) empty r
  | Some (d, w) :: r => let '(s', v) := one s d w in (map (fun x => (n, x)) v ++ test (n + 1) s' r)%list
  end.
End D.
Definition my_test := test (S := SpecMysql.catalogue) Mysql SpecMysql.dump SpecMysql.run (SpecMysql.mkCatalogue [] [] []) 0 (SpecMysql.mkCatalogue [] [] []).
Definition pg_test := test (S := database pg_tab) Postgres pg_dump (execute g_name pg_create (pg_alter (fun _ _ => true)) (fun _ _ => true)) (mkDatabase [] [] []) 0 (mkDatabase [] [] []).
Definition ms_test := test (S := database ms_tab) Mssql ms_shown (execute m_name (ms_create some_ways) (ms_alter some_ways) (fun _ _ => true)) (mkDatabase [] [] []) 0 (mkDatabase [] [] []).
Fixpoint test2 (m : mode) (n : nat) (s : list ddl) (steps : list (option (string * option string))) : list (nat * verdict) :=
  match steps with
  | [] => []
  | None :: r => test2 m (n + 1) [] r
  | Some (d, w) :: r => match parse_file m d with
     | Ok l => match plan m l s with Ok out => let got := out_text (map s_text out) in
           (match w with Some w => if String.eqb w got then [] else [(n, Diff got)] | None => [] end ++ test2 m (n + 1) l r)%list
         | Err _ => (n, NoPlan "err") :: test2 m (n+1) l r | Panic => (n, NoPlan "panic") :: test2 m (n+1) l r | Fatal => (n, NoPlan "fatal") :: test2 m (n+1) l r end
     | _ => (n, NoParse) :: test2 m (n+1) s r end
  end.
