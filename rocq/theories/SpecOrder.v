(** Specification of what a plan does to the order of the columns of a MySQL table.  Only the
    syntax trees of [Ast] and the effects of [Generator] are used. *)
From Coq Require Import String Ascii List ZArith Bool.
From Verif Require Import GoStr Ast Generator SpecPlan.
Import ListNotations.
Local Open Scope string_scope.
Local Open Scope list_scope.

(** MySQL's position clauses: no clause appends, FIRST prepends, AFTER needs its column. *)
Fixpoint put_after (p x : string) (l : list string) : option (list string) :=
  match l with
  | [] => None
  | y :: l' =>
      if String.eqb y p then Some (y :: x :: l')
      else match put_after p x l' with Some r => Some (y :: r) | None => None end
  end.
Definition put (x : string) (p : col_pos) (l : list string) : option (list string) :=
  match p with
  | PosNone => Some (l ++ [x])
  | PosFirst => Some (x :: l)
  | PosAfter y => put_after y x l
  end.
Definition take_out (x : string) (l : list string) : list string :=
  filter (fun y => negb (String.eqb y x)) l.

(** The column names of table [n] after a statement; [None] when MySQL would reject it for a
    missing or duplicate column.  CHANGE COLUMN without a position leaves the column in place. *)
Definition reorder (n : string) (e : effect) (l : list string) : option (list string) :=
  match e with
  | EffAddColumn t c p =>
      if String.eqb t n then if mem (c_name c) l then None else put (c_name c) p l else Some l
  | EffDropColumn t c =>
      if String.eqb t n then if mem c l then Some (take_out c l) else None else Some l
  | EffChangeColumn t old c p =>
      if String.eqb t n then
        if negb (mem old l) || (negb (String.eqb old (c_name c)) && mem (c_name c) l) then None
        else match p with
             | PosNone => Some (map (fun y => if String.eqb y old then c_name c else y) l)
             | _ => put (c_name c) p (take_out old l)
             end
      else Some l
  | _ => Some l
  end.

(** The column names after a whole plan. *)
Fixpoint order_after (n : string) (out : list stmt) (l : list string) : option (list string) :=
  match out with
  | [] => Some l
  | s :: out' => match reorder n (s_eff s) l with
                 | Some l' => order_after n out' l'
                 | None => None
                 end
  end.

Definition names (t : table) : list string := map c_name (t_columns t).

(** Columns carry their position in the CREATE TABLE. *)
Definition numbered (t : table) : Prop :=
  forall i c, nth_error (t_columns t) i = Some c -> c_position c = Z.of_nat i.

(** The columns both tables have stand in the same relative order. *)
Definition same_relative_order (a b : list string) : Prop :=
  filter (fun x => mem x b) a = filter (fun x => mem x a) b.
