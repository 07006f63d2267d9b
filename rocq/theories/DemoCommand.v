(** Concrete machines and command lines for the examples beside the theorems on commands. *)
From Coq Require Import String Ascii List ZArith Bool.
From Verif Require Import GoStr Ast Generator SchemaText Runner SpecRunner DemoRunner GoStrFacts AdapterPostgres
  CommandLine SpecUrl SpecCommand.
Import ListNotations.
Local Open Scope string_scope.

(** [strconv.Unquote] on texts without a backslash. *)
Definition plain_unquote (s : string) : option string :=
  match s with
  | String _ r =>
      match cut (ascii_of_nat 34) r with
      | (x, Some "") => if has_char "\" x then None else Some x
      | _ => None
      end
  | "" => None
  end.

(** A machine with the password of MySQL in the environment, a file schema.sql and a directory
    called localhost. *)
Definition laptop (input : stdin) : machine :=
  mkMachine (fun v => if String.eqb v "MYSQL_PWD" then Some "from env" else None)
    (fun f => String.eqb f "localhost") (fun f => if String.eqb f "schema.sql" then Some "b;c" else None)
    input plain_unquote.

(** Every address is answered by the database with the tables a and b. *)
Definition anywhere (_ : address) : option world := Some (demo_world true (fun _ => true) true "").

Definition line : list item :=
  [Give "user" "me" (ShortJoined "u"); Give "password" "secret" LongEqual; Name "shop"; Give "host" "localhost" (ShortApart "h");
   Turn "dry-run"; Give "port" "13306" (ShortEqual "P"); Give "port" "3307" LongApart; Give "file" "schema.sql" LongEqual].

Definition prompted : list item :=
  [Give "user" "sa2" (ShortApart "U"); Turn "password-prompt"; Name "shop"; Turn "skip-drop"; Give "file" "schema.sql" LongEqual].

Definition prompted_stdin : list item := [Turn "password-prompt"; Name "shop"].
Definition to_localhost : list item := [Name "shop"; Give "host" "localhost" LongEqual; Give "port" "6000" (ShortJoined "p")].
Definition wide_port : list item := [Name "shop"; Give "port" "18446744073709551615" LongEqual].
Definition lite : list item := [Give "file" "schema.sql" (ShortJoined "f"); Name "shop.db"; Turn "skip-drop"].

Lemma not_dash w c r : w = String c r -> c <> "-"%char -> ~ option_like w.
Proof. intros -> N (d & x & _ & [E|E]); injection E as E _; contradiction. Qed.

Ltac proper_item :=
  match goal with
  | |- proper _ _ (Give _ _ _) =>
      split; [cbn [proper_style]; repeat match goal with
                     | |- _ /\ _ => split
                     | |- ~ option_like _ => eapply not_dash; [reflexivity|discriminate]
                     | |- ~ exists _, _ => intros [? ?]; discriminate
                     | _ => cbn; first [tauto | discriminate]
                     end
             |eexists; split; [right; split; [intros [? ?]; discriminate|reflexivity]
                              |first [discriminate | intros _; split; [discriminate|split; reflexivity]]]]
  | |- proper _ _ (Turn _) => cbn; tauto
  | |- proper _ _ (Name _) => eapply not_dash; [reflexivity|discriminate]
  end.
Ltac proper_items := repeat first [apply Forall_nil | apply Forall_cons; [proper_item|]].

Lemma line_proper : Forall (proper plain_unquote Mysql) line. Proof. unfold line. proper_items. Qed.
Lemma prompted_proper : Forall (proper plain_unquote Mssql) prompted. Proof. unfold prompted. proper_items. Qed.
Lemma prompted_stdin_proper : Forall (proper plain_unquote Postgres) prompted_stdin. Proof. unfold prompted_stdin. proper_items. Qed.
Lemma to_localhost_proper : Forall (proper plain_unquote Postgres) to_localhost. Proof. unfold to_localhost. proper_items. Qed.
Lemma wide_port_proper : Forall (proper plain_unquote Mssql) wide_port. Proof. unfold wide_port. proper_items. Qed.
Lemma lite_proper : Forall (proper plain_unquote SQLite3) lite. Proof. unfold lite. proper_items. Qed.
