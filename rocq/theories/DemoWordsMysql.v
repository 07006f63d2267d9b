(** Tables used by the examples and refutations beside the theorems on MySQL's words. *)
From Coq Require Import String Ascii List ZArith Bool.
From Verif Require Import GoStr GoStrFacts Ast Generator SchemaParse Parser SpecPlan SpecMysql SpecLayout SpecShown SpecShownMysql SpecWordsMysql DemoPlan DemoReadMysql.
Import ListNotations.
Local Open Scope string_scope.
Local Open Scope list_scope.

Definition first_column : my_column := mkMyColumn "id" (MyInteger "bigint" (Some 20%Z) true) (Some true) None None true None.
Definition other_columns : list my_column :=
  [ mkMyColumn "name" (MyChars "varchar" 40 (Some "utf8mb4") (Some "utf8mb4_bin")) (Some true) (Some (MyText "no name")) None false None;
    mkMyColumn "mood" (MyEnum "enum" "happy" ["sad"] None None) None (Some MyNull) None false None;
    mkMyColumn "since" (MyTime "timestamp" (Some 6%Z)) (Some true) (Some (MyNow (Some 6%Z))) (Some (Some 6%Z)) false None;
    mkMyColumn "visits" (MyInteger "int" None false) (Some true) (Some (MyNumber 17)) None false None;
    mkMyColumn "spent" (MyDecimal 10 2 true) None (Some (MyText "0.00")) None false None;
    mkMyColumn "active" (MyInteger "bit" (Some 1%Z) false) (Some true) (Some (MyBits "1")) None false None ].
Definition some_keys : list my_key :=
  [ key_on KPrimary "PRIMARY" "id"; mkMyKey KUnique "by_name" (mkMyKeyColumn "name" (Some 10%Z) false) [mkMyKeyColumn "since" None true] [];
    key_on KFulltext "words" "name" ].
Definition some_fks : list my_fk := [mkMyFk "friend_of" "id" ["mood"] "users" "id" ["mood"] (Some ASetNull) (Some ANoAction)].
Definition club : my_table := mkMyTable "club" first_column other_columns some_keys some_fks [].
(** The table without its keys, and with one column more. *)
Definition club_before : my_table := mkMyTable "club" (nullable "old" (MyInteger "int" None false)) [] [key_on KPlain "stale" "old"] [] [].

Definition declared (t : my_table) : ddl := CreateTable "" (with_columns (SpecMysql.number 0 (t_columns (my_ideal_table t))) (my_ideal_table t)).
Definition club_plan : res (list stmt) := plan Mysql [declared club] [declared club_before].
Definition club_out : list stmt := match club_plan with Ok l => l | _ => [] end.
Definition club_definitions : list string :=
  [ "`id` bigint(20) UNSIGNED NOT NULL AUTO_INCREMENT";
    "`name` varchar(40) CHARACTER SET utf8mb4 COLLATE utf8mb4_bin NOT NULL DEFAULT 'no name'";
    "`mood` enum('happy', 'sad') DEFAULT null";
    "`since` timestamp(6) NOT NULL DEFAULT current_timestamp(6) ON UPDATE current_timestamp(6)";
    "`visits` int NOT NULL DEFAULT 17";
    "`spent` decimal(10, 2) UNSIGNED DEFAULT '0.00'";
    "`active` bit(1) NOT NULL DEFAULT b'1'";
    "primary key (`id`)"; "unique key `by_name` (`name`(10), `since` desc)"; "fulltext key `words` (`name`)";
    "CONSTRAINT `friend_of` FOREIGN KEY (`id`,`mood`) REFERENCES `users` (`id`,`mood`) ON DELETE SET NULL ON UPDATE NO ACTION" ].

(** One column or key is added to a table. *)
Definition small (more : list my_column) (keys : list my_key) : my_table := mkMyTable "t" (nullable "a" (MyInteger "int" None false)) more keys [] [].
Definition add_plan (t : my_table) : res (list stmt) := plan Mysql [declared t] [declared (small [] [])].
Definition prefix_of (t : my_table) : string := match my_columns t with [] => "ALTER TABLE `t` ADD " | _ => "ALTER TABLE `t` ADD COLUMN " end.
Definition sent_definition (t : my_table) : option string :=
  match add_plan t with
  | Ok [st] => if String.prefix (prefix_of t) (s_text st) then Some (substring (String.length (prefix_of t)) (String.length (s_text st)) (s_text st)) else None
  | _ => None
  end.
(** What the definition is read as, without " AFTER `a`" *)
Definition read_column (t : my_table) : option (list column) :=
  match sent_definition t with
  | Some d =>
      match parse_ddl parse_strict_ddl Mysql ("CREATE TABLE `t` (" ++ substring 0 (String.length d - 10) d ++ ")") with
      | Ok (CreateTable _ x) => Some (t_columns x)
      | _ => None
      end
  | None => None
  end.
Definition read_key (t : my_table) : option (list index) :=
  match sent_definition t with
  | Some d =>
      match parse_ddl parse_strict_ddl Mysql ("CREATE TABLE `t` (`a` int, " ++ d ++ ")") with
      | Ok (CreateTable _ x) => Some (t_indexes x)
      | _ => None
      end
  | None => None
  end.

(** The plan for the club in MySQL's words. *)
Definition unnumbered (c : my_column) : my_column :=
  mkMyColumn (mc_name c) (mc_type c) (mc_null c) (mc_default c) (mc_on_update c) false (mc_comment c).
Definition named_column (n : nat) : my_column := nth n other_columns first_column.
Definition adding (c : my_column) (p : col_pos) : list my_piece := altering "club" ["ADD"; "COLUMN"] ++ shown_column c ++ at_position p.
Definition club_said : list (list my_piece) :=
  [ adding (unnumbered first_column) PosFirst; adding (named_column 0) (PosAfter "id"); adding (named_column 1) (PosAfter "name"); adding (named_column 2) (PosAfter "mood");
    adding (named_column 3) (PosAfter "since"); adding (named_column 4) (PosAfter "visits"); adding (named_column 5) (PosAfter "spent") ] ++
  map (fun k => altering "club" ["ADD"] ++ shown_key k) some_keys ++
  [ altering "club" ["CHANGE"; "COLUMN"] ++ [MName "id"; blank1] ++ shown_column first_column ++ at_position PosNone ] ++
  map (fun f => altering "club" ["ADD"] ++ shown_fk f) some_fks ++
  [ altering "club" ["DROP"; "INDEX"] ++ [MName "stale"]; altering "club" ["DROP"; "COLUMN"] ++ [MName "old"] ].
Definition club_said_plan : Forall2 (fun st l => my_words (s_eff st) l) club_out club_said.
Proof.
  vm_compute club_out. unfold club_said, some_keys, some_fks. cbn [map app].
  constructor; [exact (say_add_column "club" (unnumbered first_column) 0 PosFirst eq_refl eq_refl eq_refl)|].
  constructor; [exact (say_add_column "club" (named_column 0) 1 (PosAfter "id") eq_refl eq_refl eq_refl)|].
  constructor; [exact (say_add_column "club" (named_column 1) 2 (PosAfter "name") eq_refl eq_refl eq_refl)|].
  constructor; [exact (say_add_column "club" (named_column 2) 3 (PosAfter "mood") eq_refl eq_refl eq_refl)|].
  constructor; [exact (say_add_column "club" (named_column 3) 4 (PosAfter "since") eq_refl eq_refl eq_refl)|].
  constructor; [exact (say_add_column "club" (named_column 4) 5 (PosAfter "visits") eq_refl eq_refl eq_refl)|].
  constructor; [exact (say_add_column "club" (named_column 5) 6 (PosAfter "spent") eq_refl eq_refl eq_refl)|].
  constructor; [exact (say_add_primary_key "club" (nth 0 some_keys (key_on KPlain "" "")) eq_refl eq_refl eq_refl)|].
  constructor; [refine (say_add_key "club" (nth 1 some_keys (key_on KPlain "" "")) eq_refl eq_refl _); discriminate|].
  constructor; [refine (say_add_key "club" (nth 2 some_keys (key_on KPlain "" "")) eq_refl eq_refl _); discriminate|].
  constructor; [exact (say_change_column "club" "id" first_column 0 PosNone eq_refl eq_refl eq_refl eq_refl)|].
  constructor; [exact (say_add_fk "club" (nth 0 some_fks (mkMyFk "" "" [] "" "" [] None None)) eq_refl eq_refl)|].
  constructor; [exact (say_drop_key "club" "stale" eq_refl eq_refl)|].
  constructor; [exact (say_drop_column "club" "old" eq_refl eq_refl)|]. constructor.
Qed.
Definition club_sent : Forall2 (sent club_out "club") (my_items club) club_definitions.
Proof.
  assert (H : exists out, club_out = out) by now eexists. destruct H as [out H]. rewrite H. vm_compute in H. unfold my_items, club, club_definitions, some_keys, some_fks, other_columns.
  cbn [my_first my_columns my_keys my_fks map app].
  constructor; [apply (sent_change out "club" first_column 0 "id" PosNone); subst out; cbn; tauto|].
  constructor; [apply (sent_column out "club" (named_column 0) 1 (PosAfter "id")); subst out; cbn; tauto|].
  constructor; [apply (sent_column out "club" (named_column 1) 2 (PosAfter "name")); subst out; cbn; tauto|].
  constructor; [apply (sent_column out "club" (named_column 2) 3 (PosAfter "mood")); subst out; cbn; tauto|].
  constructor; [apply (sent_column out "club" (named_column 3) 4 (PosAfter "since")); subst out; cbn; tauto|].
  constructor; [apply (sent_column out "club" (named_column 4) 5 (PosAfter "visits")); subst out; cbn; tauto|].
  constructor; [apply (sent_column out "club" (named_column 5) 6 (PosAfter "spent")); subst out; cbn; tauto|].
  constructor; [apply (sent_key out "club" _ _ _ (or_introl eq_refl)); subst out; cbn; tauto|].
  constructor; [apply (sent_key out "club" _ _ _ (or_intror eq_refl)); subst out; cbn; tauto|].
  constructor; [apply (sent_key out "club" _ _ _ (or_intror eq_refl)); subst out; cbn; tauto|].
  constructor; [apply (sent_fk out "club"); subst out; cbn; tauto|]. constructor.
Qed.
