(** Proofs about the export texts. *)
From Coq Require Import String Ascii List ZArith Bool Lia.
From Verif Require Import GoStr GoStrFacts SchemaText SpecText ProofText SqlAst SchemaParse Catalog AdapterPostgres AdapterMssql AdapterSqlite SpecExport.
Import ListNotations.
Local Open Scope string_scope.

(** ** Statements separated by semicolons and line breaks *)

Definition lists (t : string) (l : list string) : Prop :=
  forall b g e, gap b g e -> schema_text b (g ++ t) l.

Lemma lists_one s : plain_statement s -> lists s [s].
Proof.
  intros H b g e G. replace (g ++ s) with (g ++ s ++ "") by now rewrite sapp_nil_r.
  apply (st_last b g e s "" false G H). constructor.
Qed.

Lemma lists_nil_end : lists "" [].
Proof. intros b g e G. rewrite sapp_nil_r. exact (st_end b g e G). Qed.

Lemma lists_cons s w e' t l : plain_statement s -> gap false w e' -> lists t l -> lists (s ++ ";" ++ w ++ t) (s :: l).
Proof.
  intros H W T b g e G. replace (g ++ s ++ ";" ++ w ++ t) with (g ++ s ++ "" ++ ";" ++ (w ++ t)) by reflexivity.
  apply (st_cons b g e s "" false (w ++ t) l G H); [constructor|]. exact (T false w e' W).
Qed.

Lemma gap1 : gap false nl true.
Proof. apply gap_newline, gap_nil. Qed.

Lemma lists_join sep g e l : Forall plain_statement l -> sep = ";" ++ g -> gap false g e -> l <> [] -> lists (join sep l) l.
Proof.
  intros F -> G. induction F as [|s l Hs F IH]; [congruence|]. intros _. destruct l as [|s2 l].
  - now apply lists_one.
  - rewrite join_cons, sapp_assoc. apply (lists_cons s g e); auto. apply IH. discriminate.
Qed.

Lemma lists_app sep g e l t l' : Forall plain_statement l -> sep = ";" ++ g -> gap false g e -> l <> [] ->
  forall w e', gap false w e' -> lists t l' -> lists (join sep l ++ ";" ++ w ++ t) (l ++ l')%list.
Proof.
  intros F -> G N w e' W T. induction F as [|s l Hs F IH]; [congruence|]. destruct l as [|s2 l].
  - exact (lists_cons s w e' t l' Hs W T).
  - rewrite join_cons, !sapp_assoc. exact (lists_cons s g e _ ((s2 :: l) ++ l') Hs G (IH ltac:(discriminate))).
Qed.

Lemma lists_groups (groups : list (list string)) :
  Forall (fun l => l <> [] /\ Forall plain_statement l) groups ->
  lists (join (";" ++ nl ++ nl) (map (join (";" ++ nl)) groups)) (concat groups).
Proof.
  induction 1 as [|l groups [N F] _ IH]; [exact lists_nil_end|]. cbn [map concat]. rewrite join_cons.
  destruct groups as [|l2 groups].
  - cbn [map concat]. rewrite sapp_nil_r, app_nil_r. exact (lists_join _ nl true l F eq_refl gap1 N).
  - cbn [map] in *. rewrite sapp_assoc. exact (lists_app _ nl true l _ _ F eq_refl gap1 N (nl ++ nl) true gap2 IH).
Qed.

Lemma lists_split t l : lists t l -> split_statements t = l.
Proof. intros H. apply schema_text_split. exact (H true "" true (gap_nil true)). Qed.

(** ** PostgreSQL: the text of one table *)

Lemma trim_suffix_app s p : p <> "" -> trim_suffix (s ++ p) p = s.
Proof.
  intros N. induction s as [|a s IH].
  - cbn [append]. destruct p; [easy|]. cbn [trim_suffix]. now rewrite String.eqb_refl.
  - cbn [append trim_suffix]. destruct (String.eqb (String a (s ++ p)) p) eqn:E.
    + apply String.eqb_eq in E. apply (f_equal String.length) in E. cbn in E. rewrite sapp_length in E. lia.
    + now rewrite IH.
Qed.

Lemma ended_join s l : s ++ ";" ++ nl ++ ended l = join (";" ++ nl) (s :: l) ++ ";" ++ nl.
Proof.
  revert s. induction l as [|v l IH]; intros s.
  - cbn [ended fold_right join]. now rewrite sapp_nil_r.
  - cbn [ended fold_right]. rewrite join_cons, !sapp_assoc. f_equal. f_equal. f_equal.
    specialize (IH v). cbn [ended] in IH. exact IH.
Qed.

Lemma ended_app a b : ended (a ++ b)%list = ended a ++ ended b.
Proof.
  induction a as [|x a IH]; [reflexivity|].
  change (ended ((x :: a) ++ b)%list) with (x ++ ";" ++ nl ++ ended (a ++ b)%list).
  change (ended (x :: a)) with (x ++ ";" ++ nl ++ ended a). rewrite IH, !sapp_assoc. reflexivity.
Qed.

Lemma build_dump_join table cols pkey a b c :
  build_dump table cols pkey a b c = join (";" ++ nl) (create_text table cols pkey :: a ++ b ++ c).
Proof.
  unfold build_dump. rewrite <- !ended_app, ended_join. apply trim_suffix_app. discriminate.
Qed.

(** The CREATE TABLE statement is one statement if its parts are. *)
Lemma peel a b : has_char newline a = false ->
  contains (a ++ b) (String newline "--") = contains b (String newline "--").
Proof.
  induction a as [|c a IH]; [reflexivity|]. cbn [has_char append]. intros H. apply orb_false_iff in H. destruct H as [C A].
  cbn [contains has_prefix]. rewrite Ascii.eqb_sym in C. now rewrite C, (IH A).
Qed.
Lemma peel_newline a b : has_prefix (a ++ b) "--" = false ->
  contains (String newline (a ++ b)) (String newline "--") = contains (a ++ b) (String newline "--").
Proof.
  intros H. cbn [contains]. destruct (has_prefix (String newline (a ++ b)) (String newline "--")) eqn:E; [|reflexivity].
  exfalso. change (has_prefix (String newline (a ++ b)) (String newline "--")) with (has_prefix (a ++ b) "--") in E. congruence.
Qed.

Lemma last_char_app s r : r <> "" -> last_char (s ++ r) = last_char r.
Proof.
  intros N. induction s as [|a s IH]; [reflexivity|]. cbn [append last_char]. rewrite <- IH.
  destruct (s ++ r) eqn:E; [|reflexivity]. exfalso. destruct s; [cbn in E; congruence|discriminate].
Qed.

(** Lines that start with the indentation. *)
Definition indented (x : string) : string := nl ++ indent ++ x.

Lemma indented_app x r : has_char newline x = false ->
  contains (indented x ++ r) (String newline "--") = contains r (String newline "--").
Proof.
  intros H. unfold indented. rewrite !sapp_assoc. change (nl ++ indent ++ x ++ r) with (String newline (indent ++ (x ++ r))).
  rewrite peel_newline by reflexivity. rewrite peel by reflexivity. now apply peel.
Qed.

Lemma indented_lines l r : Forall (fun x => has_char newline x = false) l ->
  contains (join "," (map indented l) ++ r) (String newline "--") = contains r (String newline "--").
Proof.
  induction 1 as [|x l Hx _ IH]; [reflexivity|]. cbn [map]. rewrite join_cons, sapp_assoc, indented_app by exact Hx.
  destruct l as [|y l]; [reflexivity|]. cbn [map] in *. rewrite sapp_assoc, peel by reflexivity. exact IH.
Qed.

Lemma indented_semicolon l : Forall (fun x => has_char semicolon x = false) l -> has_char semicolon (join "," (map indented l)) = false.
Proof.
  induction 1 as [|x l Hx _ IH]; [reflexivity|]. cbn [map]. rewrite join_cons, has_char_app.
  unfold indented at 1. rewrite !has_char_app, Hx. destruct l as [|y l]; [reflexivity|].
  cbn [map] in *. rewrite has_char_app. cbn [has_char orb]. exact IH.
Qed.

Lemma plain_framed name l tail : one_line name -> Forall one_line l ->
  has_char semicolon tail = false -> (forall r, contains (tail ++ r) (String newline "--") = contains r (String newline "--")) ->
  plain_statement ("CREATE TABLE " ++ name ++ " (" ++ join "," (map indented l) ++ tail ++ nl ++ ")").
Proof.
  intros [N1 N2] F T1 T2.
  assert (F1 : Forall (fun x => has_char semicolon x = false) l) by (eapply Forall_impl; [|exact F]; now intros ? []).
  assert (F2 : Forall (fun x => has_char newline x = false) l) by (eapply Forall_impl; [|exact F]; now intros ? []).
  constructor.
  - eexists; split; reflexivity.
  - exists ")"%char. split; [|reflexivity]. rewrite <- !sapp_assoc. now rewrite last_char_app.
  - rewrite !has_char_app, N1, (indented_semicolon l F1), T1. reflexivity.
  - reflexivity.
  - rewrite peel by reflexivity. rewrite peel by exact N2. rewrite peel by reflexivity.
    rewrite indented_lines by exact F2. rewrite T2. reflexivity.
Qed.

Lemma one_line_app a b : one_line (a ++ b) <-> one_line a /\ one_line b.
Proof. unfold one_line. rewrite !has_char_app, !orb_false_iff. tauto. Qed.

Lemma one_line_join sep l : one_line sep -> Forall one_line l -> one_line (join sep l).
Proof.
  intros S. induction 1 as [|x l Hx _ IH]; [now split|]. rewrite join_cons. apply one_line_app. split; [exact Hx|].
  destruct l; [now split|]. now apply one_line_app.
Qed.

Lemma one_line_show z : one_line (show_Z z).
Proof.
  assert (U : forall d, one_line (DecimalString.NilEmpty.string_of_uint d)).
  { induction d; cbn; try (now split); destruct IHd as [A B]; split; cbn; assumption. }
  assert (V : forall d, one_line (DecimalString.NilZero.string_of_uint d)).
  { intros d. unfold DecimalString.NilZero.string_of_uint. destruct d; try apply U. now split. }
  unfold show_Z, DecimalString.NilZero.string_of_int. destruct (Z.to_int z) as [d|d]; [apply V|].
  change (String "-" ?x) with ("-" ++ x). apply one_line_app. split; [now split|apply V].
Qed.

Lemma one_line_data_type c : one_line (dc_type c) -> one_line (get_data_type c).
Proof.
  intros H. unfold get_data_type. repeat match goal with |- one_line (if ?b then _ else _) => destruct b end;
    first [exact H | now split].
Qed.

Ltac ol := repeat first
  [ assumption | apply one_line_show | apply one_line_data_type; assumption
  | match goal with |- one_line (if ?b then _ else _) => destruct b end
  | split; reflexivity | apply one_line_app; split ].

Lemma one_line_column c : clean_row c -> one_line (column_text c).
Proof.
  intros []. unfold column_text. ol.
Qed.

Lemma create_text_plain table cols pkey : one_line table -> Forall clean_row cols -> Forall one_line pkey ->
  plain_statement (create_text table cols pkey).
Proof.
  intros T C P. unfold create_text.
  replace (map (fun c => nl ++ indent ++ column_text c) cols) with (map indented (map column_text cols)) by (now rewrite map_map).
  apply (plain_framed table (map column_text cols)).
  - exact T.
  - apply Forall_map. eapply Forall_impl; [|exact C]. exact one_line_column.
  - destruct pkey as [|k pkey]; [reflexivity|].
    assert (J : one_line (join (dq ++ ", " ++ dq) (k :: pkey))) by (apply one_line_join; [now split|exact P]).
    rewrite !has_char_app. rewrite (proj1 J). reflexivity.
  - intros r. destruct pkey as [|k pkey]; [reflexivity|].
    assert (J : one_line (join (dq ++ ", " ++ dq) (k :: pkey))) by (apply one_line_join; [now split|exact P]).
    set (j := join _ _) in *. rewrite !sapp_assoc. rewrite peel by reflexivity.
    change (nl ++ indent ++ ?x) with (String newline (indent ++ x)). rewrite peel_newline by reflexivity.
    rewrite peel by reflexivity. rewrite peel by reflexivity. rewrite peel by reflexivity. rewrite peel by exact (proj2 J).
    now rewrite peel, peel by reflexivity.
Qed.

Lemma pg_dump_splits db table :
  one_line table -> Forall clean_row (get_columns db table) -> Forall one_line (get_primary_key_columns db table) ->
  Forall plain_statement (get_index_defs db table ++ get_foreign_defs db table ++ get_policy_defs db table) ->
  split_statements (dump_table_ddl db table) =
    create_text table (get_columns db table) (get_primary_key_columns db table) ::
    get_index_defs db table ++ get_foreign_defs db table ++ get_policy_defs db table.
Proof.
  intros T C P F. unfold dump_table_ddl. rewrite build_dump_join. apply lists_split.
  eapply lists_join; [|reflexivity|exact gap1|discriminate]. constructor; [now apply create_text_plain|exact F].
Qed.

(** The statements of the whole database. *)
Definition table_statements (db : pg_database) (table : string) : list string :=
  create_text table (get_columns db table) (get_primary_key_columns db table) ::
  get_index_defs db table ++ get_foreign_defs db table ++ get_policy_defs db table.

Lemma pg_export_splits db :
  (forall table, In table (table_names db) ->
     one_line table /\ Forall clean_row (get_columns db table) /\ Forall one_line (get_primary_key_columns db table) /\
     Forall plain_statement (get_index_defs db table ++ get_foreign_defs db table ++ get_policy_defs db table)) ->
  Forall plain_statement (views db) ->
  split_statements (join (";" ++ nl ++ nl) (map (dump_table_ddl db) (table_names db) ++ views db)) =
    (flat_map (table_statements db) (table_names db) ++ views db)%list.
Proof.
  intros T V.
  replace (map (dump_table_ddl db) (table_names db) ++ views db)%list
    with (map (join (";" ++ nl)) (map (table_statements db) (table_names db) ++ map (fun v => [v]) (views db))).
  2:{ rewrite map_app, !map_map. f_equal.
      - apply map_ext. intros t. unfold dump_table_ddl. now rewrite build_dump_join.
      - rewrite <- (map_id (views db)) at 2. apply map_ext. reflexivity. }
  rewrite flat_map_concat_map. replace (views db) with (concat (map (fun v => [v]) (views db))) at 2.
  2:{ generalize (views db). induction l as [|v l IH]; cbn; [reflexivity|]. now rewrite IH. }
  rewrite <- concat_app. apply lists_split, lists_groups. apply Forall_app. split.
  - apply Forall_map, Forall_forall. intros t I. destruct (T t I) as (A & B & C & D). split; [discriminate|].
    constructor; [now apply create_text_plain|exact D].
  - apply Forall_map. eapply Forall_impl; [|exact V]. intros v H. split; [discriminate|]. now constructor.
Qed.
