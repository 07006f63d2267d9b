(** Every planned statement is the SQL text of its operation. *)
From Coq Require Import String Ascii List ZArith Bool Lia.
From Verif Require Import GoStr GoStrFacts GoNum Ast Generator SpecPlan SpecSql ProofPlan ProofSteps ProofTables.
Import ListNotations.
Local Open Scope string_scope.
Local Open Scope list_scope.

(** ** Words *)
Fixpoint cat (l : list string) : string :=
  match l with [] => "" | w :: l' => (w ++ " " ++ cat l')%string end.

Lemma cat_app a b : cat (a ++ b) = (cat a ++ cat b)%string.
Proof. induction a as [|w a IH]; simpl; [reflexivity|]. now rewrite IH, sapp_assoc. Qed.

Lemma cat_join l : l <> [] -> cat l = (join " " l ++ " ")%string.
Proof.
  induction l as [|w l IH]; [contradiction|]. intros _. destruct l as [|v l].
  - simpl. reflexivity.
  - cbn [cat]. cbn [cat] in IH. rewrite IH by discriminate. cbn [join]. now rewrite !sapp_assoc.
Qed.

Lemma trim_cat l : l <> [] -> trim_suffix_space (cat l) = sentence l.
Proof. intros H. rewrite (cat_join l H). apply trim_suffix_space_snoc. Qed.

Lemma sentence_app a b : a <> [] -> b <> [] -> sentence (a ++ b) = (sentence a ++ " " ++ sentence b)%string.
Proof.
  unfold sentence. intros Ha Hb. induction a as [|w a IH]; [contradiction|]. destruct a as [|v a].
  - simpl. destruct b; [contradiction|]. reflexivity.
  - change (join " " ((w :: v :: a) ++ b)) with (w ++ " " ++ join " " ((v :: a) ++ b))%string.
    rewrite IH by discriminate. cbn [join]. now rewrite !sapp_assoc.
Qed.

(** ** Names *)
Lemma quoted_spec m n : escape_sql_name m n = quoted m n.
Proof. destruct m; reflexivity. Qed.

Lemma split_first_split_char c n :
  match split_first c n with
  | None => split_char c n = [n]
  | Some (a, b) => split_char c n = a :: split_char c b
  end.
Proof.
  induction n as [|x n IH]; simpl; [reflexivity|]. destruct (Ascii.eqb x c); [reflexivity|].
  destruct (split_first c n) as [[a b]|]; now rewrite IH.
Qed.

Lemma join_split c n : join (String c "") (split_char c n) = n.
Proof.
  induction n as [|x n IH]; simpl; [reflexivity|]. destruct (Ascii.eqb_spec x c) as [->|Hc].
  - pose proof (split_char_nonempty c n). destruct (split_char c n) as [|y l] eqn:E; [contradiction|].
    change (String c (join (String c "") (y :: l)) = String c n). now rewrite IH.
  - destruct (split_char c n) as [|y l] eqn:E; [now destruct (split_char_nonempty c n)|].
    destruct l as [|z l]; simpl in *; now rewrite IH.
Qed.

Lemma table_ref_spec m n : escape_table_name m n = table_ref m n.
Proof.
  destruct m; try reflexivity; unfold escape_table_name, table_ref;
    pose proof (split_first_split_char "." n) as H; destruct (split_first "." n) as [[a b]|]; rewrite H, ?quoted_spec; try reflexivity.
  all: pose proof (split_char_nonempty "." b); pose proof (join_split "." b) as J; destruct (split_char "." b) as [|y l] eqn:E; [contradiction|].
  all: rewrite J, ?quoted_spec; reflexivity.
Qed.

Lemma bare_name_spec n a b : split_first "." n = Some (a, b) -> bare_name n = b.
Proof.
  intros H. unfold bare_name. pose proof (split_first_split_char "." n) as E. rewrite H in E. rewrite E. simpl. apply join_split.
Qed.

Local Opaque quoted escape_sql_name table_ref escape_table_name.
Ltac names := repeat match goal with
  | |- context [escape_sql_name ?m ?n] => replace (escape_sql_name m n) with (quoted m n) by apply eq_sym, quoted_spec
  | |- context [escape_table_name ?m ?n] => replace (escape_table_name m n) with (table_ref m n) by apply eq_sym, table_ref_spec
  end.
Ltac names_in H := repeat match type of H with
  | context [escape_sql_name ?m ?n] => replace (escape_sql_name m n) with (quoted m n) in H by apply eq_sym, quoted_spec
  | context [escape_table_name ?m ?n] => replace (escape_table_name m n) with (table_ref m n) in H by apply eq_sym, table_ref_spec
  end.

(** ** Values and columns *)
Lemma default_text_spec v s : generate_default_definition v = Ok s -> default_text v = Some s.
Proof.
  unfold generate_default_definition, default_text. destruct (v_type v); try discriminate; intros H; injection H as <-; try reflexivity.
  now destruct (v_bit v).
Qed.

Lemma type_text_spec c : generate_data_type c = type_text c.
Proof.
  unfold generate_data_type, type_text. destruct (c_length c) as [l|].
  - destruct (c_scale c) as [s|]; unfold parens; cbn [join]; now rewrite !sapp_assoc.
  - destruct (String.eqb (c_type c) "enum"); [unfold parens; now rewrite !sapp_assoc|]. destruct (c_array c); reflexivity.
Qed.

Lemma trim_right_snoc s : trim_right (s ++ " ") = trim_right s.
Proof. induction s as [|a s IH]; simpl; [reflexivity|]. now rewrite IH. Qed.

Lemma trim_cat_space l : trim_space (cat l) = trim_space (sentence l).
Proof.
  destruct l as [|w l]; [reflexivity|]. rewrite cat_join by discriminate. unfold trim_space, sentence. now rewrite trim_right_snoc.
Qed.

Lemma cat_when (b : bool) w : (if b then (w ++ " ")%string else "") = cat (when b [w]).
Proof. destruct b; reflexivity. Qed.
Lemma cat_number w z : opt_clause w z = cat (number_words w z).
Proof. destruct z; reflexivity. Qed.
Lemma cat_given s w : (if String.eqb s "" then "" else (w ++ s ++ " ")%string) = (if String.eqb s "" then "" else (w ++ s ++ " ")%string).
Proof. reflexivity. Qed.

Lemma sequence_text_spec s : generate_sequence_clause s = sequence_text s.
Proof.
  unfold generate_sequence_clause, sequence_text. rewrite <- trim_cat_space. f_equal. rewrite !cat_app, !cat_number.
  unfold given. destruct (String.eqb (sq_name s) ""), (sq_no_min_value s), (sq_no_max_value s), (sq_cycle s), (sq_no_cycle s);
    cbn [negb when cat]; rewrite ?sapp_assoc; reflexivity.
Qed.

Ltac bind_step H :=
  match type of H with
  | bind ?x _ = Ok _ => let a := fresh "x" in let E := fresh "E" in
      destruct x as [a| | |] eqn:E; [|discriminate|discriminate|discriminate]; cbn [bind] in H
  end.

Lemma ok_inj {A} (a b : A) : Ok a = Ok b -> a = b.
Proof. now intros [= ->]. Qed.

Ltac sapp := unfold alter_column, alter; names; repeat progress (rewrite ?sapp_assoc, ?sapp_nil_r; cbn [append]).

(** The words of a definition without the identity clause. *)
Definition plain_words m c default uniq :=
  [quoted m (c_name c); type_text c] ++
  when (c_unsigned c) ["UNSIGNED"] ++ when (c_timezone c) ["WITH TIME ZONE"] ++
  given (c_charset c) ["CHARACTER SET"; c_charset c] ++ given (c_collate c) ["COLLATE"; c_collate c] ++
  null_words c ++ default ++ when (c_autoinc c) ["AUTO_INCREMENT"] ++
  match c_onupdate c with Some v => ["ON UPDATE"; v_raw v] | None => [] end ++
  check_words c ++ when (c_check_no_inherit c) ["NO INHERIT"] ++ uniq.

Lemma trim_keep s x : (forall a r, x = String a r -> True) -> trim_suffix_space (s ++ x ++ ")") = (s ++ x ++ ")")%string.
Proof.
  intros _. induction s as [|a s IH]; simpl.
  - induction x as [|a x IH]; simpl; [reflexivity|]. destruct (x ++ ")")%string eqn:E; [destruct x; discriminate|]. now rewrite IH.
  - destruct (s ++ x ++ ")")%string eqn:E; [destruct s; [destruct x|]; discriminate|]. now rewrite IH.
Qed.

Lemma trim_end s c : Ascii.eqb c " "%char = false -> trim_suffix_space (s ++ String c "") = (s ++ String c "")%string.
Proof.
  intros Hc. induction s as [|a s IH]; simpl; [now rewrite Hc|].
  destruct (s ++ String c "")%string eqn:E; [destruct s; discriminate|]. now rewrite IH.
Qed.

Lemma default_words_spec c s :
  match c_default c with
  | Some d => match df_value d with
              | Some v => do s <- generate_default_definition v; Ok (s ++ " ")%string
              | None => Ok ""
              end
  | None => Ok ""
  end = Ok s -> exists w, default_words c = Some w /\ s = cat w.
Proof.
  unfold default_words. destruct (c_default c) as [[[v|] k]|]; simpl; intros H.
  - destruct (generate_default_definition v) as [d| | |] eqn:E; try discriminate. injection H as <-.
    rewrite (default_text_spec v d E). simpl. eauto.
  - injection H as <-. eauto.
  - injection H as <-. eauto.
Qed.
Lemma unique_words_spec (c : column) (u : bool) (s : string) :
  match c_key c with
  | KeyNone | KeyPrimary => Ok ""
  | KeyUnique => Ok (if u then "UNIQUE " else "")
  | KeyUniqueKey => Ok (if u then "UNIQUE KEY " else "")
  | KeySpatial | KeyKey => Err (EUnsupportedKey c)
  end = Ok s -> exists w, unique_words u c = Some w /\ s = cat w.
Proof.
  unfold unique_words. destruct (c_key c); try discriminate; intros H; injection H as <-; eexists; split; try reflexivity; now destruct u.
Qed.

Lemma column_text_spec m c u s : generate_column_definition m c u = Ok s -> column_text m u c = Some s.
Proof.
  unfold generate_column_definition. intros H. cbv zeta in H. do 3 bind_step H. apply ok_inj in H. subst s.
  destruct (default_words_spec c _ E) as (wd & Hwd & ->). destruct (unique_words_spec c u _ E0) as (wu & Hwu & ->).
  unfold column_text. rewrite Hwd, Hwu.
  replace (generate_data_type c) with (type_text c) by apply eq_sym, type_text_spec.
  replace (escape_sql_name m (c_name c)) with (quoted m (c_name c)) by apply eq_sym, quoted_spec.
  match goal with |- context [trim_suffix_space ?x] => set (all := x) end.
  assert (Hall : all = (cat (plain_words m c wd wu) ++ x1)%string).
  { unfold all, plain_words. rewrite !cat_app. unfold given, null_words, check_words.
    assert (Hn : (if match c_identity c with None => true | Some _ => false end &&
        (match c_notnull c with Some true => true | _ => false end || is_key_primary (c_key c)) then "NOT NULL "
        else match c_notnull c with Some false => "NULL " | _ => "" end) = cat (null_words c)).
    { unfold null_words. destruct (c_identity c), (c_notnull c) as [[|]|], (c_key c); reflexivity. }
    rewrite Hn. clear all Hn.
    assert (Hk : match c_check c with
                 | Some k => ("CHECK " ++ (if ck_not_for_replication k then "NOT FOR REPLICATION " else "") ++ "(" ++ ck_definition k ++ ") ")%string
                 | None => "" end = cat (check_words c)).
    { unfold check_words. destruct (c_check c) as [k|]; [|reflexivity].
      rewrite !cat_app. unfold parens. destruct (ck_not_for_replication k); cbn [when cat]; rewrite ?sapp_assoc; reflexivity. }
    rewrite Hk. clear Hk.
    assert (Hu : match c_onupdate c with Some v => ("ON UPDATE " ++ v_raw v ++ " ")%string | None => "" end =
                 cat match c_onupdate c with Some v => ["ON UPDATE"; v_raw v] | None => [] end).
    { destruct (c_onupdate c); reflexivity. }
    rewrite Hu. clear Hu.
    assert (Hg : forall w k, (if String.eqb k "" then "" else (w ++ " " ++ k ++ " ")%string) = cat (when (negb (String.eqb k "")) [w; k])).
    { intros w k. destruct (String.eqb k ""); cbn [negb when cat]; rewrite ?sapp_nil_r; reflexivity. }
    rewrite <- (Hg "CHARACTER SET" (c_charset c)), <- (Hg "COLLATE" (c_collate c)). clear Hg.
    destruct (c_unsigned c), (c_timezone c), (c_autoinc c), (c_check_no_inherit c); cbn [when cat]; rewrite ?sapp_assoc, ?sapp_nil_r; reflexivity. }
  rewrite Hall. clear all Hall.
  assert (Hlast : exists wi, identity_words m c = Some wi /\
     (x1 = cat wi \/ (wi <> [] /\ exists y a, x1 = (y ++ String a "")%string /\ Ascii.eqb a " "%char = false /\ x1 = sentence wi))).
  { unfold identity_words. destruct (c_identity c) as [[b r]|]; [destruct b as [|b0 b]|]; simpl in E1.
    - destruct (c_sequence c) as [q|].
      + destruct m; try (injection E1 as <-; eauto).
        destruct (sq_start_with q) as [za|]; [|discriminate]. destruct (sq_increment_by q) as [zb|]; [|discriminate]. injection E1 as <-.
        eexists. split; [reflexivity|]. right. split; [discriminate|].
        destruct r.
        * exists ("IDENTITY(" ++ show_Z za ++ "," ++ show_Z zb ++ ")" ++ " NOT FOR REPLICATIO")%string, "N"%char. split; [|split; [reflexivity|]].
          -- sapp. reflexivity.
          -- unfold sentence. cbn [join app when]. sapp. reflexivity.
        * exists ("IDENTITY(" ++ show_Z za ++ "," ++ show_Z zb)%string, ")"%char. rewrite ?sapp_nil_r. split; [|split; [reflexivity|]].
          -- sapp. reflexivity.
          -- unfold sentence. cbn [join app when]. sapp. reflexivity.
      + destruct m; injection E1 as <-; eauto.
    - injection E1 as <-. destruct (c_sequence c) as [q|]; eexists; (split; [reflexivity|]); left.
      + unfold parens. rewrite sequence_text_spec. cbn [cat app]. rewrite ?sapp_assoc. reflexivity.
      + cbn [cat app]. rewrite ?sapp_assoc. reflexivity.
    - destruct (c_sequence c) as [q|].
      + destruct m; try (injection E1 as <-; eauto).
        destruct (sq_start_with q) as [za|]; [|discriminate]. destruct (sq_increment_by q) as [zb|]; discriminate.
      + destruct m; injection E1 as <-; eauto. }
  destruct Hlast as (wi & -> & Hx). f_equal.
  assert (Hne : plain_words m c wd wu <> []) by discriminate.
  symmetry. destruct Hx as [->|(Hw & y & a & Hy & Ha & Hs)].
  - rewrite <- cat_app, trim_cat; [|destruct (plain_words m c wd wu); [contradiction|discriminate]].
    f_equal. unfold plain_words. rewrite <- !app_assoc. reflexivity.
  - rewrite Hy, <- sapp_assoc, trim_end by exact Ha. rewrite sapp_assoc, <- Hy, Hs, cat_join by exact Hne.
    fold (sentence (plain_words m c wd wu)). rewrite sapp_assoc, <- sentence_app by assumption.
    f_equal. unfold plain_words. rewrite <- !app_assoc. reflexivity.
Qed.

Lemma position_spec m p x : x <> [] -> (sentence x ++ pos_text m p)%string = sentence (x ++ position_words m p).
Proof.
  intros Hx. destruct p; cbn [pos_text position_words].
  - now rewrite sapp_nil_r, app_nil_r.
  - now rewrite sentence_app by easy.
  - rewrite sentence_app by easy. cbn [sentence join]. now names.
Qed.

(** ** Keys *)
Lemma key_column_spec m ic : index_column_text m ic = key_column m ic.
Proof.
  unfold index_column_text, key_column. names.
  destruct (String.eqb (ic_direction ic) "desc") eqn:E.
  - apply String.eqb_eq in E. rewrite E. cbn [when app sentence join]. rewrite !sapp_assoc. reflexivity.
  - cbn [when app]. destruct (ic_length ic); unfold sentence; cbn [join]; now rewrite ?sapp_nil_r.
Qed.

Lemma mssql_options_spec l : forall r, mssql_options l = Ok r -> all_some (map mssql_option l) = Some r.
Proof.
  induction l as [|o l IH]; simpl; intros r H; [now injection H as <-|].
  unfold mssql_option at 1. destruct (io_value o) as [v|]; [|discriminate]. bind_step H. injection H as <-.
  rewrite (IH x eq_refl). simpl. do 2 f_equal. unfold sentence. cbn [join].
  destruct (v_type v); cbn [value_type_eqb]; reflexivity.
Qed.

Lemma option_words_spec m l s : generate_index_option_definition m l = Ok s ->
  exists w, option_words m l = Some w /\ forall p, p <> [] -> (sentence p ++ s)%string = sentence (p ++ w).
Proof.
  intros H. assert (Hnil : exists w, Some [] = Some w /\ forall p, p <> [] -> (sentence p ++ "")%string = sentence (p ++ w)).
  { exists []. split; [reflexivity|]. intros p _. now rewrite sapp_nil_r, app_nil_r. }
  destruct l as [|[n v] l]; simpl in H.
  - injection H as <-. destruct m; exact Hnil.
  - destruct m; simpl in *; try (injection H as <-; exact Hnil).
    + destruct v as [v|]; [|discriminate]. injection H as <-. eexists. split; [reflexivity|]. intros p Hp.
      rewrite sentence_app; [|exact Hp|now destruct (String.eqb n "parser")].
      destruct (String.eqb_spec n "parser") as [->|_]; unfold sentence; cbn [app join]; sapp; reflexivity.
    + destruct v as [v|]; [|discriminate]. bind_step H. injection H as <-. bind_step E. injection E as <-.
      pose proof (mssql_options_spec l x0 E0) as Hl. rewrite Hl. cbn [option_map].
      eexists. split; [reflexivity|]. intros p Hp. rewrite sentence_app by easy. unfold sentence. cbn [app join]. unfold parens.
      do 4 f_equal. destruct (v_type v); reflexivity.
Qed.

Lemma add_key_spec m t i s : generate_add_index m t i = Ok s -> add_key m t i = Some s.
Proof.
  unfold generate_add_index, add_key. intros H. bind_step H. destruct (option_words_spec m _ _ E) as (w & -> & Hw). clear E.
  assert (Hcols : map (index_column_text m) (i_columns i) = map (key_column m) (i_columns i)).
  { apply map_ext. intros ic. apply key_column_spec. }
  rewrite Hcols in H. names_in H.
  assert (Htail : forall p, p <> [] -> (sentence p ++ " (" ++ join ", " (map (key_column m) (i_columns i)) ++ ")" ++ x)%string = sentence (p ++ [key_columns m i] ++ w)).
  { intros p Hp. rewrite app_assoc, <- Hw; [|destruct p; discriminate]. rewrite sentence_app by easy.
    unfold key_columns, parens, sentence. cbn [join]. sapp; reflexivity. }
  destruct m.
  1,2,3: injection H as <-; f_equal; rewrite app_assoc; rewrite <- Htail by discriminate;
    destruct (i_primary i); unfold sentence; cbn [app negb when join]; sapp; reflexivity.
  destruct (i_primary i).
  - injection H as <-. f_equal.
    change ([i_type i; if i_clustered i then "CLUSTERED" else "NONCLUSTERED"; key_columns Mssql i] ++ w) with
      ([i_type i; if i_clustered i then "CLUSTERED" else "NONCLUSTERED"] ++ [key_columns Mssql i] ++ w).
    rewrite !app_assoc. rewrite <- app_assoc. rewrite <- app_assoc. rewrite app_assoc.
    rewrite <- Htail by discriminate. destruct (String.eqb (i_name i) "PRIMARY"), (i_clustered i);
      unfold sentence; cbn [app negb when join]; sapp; reflexivity.
  - injection H as <-. f_equal.
    set (tail := given (i_partition_name i) _).
    assert (Htl : forall p, p <> [] -> (sentence p ++ (if String.eqb (i_partition_name i) "" then ""
       else " ON " ++ quoted Mssql (i_partition_name i) ++
            (if String.eqb (i_partition_column i) "" then "" else " (" ++ quoted Mssql (i_partition_column i) ++ ")")))%string
       = sentence (p ++ tail)).
    { intros p Hp. unfold tail, given. destruct (String.eqb (i_partition_name i) ""); cbn [negb when].
      - now rewrite sapp_nil_r, app_nil_r.
      - rewrite sentence_app by easy. destruct (String.eqb (i_partition_column i) ""); unfold sentence, parens; cbn [app negb when join]; sapp; reflexivity. }
    rewrite app_assoc.
    change ([if i_clustered i then "CLUSTERED" else "NONCLUSTERED"; "INDEX"; quoted Mssql (i_name i); "ON"; table_ref Mssql t; key_columns Mssql i] ++ w ++ tail) with
      ([if i_clustered i then "CLUSTERED" else "NONCLUSTERED"; "INDEX"; quoted Mssql (i_name i); "ON"; table_ref Mssql t] ++ [key_columns Mssql i] ++ w ++ tail).
    replace ((["CREATE"] ++ when (i_unique i) ["UNIQUE"]) ++
             [if i_clustered i then "CLUSTERED" else "NONCLUSTERED"; "INDEX"; quoted Mssql (i_name i); "ON"; table_ref Mssql t] ++ [key_columns Mssql i] ++ w ++ tail)
      with ((((["CREATE"] ++ when (i_unique i) ["UNIQUE"]) ++
             [if i_clustered i then "CLUSTERED" else "NONCLUSTERED"; "INDEX"; quoted Mssql (i_name i); "ON"; table_ref Mssql t]) ++ [key_columns Mssql i] ++ w) ++ tail)
      by (rewrite <- !app_assoc; reflexivity).
    rewrite <- Htl by discriminate. rewrite <- Htail by discriminate.
    destruct (i_unique i), (i_clustered i); unfold sentence; cbn [app when join]; sapp; reflexivity.
Qed.

Lemma foreign_key_spec m f : generate_foreign_key_definition m f = sentence (foreign_key_words m f).
Proof.
  unfold generate_foreign_key_definition. rewrite <- trim_cat by discriminate. f_equal. unfold foreign_key_words.
  assert (Hm : forall l, map (escape_sql_name m) l = map (quoted m) l) by (intros; apply map_ext; apply quoted_spec).
  names; rewrite !cat_app, !Hm. unfold given, parens.
  destruct (String.eqb (fk_index_name f) ""), (String.eqb (fk_on_delete f) ""), (String.eqb (fk_on_update f) ""), (fk_not_for_replication f);
    cbn [negb when cat]; sapp; reflexivity.
Qed.

(** ** Statements *)
Definition says (m : mode) (s : stmt) : Prop := sql_of m (s_eff s) = Some (s_text s).

Lemma alter_sentence m t w : w <> [] ->
  sentence (["ALTER TABLE"; table_ref m t] ++ w) = (alter m t ++ " " ++ sentence w)%string.
Proof. intros Hw. rewrite sentence_app by easy. unfold alter. names. unfold sentence. cbn [join]. sapp; reflexivity. Qed.

Lemma alter_column_sentence m t c w : w <> [] ->
  sentence (["ALTER TABLE"; table_ref m t] ++ ["ALTER COLUMN"; quoted m c] ++ w) = (alter_column m t c ++ " " ++ sentence w)%string.
Proof.
  intros Hw. rewrite alter_sentence by discriminate. rewrite sentence_app by easy. unfold alter_column. names.
  unfold sentence. cbn [join]. sapp; reflexivity.
Qed.

Lemma new_column_says m des prev c o : ddls_new_column m des prev c = Ok o -> Forall (says m) o.
Proof.
  unfold ddls_new_column. intros H. bind_step H. injection H as <-. constructor; [|constructor]. unfold says. cbn [s_eff s_text sql_of].
  apply column_text_spec in E. rewrite E.
  rewrite alter_sentence by (destruct m; discriminate). f_equal. f_equal. rewrite <- position_spec by discriminate. destruct m; reflexivity.
Qed.

Lemma column_mysql_says cur des prev cc dc o : ddls_column_mysql cur des prev cc dc = Ok o -> Forall (says Mysql) o.
Proof.
  unfold ddls_column_mysql. intros H. bind_step H. injection H as <-. apply Forall_app. split.
  - destruct (_ || _ || _) in E; [|injection E as <-; constructor]. bind_step E. injection E as <-. constructor; [|constructor].
    unfold says. cbn [s_eff s_text sql_of]. apply column_text_spec in E0. rewrite E0. rewrite alter_sentence by discriminate.
    do 2 f_equal. rewrite <- position_spec by discriminate. unfold sentence. cbn [join]. rewrite ?sapp_assoc. reflexivity.
  - destruct (_ && _); [|constructor]. constructor; [|constructor]. unfold says. cbn [s_eff s_text sql_of]. rewrite alter_sentence by discriminate.
    unfold sentence, parens. cbn [join]. rewrite ?sapp_assoc. reflexivity.
Qed.

Ltac one := constructor; [|constructor]; unfold says; cbn [s_eff s_text sql_of].
Ltac alter_one := one; rewrite ?alter_column_sentence by discriminate; rewrite ?alter_sentence by discriminate;
  unfold sentence, parens, alter_column, alter; cbn [join app]; names; rewrite ?type_text_spec, ?sequence_text_spec; sapp; try reflexivity.

Lemma column_postgres_says cur des cc dc o :
  ddls_column_postgres cur des cc dc = Ok o -> Forall (says Postgres) o.
Proof.
  unfold ddls_column_postgres. intros H. bind_step H. injection H as <-. rewrite !Forall_app. repeat split.
  - unfold pg_type. destruct (have_same_data_type _ _ _); [constructor|]. alter_one.
  - unfold pg_null. destruct (is_primary_key _ _); [constructor|]. destruct (_ && _); [alter_one|].
    destruct (_ && _); [alter_one|constructor].
  - unfold pg_identity. destruct (are_same_identity _ _); [constructor|].
    destruct (c_identity cc), (c_identity dc); try (alter_one; fail); [|constructor].
    destruct (c_sequence dc); alter_one.
  - unfold pg_default in E. destruct (are_same_default _ _); [injection E as <-; constructor|].
    destruct (c_default dc) as [[v k]|]; [|injection E as <-; alter_one]. cbn [df_value] in E.
    destruct v as [v|]; [|discriminate]. bind_step E. injection E as <-. apply default_text_spec in E0. one. rewrite E0.
    rewrite alter_column_sentence by discriminate. unfold sentence. cbn [join]. sapp; reflexivity.
  - unfold pg_check. destruct (_ && _); [constructor|]. apply Forall_app.
    split; [destruct (c_check cc)|destruct (c_check dc)]; try constructor; try constructor.
    + unfold says. cbn [s_eff s_text sql_of]. rewrite alter_sentence by discriminate. unfold sentence; cbn [join]; sapp; reflexivity.
    + unfold says. cbn [s_eff s_text sql_of]. rewrite alter_sentence by discriminate.
      destruct (c_check_no_inherit dc); unfold sentence, parens; cbn [join app when]; sapp; reflexivity.
Qed.

Lemma column_mssql_says cur des cc dc o :
  ddls_column_mssql cur des cc dc = Ok o -> Forall (says Mssql) o.
Proof.
  unfold ddls_column_mssql. intros H. bind_step H. bind_step H. injection H as <-. rewrite !Forall_app. repeat split.
  - unfold ms_check. destruct (_ && _); [constructor|]. apply Forall_app.
    split; [destruct (c_check cc)|destruct (c_check dc) as [k|]]; try constructor; try constructor.
    + unfold says. cbn [s_eff s_text sql_of]. rewrite alter_sentence by discriminate. unfold sentence; cbn [join]; sapp; reflexivity.
    + unfold says. cbn [s_eff s_text sql_of]. destruct (ck_not_for_replication k);
        rewrite alter_sentence by discriminate; unfold sentence, parens; cbn [join app when]; sapp; reflexivity.
  - unfold ms_identity in E. destruct (are_same_identity _ _); [injection E as <-; constructor|]. bind_step E. injection E as <-.
    apply Forall_app. split.
    + destruct (c_identity cc); [|constructor]. alter_one.
    + destruct (c_identity dc); [|injection E1 as <-; constructor]. bind_step E1. injection E1 as <-. apply column_text_spec in E.
      one. rewrite E. cbn [position_words]. rewrite alter_sentence by discriminate. unfold sentence. cbn [join]. sapp; reflexivity.
  - unfold ms_default in E0. destruct (are_same_default _ _); [injection E0 as <-; constructor|]. bind_step E0. injection E0 as <-.
    apply Forall_app. split.
    + destruct (c_default cc); [|constructor]. alter_one.
    + destruct (c_default dc) as [[v k]|]; [|injection E1 as <-; constructor]. cbn [df_value df_constraint] in E1.
      destruct v as [v|]; [|discriminate]. bind_step E1. injection E1 as <-. apply default_text_spec in E0. one. rewrite E0.
      rewrite alter_sentence by (destruct k; discriminate). names. unfold given.
      destruct (String.eqb k ""); unfold sentence; cbn [negb when join app]; sapp; reflexivity.
Qed.

Lemma column_says m cur des prev c o : ddls_column m cur des prev c = Ok o -> Forall (says m) o.
Proof.
  unfold ddls_column. intros H. destruct (find_column _ _).
  - destruct m.
    + eapply column_mysql_says; eauto.
    + eapply column_postgres_says; eauto.
    + injection H as <-. constructor.
    + eapply column_mssql_says; eauto.
  - eapply new_column_says; eauto.
Qed.

Lemma columns_says m cur des l : forall prev o, ddls_columns m cur des prev l = Ok o -> Forall (says m) o.
Proof.
  induction l as [|c l IH]; simpl; intros prev o H.
  - injection H as <-. constructor.
  - bind_step H. bind_step H. injection H as <-. apply Forall_app. split; [eapply column_says|eapply IH]; eauto.
Qed.

Lemma add_index_says m n i s : stmt_add_index m n i = Ok s -> says m s.
Proof.
  unfold stmt_add_index. intros H. bind_step H. injection H as <-. unfold says. cbn [s_eff s_text]. apply add_key_spec in E.
  destruct (i_primary i) eqn:Ep; cbn [sql_of]; rewrite Ep; destruct m; exact E.
Qed.

Lemma drop_index_says m n i : says m (stmt_drop_index m n i).
Proof. destruct m; unfold says, stmt_drop_index; cbn [s_eff s_text sql_of drop_index]; names; try reflexivity. Qed.

Lemma change_says t old c def : generate_column_definition Mysql c false = Ok def ->
  says Mysql (mkStmt (alter Mysql t ++ " CHANGE COLUMN " ++ escape_sql_name Mysql old ++ " " ++ def)%string (EffChangeColumn t old c PosNone)).
Proof.
  intros H. apply column_text_spec in H. unfold says. cbn [s_eff s_text sql_of]. rewrite H. cbn [position_words].
  rewrite alter_sentence by discriminate. unfold sentence. cbn [join]. sapp; reflexivity.
Qed.

Lemma remove_autoinc_says m cur des o : ddls_remove_autoinc m cur des = Ok o -> Forall (says m) o.
Proof.
  unfold ddls_remove_autoinc. intros H. destruct m; try (injection H as <-; constructor).
  eapply concat_map_Forall; [|exact H]. intros x o' _ Hx. cbv beta zeta in Hx.
  destruct (_ && _) in Hx; [|injection Hx as <-; constructor]. bind_step Hx. injection Hx as <-.
  constructor; [|constructor]. now apply change_says.
Qed.

Lemma add_autoinc_says m cur des o : ddls_add_autoinc m cur des = Ok o -> Forall (says m) o.
Proof.
  unfold ddls_add_autoinc. intros H. destruct m; try (injection H as <-; constructor).
  eapply concat_map_Forall; [|exact H]. intros x o' _ Hx. cbv beta zeta in Hx.
  destruct (_ && _) in Hx; [|injection Hx as <-; constructor]. bind_step Hx. injection Hx as <-.
  constructor; [|constructor]. now apply change_says.
Qed.

Lemma primary_key_says m cur des o : ddls_primary_key m cur des = Ok o -> Forall (says m) o.
Proof.
  unfold ddls_primary_key. intros H. destruct (are_same_primary_keys _ _); [injection H as <-; constructor|].
  bind_step H. bind_step H. injection H as <-. apply Forall_app. split.
  - destruct (primary_key cur); [|injection E as <-; constructor].
    destruct m.
    + injection E as <-. one. rewrite alter_sentence by discriminate. reflexivity.
    + destruct (split_first "." (t_name des)) as [[a b]|] eqn:Es; [|discriminate]. injection E as <-. one.
      rewrite alter_sentence by discriminate. rewrite (bare_name_spec _ _ _ Es). unfold sentence. cbn [join]. names; sapp; reflexivity.
    + injection E as <-. constructor.
    + injection E as <-. constructor.
  - destruct (primary_key des); [|injection E0 as <-; constructor]. bind_step E0. injection E0 as <-.
    repeat constructor. eapply add_index_says; eauto.
Qed.

Lemma index_says m cur des i o : ddls_index m cur des i = Ok o -> Forall (says m) o.
Proof.
  unfold ddls_index. intros H. destruct (i_primary i); [injection H as <-; constructor|].
  destruct (find_index _ _) as [ci|].
  - destruct (are_same_indexes ci i); [injection H as <-; constructor|]. bind_step H. injection H as <-.
    constructor; [apply drop_index_says|]. constructor; [eapply add_index_says; eauto|constructor].
  - bind_step H. injection H as <-. constructor; [eapply add_index_says; eauto|constructor].
Qed.

Lemma add_fk_says m t f : says m (stmt_add_fk m t f).
Proof.
  unfold says, stmt_add_fk. cbn [s_eff s_text].
  assert (H : Some (sentence (["ALTER TABLE"; table_ref m t] ++ "ADD" :: foreign_key_words m f)) =
              Some (alter m t ++ " ADD " ++ generate_foreign_key_definition m f)%string).
  { f_equal. change ("ADD" :: foreign_key_words m f) with (["ADD"] ++ foreign_key_words m f).
    rewrite alter_sentence by discriminate. rewrite foreign_key_spec, sentence_app by (unfold foreign_key_words; discriminate). reflexivity. }
  destruct m; exact H.
Qed.

Lemma fk_says m cur des f o : ddls_fk m cur des f = Ok o -> Forall (says m) o.
Proof.
  unfold ddls_fk. intros H. destruct (String.eqb _ _); [discriminate|].
  destruct (find_fk _ _) as [cf|]; [|injection H as <-; repeat constructor; apply add_fk_says].
  destruct (are_same_foreign_keys _ _ _); injection H as <-; [constructor|].
  apply Forall_app. split; [|repeat constructor; apply add_fk_says]. destruct m; try constructor; try constructor.
  all: unfold says, stmt_drop_fk_mysql, stmt_drop_fk_constraint; cbn [s_eff s_text sql_of]; rewrite alter_sentence by discriminate;
    unfold sentence; cbn [join]; names; sapp; reflexivity.
Qed.

Lemma create_table_says m cur des o : ddls_for_create_table m cur des = Ok o -> Forall (says m) o.
Proof.
  unfold ddls_for_create_table. intros H. do 6 bind_step H. injection H as <-. rewrite !Forall_app. repeat split.
  - eapply columns_says; eauto.
  - eapply remove_autoinc_says; eauto.
  - eapply primary_key_says; eauto.
  - eapply concat_map_Forall; [|exact E2]. intros i o _. apply index_says.
  - eapply add_autoinc_says; eauto.
  - eapply concat_map_Forall; [|exact E4]. intros i o _. apply fk_says.
Qed.

Lemma drop_policy_says m p t : says m (stmt_drop_policy m p t).
Proof. unfold says, stmt_drop_policy. cbn [s_eff s_text]. names. destruct m; reflexivity. Qed.
Lemma drop_view_says m v : says m (stmt_drop_view m v).
Proof. unfold says, stmt_drop_view. cbn [s_eff s_text]. names. destruct m; reflexivity. Qed.
Lemma drop_table_says m v : says m (stmt_drop_table m v).
Proof. unfold says, stmt_drop_table. cbn [s_eff s_text]. names. destruct m; reflexivity. Qed.
Lemma verbatim_says m d : says m (verbatim d).
Proof. unfold says. destruct m; reflexivity. Qed.

Lemma cleanup_kept_says m cur des o : cleanup_kept m cur des = Ok o -> Forall (says m) o.
Proof.
  unfold cleanup_kept. intros H. bind_step H. injection H as <-. rewrite !Forall_app. repeat split.
  - unfold cleanup_fks. apply Forall_flat_map, Forall_forall. intros f _. destruct (contains_string _ _); [constructor|].
    unfold absent_fk. destruct m; [|destruct (existsb _ _); [constructor|]|constructor|destruct (existsb _ _); [constructor|]].
    all: unfold stmt_drop_fk_mysql, stmt_drop_fk_constraint; alter_one.
  - unfold cleanup_indexes in E. eapply concat_map_Forall; [|exact E]. intros i o _ Hi. cbv beta in Hi. destruct (_ || _) in Hi; [injection Hi as <-; constructor|].
    unfold absent_index in Hi. destruct (i_primary i).
    + destruct (find _ _).
      * destruct (i_columns i); [discriminate|]. destruct (String.eqb _ _); [injection Hi as <-; constructor|discriminate].
      * destruct m; injection Hi as <-; [constructor|constructor|constructor|]. alter_one.
    + assert (Hd : Forall (says m) [stmt_drop_index m (t_name cur) (i_name i)]) by (repeat constructor; apply drop_index_says).
      destruct (i_unique i); [|injection Hi as <-; exact Hd].
      destruct (t_columns des); [injection Hi as <-; exact Hd|]. destruct (i_columns i); [discriminate|].
      destruct (existsb _ _); injection Hi as <-; [constructor|exact Hd].
  - unfold cleanup_columns. apply Forall_flat_map, Forall_forall. intros c _. destruct (contains_string _ _); [constructor|].
    unfold absent_column. apply Forall_app. split.
    + destruct m; try constructor. apply Forall_flat_map, Forall_forall. intros y _. destruct (c_default y) as [d|]; [|constructor].
      destruct (_ && _); [|constructor]. alter_one.
    + one. rewrite alter_sentence by discriminate. unfold sentence. cbn [join]. names; sapp. destruct m; reflexivity.
  - unfold cleanup_policies. apply Forall_flat_map, Forall_forall. intros p _. destruct (contains_string _ _); [constructor|].
    repeat constructor. apply drop_policy_says.
Qed.

Lemma trigger_words_spec m t def : trigger_definition m t = Some def ->
  exists w, trigger_words m t = Some w /\ w <> [] /\ def = sentence w.
Proof.
  unfold trigger_definition, trigger_words. destruct m; try discriminate; intros H; injection H as <-; eexists; (split; [reflexivity|]); (split; [discriminate|]);
    names; unfold sentence; cbn [join]; sapp; reflexivity.
Qed.

Lemma step_says m g d g' o : step m g d = Ok (g', o) -> Forall (says m) o.
Proof.
  destruct d; cbn [step]; intros H.
  - unfold step_create_table in H. destruct (find_table _ _).
    + bind_step H. injection H as <- <-. eapply create_table_says; eauto.
    + injection H as <- <-. constructor; [apply verbatim_says|constructor].
  - unfold step_index in H. destruct (find_table _ _); [|discriminate].
    destruct (find_index _ _) as [ci|]; [destruct (are_same_indexes ci i)|]; destruct (find_table (g_des g) _); try discriminate;
      destruct (contains_string _ _); try discriminate; injection H as <- <-; repeat (apply Forall_cons; [first [apply verbatim_says | apply drop_index_says]|]); apply Forall_nil.
  - unfold step_index in H. destruct (find_table _ _); [|discriminate].
    destruct (find_index _ _) as [ci|]; [destruct (are_same_indexes ci i)|]; destruct (find_table (g_des g) _); try discriminate;
      destruct (contains_string _ _); try discriminate; injection H as <- <-; repeat (apply Forall_cons; [first [apply verbatim_says | apply drop_index_says]|]); apply Forall_nil.
  - discriminate.
  - unfold step_fk in H. destruct (find_table _ _); [|discriminate]. destruct (contains_string _ _); [discriminate|]. injection H as <- <-. constructor.
  - unfold step_policy in H. destruct (find_table _ _); [|discriminate].
    destruct (find_policy _ _) as [cp|]; [destruct (are_same_policies cp p)|]; destruct (find_table (g_des g) _); try discriminate;
      destruct (contains_string _ _); try discriminate; injection H as <- <-; repeat (apply Forall_cons; [first [apply verbatim_says | apply drop_policy_says]|]); apply Forall_nil.
  - unfold step_view in H. destruct (contains_string _ _); [discriminate|]. injection H as <- <-.
    destruct (find_view _ _) as [cv|]; [|constructor; [apply verbatim_says|constructor]]. destruct (String.eqb _ _); [constructor|].
    destruct m.
    1,2: one; names; unfold sentence; cbn [join]; sapp; reflexivity.
    all: constructor; [apply drop_view_says|]; one; names; unfold sentence; cbn [join]; sapp; reflexivity.
  - unfold step_trigger in H. destruct (trigger_definition m t) as [def|] eqn:Ed; [|injection H as <- <-; constructor].
    injection H as <- <-. destruct (trigger_words_spec m t def Ed) as (w & Hw & Hne & ->).
    assert (Hc : Forall (says m) [mkStmt ("CREATE " ++ sentence w)%string (EffCreateTrigger t)]).
    { one. rewrite Hw. cbn [option_map].
      assert (Some (sentence ("CREATE" :: w)) = Some ("CREATE " ++ sentence w)%string) as Hs.
      { f_equal. change ("CREATE" :: w) with (["CREATE"] ++ w). now rewrite sentence_app by easy. }
      destruct m; exact Hs. }
    destruct (find_trigger _ _) as [ct|]; [|exact Hc]. destruct (are_same_trigger ct t); [constructor|].
    destruct m; try discriminate.
    + constructor; [|exact Hc]. unfold says. reflexivity.
    + one. rewrite Hw. cbn [option_map]. f_equal. change ("CREATE OR ALTER" :: w) with (["CREATE OR ALTER"] ++ w). now rewrite sentence_app by easy.
Qed.

Lemma steps_says m l : forall g g' o, steps m g l = Ok (g', o) -> Forall (says m) o.
Proof.
  induction l as [|d l IH]; cbn [steps]; intros g g' o H; [injection H as <- <-; constructor|].
  destruct (step m g d) as [[g1 a]| | |] eqn:E; try discriminate. cbn [bind] in H.
  destruct (steps m g1 l) as [[g2 b]| | |] eqn:E2; try discriminate. injection H as <- <-. apply Forall_app. split; [eapply step_says|eapply IH]; eauto.
Qed.

Lemma cleanup_tables_says m des l : forall live o, cleanup_tables m des live l = Ok o -> Forall (says m) o.
Proof.
  induction l as [|t l IH]; cbn [cleanup_tables]; intros live o H; [injection H as <-; constructor|].
  destruct (find_table des (t_name t)).
  - bind_step H. bind_step H. injection H as <-. apply Forall_app. split; [eapply cleanup_kept_says|eapply IH]; eauto.
  - destruct (remove_table _ _); [|discriminate]. bind_step H. injection H as <-. constructor; [apply drop_table_says|eapply IH; eauto].
Qed.

Theorem plan_says m desired current out : plan m desired current = Ok out -> Forall (says m) out.
Proof.
  unfold plan, generate_ddls. intros H. bind_step H.
  destruct (steps m (init_state x current) desired) as [[g a]| | |] eqn:E2; try discriminate. cbn [bind] in H.
  bind_step H. injection H as <-. rewrite !Forall_app. repeat split.
  - eapply steps_says; eauto.
  - eapply cleanup_tables_says; eauto.
  - unfold cleanup_views. apply Forall_flat_map, Forall_forall. intros v _. destruct (contains_string _ _); [constructor|].
    repeat constructor. apply drop_view_says.
Qed.
