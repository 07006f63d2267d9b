(** Proofs about the export texts of SQL Server, SQLite and MySQL, and about table names and
    character sets. *)
From Coq Require Import String Ascii List ZArith Bool Lia Permutation.
From Verif Require Import GoStr GoStrFacts Ast Generator SchemaText SpecText ProofText Numerals SqlAst SchemaParse Catalog AdapterPostgres AdapterMssql AdapterSqlite SpecExport ProofExport.
Import ListNotations.
Local Open Scope string_scope.

(** ** SQL Server *)
Lemma ol_column c : clean_ms_column c -> one_line (ms_column_text c).
Proof.
  intros (A & B & C & D & I & K). unfold ms_column_text.
  destruct (mc_default c) as [[n v]|]; [destruct (D n v eq_refl)|]; (destruct (mc_identity c) as [i|]; [destruct (I i eq_refl)|]);
    (destruct (mc_check c) as [k|]; [destruct (K k eq_refl)|]); ol.
Qed.

Lemma ol_type i : one_line (mi_type i) -> one_line (type_text i).
Proof. intros H. unfold type_text. ol. Qed.

Lemma ol_keys i : Forall (fun c => one_line (mx_name c)) (mi_columns i) -> one_line (join ", " (key_columns i)).
Proof.
  intros H. apply one_line_join; [now split|]. apply Forall_map. apply Forall_forall. intros c I. apply filter_In in I.
  pose proof (proj1 (Forall_forall _ _) H c (proj1 I)). cbv beta in *. ol.
Qed.
Lemma ol_included i : Forall (fun c => one_line (mx_name c)) (mi_columns i) -> one_line (join ", " (included_columns i)).
Proof.
  intros H. apply one_line_join; [now split|]. apply Forall_map. apply Forall_forall. intros c I. apply filter_In in I.
  pose proof (proj1 (Forall_forall _ _) H c (proj1 I)). cbv beta in *. ol.
Qed.
Lemma ol_options i : Forall (fun o => one_line (fst o) /\ one_line (snd o)) (mi_options i) -> one_line (options_text i).
Proof.
  intros H. unfold options_text. destruct (mi_options i) as [|o l]; [now split|].
  apply one_line_app. split; [now split|]. apply one_line_app. split; [|now split]. apply one_line_join; [now split|].
  apply Forall_map. eapply Forall_impl; [|exact H]. intros p [A B]. ol.
Qed.

Lemma ol_index table i : one_line table -> clean_ms_index i -> one_line (index_text table i).
Proof.
  intros T (A & B & C & D). unfold index_text. pose proof (ol_keys i D). pose proof (ol_included i D). pose proof (ol_options i C).
  pose proof (ol_type i B). set (inc := included_columns i) in *. destruct inc; ol.
Qed.

Lemma index_plain table i : one_line table -> clean_ms_index i -> one_line (index_text table i) /\
  (exists r, index_text table i = String "C" r) /\ exists a, last_char (index_text table i) = Some a /\ is_space a = false.
Proof.
  intros T C. split; [now apply ol_index|]. split; [now eexists|].
  exists ")"%char. split; [|reflexivity]. unfold index_text. rewrite <- !sapp_assoc.
  unfold options_text. destruct (mi_options i) as [|o l].
  - rewrite sapp_nil_r. destruct (included_columns i) as [|x y].
    + rewrite sapp_nil_r. now rewrite last_char_app.
    + rewrite <- !sapp_assoc. now rewrite last_char_app.
  - rewrite <- !sapp_assoc. now rewrite last_char_app.
Qed.

Lemma no_newline_dashes s : has_char newline s = false -> contains s (String newline "--") = false.
Proof. intros H. rewrite <- (sapp_nil_r s). now rewrite peel. Qed.

Lemma ms_indexes_plain table l : one_line table -> Forall clean_ms_index l -> l <> [] ->
  plain_statement (join "" (map (index_text table) l)).
Proof.
  intros T F N.
  assert (O : one_line (join "" (map (index_text table) l))).
  { apply one_line_join; [now split|]. apply Forall_map. eapply Forall_impl; [|exact F]. intros i. now apply ol_index. }
  destruct O as [O1 O2].
  assert (H : exists r, join "" (map (index_text table) l) = String "C" r).
  { destruct F as [|i l Ci F]; [congruence|]. cbn [map]. rewrite join_cons. destruct (index_plain table i T Ci) as (_ & (r & ->) & _). now eexists. }
  assert (L : exists a, last_char (join "" (map (index_text table) l)) = Some a /\ is_space a = false).
  { clear -F N T. induction F as [|i l Ci F IH]; [congruence|]. cbn [map]. rewrite join_cons.
    destruct l as [|j l].
    - cbn [map]. rewrite sapp_nil_r. apply (index_plain table i T Ci).
    - cbn [map] in *. destruct (IH ltac:(discriminate)) as (a & A & B). exists a. split; [|exact B].
      cbn [append]. rewrite last_char_app; [exact A|]. intros Q. rewrite Q in A. discriminate. }
  constructor.
  - destruct H as (r & ->). now exists "C"%char.
  - exact L.
  - exact O1.
  - destruct H as (r & ->). reflexivity.
  - now apply no_newline_dashes.
Qed.

Lemma comma_line x r : has_char newline x = false ->
  contains (("," ++ nl ++ indent ++ x) ++ r) (String newline "--") = contains r (String newline "--").
Proof.
  intros H. rewrite !sapp_assoc. rewrite peel by reflexivity. rewrite <- (indented_app x r H). unfold indented.
  now rewrite !sapp_assoc.
Qed.

Definition primary_line (i : ms_index) : string :=
  "CONSTRAINT [" ++ mi_name i ++ "] PRIMARY KEY" ++ type_text i ++
  " (" ++ join ", " (key_columns i) ++ ")" ++ options_text i.
Definition fk_line (r : ms_fk_row) : string :=
  "CONSTRAINT [" ++ mf_name r ++ "] FOREIGN KEY ([" ++ mf_column r ++ "]) REFERENCES [" ++ mf_ref_table r ++
  "] ([" ++ mf_ref_column r ++ "]) ON UPDATE " ++ underscores_to_spaces (mf_on_update r) ++
  " ON DELETE " ++ underscores_to_spaces (mf_on_delete r) ++
  (if mf_not_for_replication r then " NOT FOR REPLICATION" else "").

Lemma ol_primary i : clean_ms_index i -> one_line (primary_line i).
Proof.
  intros (A & B & C & D). unfold primary_line. pose proof (ol_keys i D). pose proof (ol_options i C). pose proof (ol_type i B). ol.
Qed.

Lemma ol_underscores s : one_line s -> one_line (underscores_to_spaces s).
Proof.
  induction s as [|a s IH]; [auto|]. intros H. change (String a s) with (String a "" ++ s) in H. apply one_line_app in H.
  destruct H as [A B]. cbn [underscores_to_spaces].
  change (String (if Ascii.eqb a "_" then " "%char else a) (underscores_to_spaces s))
    with (String (if Ascii.eqb a "_" then " "%char else a) "" ++ underscores_to_spaces s).
  apply one_line_app. split; [|now apply IH]. destruct (Ascii.eqb a "_"); [now split|exact A].
Qed.

Lemma ol_fk r : clean_ms_fk r -> one_line (fk_line r).
Proof.
  intros (A & B & C & D & E & F). unfold fk_line. apply ol_underscores in E, F. ol.
Qed.

Lemma comma_semicolon {A} (f : A -> string) l : (forall x, In x l -> has_char semicolon (f x) = false) ->
  has_char semicolon (join "" (map f l)) = false.
Proof.
  induction l as [|x l IH]; intros H; [reflexivity|]. cbn [map]. rewrite join_cons, has_char_app, (H x) by now left.
  destruct l as [|y l]; [reflexivity|]. cbn [append map] in *. apply IH. intros z I. apply H. now right.
Qed.

Lemma ms_create_plain table cols indexes fks : one_line table -> Forall clean_ms_column cols -> Forall clean_ms_index indexes ->
  Forall clean_ms_fk fks -> plain_statement (ms_create_text table cols indexes fks).
Proof.
  intros T C I F. unfold ms_create_text.
  replace (map (fun c => nl ++ indent ++ ms_column_text c) cols) with (map indented (map ms_column_text cols)) by (now rewrite map_map).
  assert (PI : forall i, In i (filter mi_primary indexes) -> one_line (primary_line i)).
  { intros i J. apply filter_In in J. apply ol_primary. exact (proj1 (Forall_forall _ _) I i (proj1 J)). }
  assert (PF : forall r, In r fks -> one_line (fk_line r)).
  { intros r J. apply ol_fk. exact (proj1 (Forall_forall _ _) F r J). }
  rewrite <- (sapp_assoc (join "" _) (join "" _)).
  apply (plain_framed table (map ms_column_text cols)).
  - exact T.
  - apply Forall_map. eapply Forall_impl; [|exact C]. exact ol_column.
  - rewrite has_char_app. apply orb_false_iff. split; apply comma_semicolon.
    + intros i J. change (primary_text i) with ("," ++ nl ++ indent ++ primary_line i). rewrite !has_char_app.
      rewrite (proj1 (PI i J)). reflexivity.
    + intros r J. change (fk_text r) with ("," ++ nl ++ indent ++ fk_line r). rewrite !has_char_app.
      rewrite (proj1 (PF r J)). reflexivity.
  - intros r. rewrite sapp_assoc.
    assert (G1 : forall l q, (forall i, In i l -> one_line (primary_line i)) ->
      contains (join "" (map primary_text l) ++ q) (String newline "--") = contains q (String newline "--")).
    { induction l as [|i l IH]; intros q H; [reflexivity|]. cbn [map]. rewrite join_cons, sapp_assoc.
      change (primary_text i) with ("," ++ nl ++ indent ++ primary_line i). rewrite comma_line by apply (H i), or_introl, eq_refl.
      destruct l as [|j l]; [reflexivity|]. cbn [append map] in *. apply IH. intros z J. apply H. now right. }
    assert (G2 : forall l q, (forall i, In i l -> one_line (fk_line i)) ->
      contains (join "" (map fk_text l) ++ q) (String newline "--") = contains q (String newline "--")).
    { induction l as [|i l IH]; intros q H; [reflexivity|]. cbn [map]. rewrite join_cons, sapp_assoc.
      change (fk_text i) with ("," ++ nl ++ indent ++ fk_line i). rewrite comma_line by apply (H i), or_introl, eq_refl.
      destruct l as [|j l]; [reflexivity|]. cbn [append map] in *. apply IH. intros z J. apply H. now right. }
    rewrite G1 by exact PI. now apply G2.
Qed.

Lemma not_suffix s p : (forall x, s <> x ++ p) -> trim_suffix s p = s.
Proof.
  induction s as [|a s IH]; intros H; cbn [trim_suffix].
  - destruct (String.eqb "" p); reflexivity.
  - destruct (String.eqb_spec (String a s) p) as [E|E]; [now destruct (H "")|]. rewrite IH; [reflexivity|].
    intros x ->. now apply (H (String a x)).
Qed.

Lemma last_char_plain s : plain_statement s -> s <> "".
Proof. intros [_ (a & A & _) _ _ _] ->. discriminate. Qed.

Lemma ms_dump_pieces table cols indexes fks : one_line table -> Forall clean_ms_column cols -> Forall clean_ms_index indexes ->
  Forall clean_ms_fk fks ->
  let secondary := filter (fun i => negb (mi_primary i)) indexes in
  split_statements (ms_build_dump table cols indexes fks) =
    ms_create_text table cols indexes fks ::
    match secondary with [] => [] | _ => [join "" (map (index_text table) secondary)] end.
Proof.
  intros T C I F secondary. unfold ms_build_dump. fold secondary.
  pose proof (ms_create_plain table cols indexes fks T C I F) as P. set (create := ms_create_text table cols indexes fks) in *.
  assert (S : Forall clean_ms_index secondary).
  { apply Forall_forall. intros i J. apply filter_In in J. exact (proj1 (Forall_forall _ _) I i (proj1 J)). }
  clearbody secondary. destruct secondary as [|i l].
  - cbn [map join]. rewrite sapp_nil_r, trim_suffix_app by discriminate. now apply lists_split, lists_one.
  - pose proof (ms_indexes_plain table (i :: l) T S ltac:(discriminate)) as Q. set (ix := join "" (map (index_text table) (i :: l))) in *.
    rewrite not_suffix.
    + apply lists_split. apply (lists_cons create nl true ix [ix] P gap1). now apply lists_one.
    + intros x E. destruct Q as [_ (a & A & B) _ _ _].
      apply (f_equal last_char) in E. rewrite <- sapp_assoc, <- sapp_assoc in E. rewrite last_char_app in E by (intros ->; discriminate A).
      rewrite last_char_app in E by discriminate. rewrite A in E. cbn in E. injection E as ->. discriminate B.
Qed.

Lemma ms_one_per_object table cols indexes fks : one_line table -> Forall clean_ms_column cols -> Forall clean_ms_index indexes ->
  Forall clean_ms_fk fks ->
  let secondary := filter (fun i => negb (mi_primary i)) indexes in
  split_statements (ms_build_dump table cols indexes fks) =
    ms_create_text table cols indexes fks :: map (index_text table) secondary <-> List.length secondary <= 1.
Proof.
  intros T C I F secondary. rewrite ms_dump_pieces by assumption. fold secondary. destruct secondary as [|i [|j l]].
  - cbn. split; [lia|reflexivity].
  - cbn. split; [lia|reflexivity].
  - split; [intros [=]|cbn; lia].
Qed.

(** ** MySQL triggers *)
Definition trigger_body (t : my_trigger) : string :=
  "CREATE TRIGGER " ++ my_name t ++ " " ++ my_timing t ++ " " ++ my_event t ++ " ON " ++ my_table t ++
  " FOR EACH ROW " ++ my_statement t.

Lemma trigger_splits t : one_line (my_name t) -> one_line (my_timing t) -> one_line (my_event t) -> one_line (my_table t) ->
  (exists a, last_char (my_statement t) = Some a /\ is_space a = false) ->
  has_char newline (my_statement t) = false ->
  (split_statements (my_trigger_text t) = [trigger_body t] <-> has_char semicolon (my_statement t) = false).
Proof.
  intros N T E B (a & A1 & A2) L.
  assert (Q : my_trigger_text t = trigger_body t ++ ";") by (unfold my_trigger_text, trigger_body; now rewrite !sapp_assoc).
  rewrite Q. set (s := my_statement t) in *.
  assert (P : has_char newline (trigger_body t) = false).
  { unfold trigger_body. fold s. rewrite !has_char_app, (proj2 N), (proj2 T), (proj2 E), (proj2 B), L. reflexivity. }
  assert (Z : has_char semicolon (trigger_body t) = has_char semicolon s).
  { unfold trigger_body. fold s. rewrite !has_char_app, (proj1 N), (proj1 T), (proj1 E), (proj1 B). reflexivity. }
  split.
  - intros H. rewrite <- Z. destruct (has_char semicolon (trigger_body t)) eqn:C; [|reflexivity]. exfalso.
    unfold split_statements in H. assert (I : In (trigger_body t) [trigger_body t]) by now left. rewrite <- H in I.
    apply filter_In in I. destruct I as [I _]. apply in_map_iff in I. destruct I as (x & X & I).
    assert (G : forall c s x, In x (split_char c s) -> has_char c x = false).
    { clear. intros c. induction s as [|b s IH]; intros x; cbn [split_char].
      - intros [<-|[]]. reflexivity.
      - destruct (Ascii.eqb b c) eqn:E.
        + intros [<-|I]; [reflexivity|now apply IH].
        + destruct (split_char c s) as [|y l]; [intros [<-|[]]; cbn; now rewrite E|].
          intros [<-|I]; [cbn; rewrite E; apply IH; now left|apply IH; now right]. }
    apply G in I. assert (TR : has_char semicolon (trim_space x) = false).
    { clear -I. unfold trim_space.
      assert (R : forall s, has_char semicolon s = false -> has_char semicolon (trim_right s) = false).
      { induction s as [|b s IH]; [auto|]. cbn. intros H. apply orb_false_iff in H. destruct H as [A B]. specialize (IH B).
        destruct (trim_right s); [destruct (is_space b)|]; cbn in *; rewrite ?A; auto. }
      apply R in I. revert I. generalize (trim_right x). induction s as [|b s IH]; [auto|]. cbn. intros H.
      destruct (is_space b); [|exact H]. apply orb_false_iff in H. now apply IH. }
    rewrite X in TR. congruence.
  - intros C. rewrite <- Z in C. replace (trigger_body t ++ ";") with (trigger_body t ++ ";" ++ "" ++ "") by reflexivity.
    apply lists_split. apply (lists_cons _ "" false "" []); [|constructor|exact lists_nil_end].
    constructor.
    + eexists; split; reflexivity.
    + exists a. split; [|exact A2]. unfold trigger_body. fold s. rewrite <- !sapp_assoc. rewrite last_char_app; [exact A1|].
      intros K. rewrite K in A1. discriminate.
    + exact C.
    + reflexivity.
    + now apply no_newline_dashes.
Qed.

(** ** SQLite *)
Lemma lite_table_exported master r sql : In r master -> lr_type r = "table" -> like_sqlite (lr_table r) = false ->
  lr_sql r = Some sql ->
  (forall a x b, master = (a ++ x :: b)%list -> lr_table x = lr_table r -> (forall y, In y a -> lr_table y <> lr_table r) -> x = r) ->
  forall l, lite_statements master = Some l -> In sql l.
Proof.
  intros I T L S F l. unfold lite_statements.
  destruct (all_some (map (lite_dump_table master) (lite_table_names master))) as [t|] eqn:A; [|discriminate].
  destruct (all_some (lite_views master)) as [v|]; [|discriminate]. intros [= <-]. apply in_or_app. left.
  assert (D : lite_dump_table master (lr_table r) = Some sql).
  { unfold lite_dump_table. destruct (find (fun x => String.eqb (lr_table x) (lr_table r)) master) as [x|] eqn:Fd.
    - assert (G : exists a b, master = (a ++ x :: b)%list /\ lr_table x = lr_table r /\ forall y, In y a -> lr_table y <> lr_table r).
      { clear -Fd. induction master as [|z m IH]; [discriminate|]. cbn in Fd. destruct (String.eqb_spec (lr_table z) (lr_table r)) as [E|E].
        - injection Fd as ->. exists [], m. repeat split; auto.
        - destruct (IH Fd) as (a & b & -> & X & Y). exists (z :: a), b. repeat split; auto. intros y [<-|J]; auto. }
      destruct G as (a & b & G & X & Y). now rewrite (F a x b G X Y).
    - exfalso. pose proof (find_none _ _ Fd r I) as Q. cbv beta in Q. now rewrite String.eqb_refl in Q. }
  assert (K : In (lr_table r) (lite_table_names master)).
  { unfold lite_table_names. apply in_map, filter_In. split; [exact I|]. now rewrite T, L. }
  revert A K. clear -D. revert t. induction (lite_table_names master) as [|n ns IH]; [easy|]. cbn [map all_some]. intros t.
  destruct (lite_dump_table master n) as [x|] eqn:X; [|discriminate].
  destruct (all_some (map (lite_dump_table master) ns)) as [q|]; [|discriminate]. intros [= <-] [->|J].
  - left. congruence.
  - right. exact (IH q eq_refl J).
Qed.

(** ** Character sets *)
Lemma detect_words words x : detect_charset words = x ->
  forall w, (exists a b, words = (a ++ ("charset=" ++ w)%string :: b)%list /\ Forall (fun o => has_prefix o "charset=" = false) a) ->
  x = trim_left_set "charset=" w.
Proof.
  intros <- w (a & b & -> & F). induction F as [|o a O F IH]; cbn [app detect_charset].
  - rewrite has_prefix_app. reflexivity.
  - now rewrite O.
Qed.

Lemma trim_left_set_fixed cut s : trim_left_set cut s = s <-> forall c, first_char s = Some c -> has_ascii c cut = false.
Proof.
  destruct s as [|a s]; cbn; [easy|]. split.
  - intros H c [= <-]. destruct (has_ascii a cut); [|reflexivity]. exfalso.
    assert (L : forall s, String.length (trim_left_set cut s) <= String.length s).
    { induction s0 as [|b t IH]; cbn; [lia|]. destruct (has_ascii b cut); cbn; lia. }
    specialize (L s). rewrite H in L. cbn in L. lia.
  - intros H. now rewrite (H a eq_refl).
Qed.

Lemma charset_exact options position d cs a b :
  ct_collate (cd_type d) = "binary" ->
  split_char " " options = (a ++ ("charset=" ++ cs)%string :: b)%list ->
  Forall (fun o => has_prefix o "charset=" = false) a ->
  (c_collate (parse_column options position d) = cs ++ "_bin" <->
   forall c, first_char cs = Some c -> ~ In c (list_ascii_of_string "charset=")).
Proof.
  intros B S F. unfold parse_column. cbn [c_collate]. unfold normalize_collate. rewrite B, String.eqb_refl.
  rewrite (detect_words _ _ eq_refl cs) by (exists a, b; auto).
  assert (J : forall x y z : string, x ++ z = y ++ z <-> x = y).
  { intros x y z. split; [|now intros ->]. revert y. induction x as [|p x IH]; intros [|q y] H; cbn in H.
    - reflexivity.
    - apply (f_equal String.length) in H. cbn in H. rewrite sapp_length in H. lia.
    - apply (f_equal String.length) in H. cbn in H. rewrite sapp_length in H. lia.
    - injection H as -> H. f_equal. now apply IH. }
  rewrite J, trim_left_set_fixed.
  assert (K : forall c s, has_ascii c s = false <-> ~ In c (list_ascii_of_string s)).
  { intros c. induction s as [|x s IH]; cbn; [easy|]. rewrite orb_false_iff, IH, Ascii.eqb_neq. tauto. }
  split; intros H c E; specialize (H c E); now apply K.
Qed.

(** ** Table names *)
Lemma table_name_postgres x y : has_char "." (pg_schema x) = false -> has_char "." (pg_schema y) = false ->
  (normalized_table_name Postgres x = normalized_table_name Postgres y <->
   pg_schema x = pg_schema y /\ tn_name x = tn_name y).
Proof.
  intros X Y. unfold normalized_table_name. fold (pg_schema x) (pg_schema y). split; [|now intros [-> ->]].
  intros H. change ("." ++ ?s) with (String "." s) in H.
  pose proof (split_first_spec "." (pg_schema x) (tn_name x) X) as P. rewrite H, split_first_spec in P by exact Y.
  injection P as -> ->. auto.
Qed.
