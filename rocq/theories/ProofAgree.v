(** Proofs for C102: databases brought to the same file agree. *)
From Coq Require Import String Ascii List ZArith Bool Relation_Operators.
From Verif Require Import GoStr Ast Generator GoStrFacts Catalog SchemaParse Parser Planner SchemaText AdapterSqlite SpecText SpecPlan SpecColumns SpecOrder SpecMysql SpecDatabase SpecPostgres SpecMssql
  SpecConverge SpecConvergePg SpecConvergeMs SpecSqlite SpecAgree ProofColumns ProofNoop ProofPgSettle ProofMsSettle ProofSqlite ProofSqliteRun.
Import ListNotations.
Local Open Scope string_scope.
Local Open Scope list_scope.

(** ** Parts *)
Lemma value_both d x y : value_matches x d -> value_matches y d -> value_said d x y.
Proof.
  unfold value_matches, value_said. destruct d as [v|], x as [a|], y as [b|]; try contradiction; auto.
  intros A B. exists a, b. split; [reflexivity|]. split; [reflexivity|]. split; [|split].
  - intros N. destruct A as [A|[F _]]; [|contradiction]. destruct B as [B|[F _]]; [congruence|contradiction].
  - destruct A as [A|[_ A]]; [exists ""; now rewrite sapp_nil_r; congruence|exact A].
  - destruct B as [B|[_ B]]; [exists ""; now rewrite sapp_nil_r|exact B].
Qed.

Lemma default_both c a b : default_matches a c -> default_matches b c -> default_said c a b.
Proof. intros A B. exact (value_both _ _ _ A B). Qed.

Lemma part_both a b c : index_column_matches a c -> index_column_matches b c -> key_part a b.
Proof.
  intros [A DA] [B DB]. split; [congruence|].
  assert (W : forall x y, In x [""; "asc"] -> In y [""; "asc"] -> incl [x; y] [""; "asc"]) by (intros x y X Y z [<-|[<-|[]]]; assumption).
  destruct DA as [DA|[[-> X]|[-> X]]], DB as [DB|[[-> Y]|[-> Y]]]; try (left; congruence); right; apply W; cbn; rewrite ?DA, ?DB, ?X, ?Y; auto.
Qed.

Lemma parts_both a b c : Forall2 index_column_matches a c -> Forall2 index_column_matches b c -> Forall2 key_part a b.
Proof.
  intros A. revert b. induction A as [|x z a c X A IH]; intros b B; inversion B; subst; constructor; eauto using part_both.
Qed.

Lemma key_both i a b : index_matches a i -> index_matches b i -> key_said i a b.
Proof.
  intros (A1 & A2 & A3 & A4 & A5 & A6) (B1 & B2 & B3 & B4 & B5 & B6). constructor; try congruence; [eauto using parts_both|].
  intros o O. destruct (A6 o O) as (x & X & VX). destruct (B6 o O) as (y & Y & VY).
  unfold named in X, Y. apply find_some in X as [X NX]. apply find_some in Y as [Y NY]. apply String.eqb_eq in NX, NY.
  exists x, y. split; [exact X|]. split; [exact Y|]. split; [exact NX|]. split; [exact NY|]. now apply value_both.
Qed.

Lemma keys_both i la lb :
  (exists k, In k la /\ i_name k = i_name i /\ index_matches k i) -> (exists k, In k lb /\ i_name k = i_name i /\ index_matches k i) ->
  both_keys i la lb.
Proof. intros (a & A & NA & MA) (b & B & NB & MB). exists a, b. eauto 10 using key_both. Qed.

Lemma action_both m a b c : action_matches m a c -> action_matches m b c -> same_action m a b.
Proof.
  intros A B. assert (W : forall x y, In x [""; "NO ACTION"] -> In y [""; "NO ACTION"] -> incl [x; y] [""; "NO ACTION"]) by (intros x y X Y z [<-|[<-|[]]]; assumption).
  destruct A as [A|[M A]], B as [B|[M' B]]; try (left; congruence); right.
  - split; [intros ->; destruct M'; discriminate|]. subst c. destruct B as [[-> ->]|[-> ->]]; apply W; cbn; auto.
  - split; [intros ->; destruct M; discriminate|]. subst c. destruct A as [[-> ->]|[-> ->]]; apply W; cbn; auto.
  - split; [intros ->; destruct M; discriminate|]. destruct A as [[-> _]|[-> _]], B as [[-> _]|[-> _]]; apply W; cbn; auto.
Qed.

Lemma fks_both m f la lb :
  (exists k, In k la /\ fk_constraint k = fk_constraint f /\ fk_matches m k f /\ fk_index_columns k = fk_index_columns f /\ fk_ref_name k = fk_ref_name f /\ fk_ref_columns k = fk_ref_columns f) ->
  (exists k, In k lb /\ fk_constraint k = fk_constraint f /\ fk_matches m k f /\ fk_index_columns k = fk_index_columns f /\ fk_ref_name k = fk_ref_name f /\ fk_ref_columns k = fk_ref_columns f) ->
  both_fks m f la lb.
Proof.
  intros (a & A & NA & (UA & DA & RA) & A1 & A2 & A3) (b & B & NB & (UB & DB & RB) & B1 & B2 & B3). exists a, b.
  repeat (split; [first [assumption|congruence|eapply action_both; eassumption]|]). congruence.
Qed.

Lemma names_same {A} (f : A -> string) P la lb (I : forall n, In n (map f la) <-> In n P) (J : forall n, In n (map f lb) <-> In n P) n :
  In n (map f la) <-> In n (map f lb).
Proof. now rewrite I, J. Qed.

Lemma views_both l la lb :
  (forall n, In n (map vw_name la) <-> In n (map vw_name (views_in l))) -> (forall n, In n (map vw_name lb) <-> In n (map vw_name (views_in l))) ->
  (forall v, In v (views_in l) -> exists v', In v' la /\ vw_name v' = vw_name v /\ same_letters (vw_definition v') (vw_definition v)) ->
  (forall v, In v (views_in l) -> exists v', In v' lb /\ vw_name v' = vw_name v /\ same_letters (vw_definition v') (vw_definition v)) ->
  same_views la lb.
Proof.
  intros NA NB A B. split; [now apply (names_same vw_name (map vw_name (views_in l)))|].
  intros n I. apply NA in I. apply in_map_iff in I as (v & <- & V). destruct (A v V) as (a & Ia & Na & La). destruct (B v V) as (b & Ib & Nb & Lb).
  exists a, b. unfold same_letters in *. repeat split; try assumption; congruence.
Qed.

Lemma bodies_both (a b c : list string) :
  Forall2 (fun a b => same_letters (remove_char " " a) (remove_char " " b)) a c -> Forall2 (fun a b => same_letters (remove_char " " a) (remove_char " " b)) b c ->
  Forall2 (fun x y => to_lower (remove_char " " x) = to_lower (remove_char " " y)) a b.
Proof. intros A. revert b. unfold same_letters. induction A; intros b B; inversion B; subst; constructor; auto. congruence. Qed.

Lemma triggers_both l la lb :
  (forall n, In n (map tr_name la) <-> In n (map tr_name (triggers_in l))) -> (forall n, In n (map tr_name lb) <-> In n (map tr_name (triggers_in l))) ->
  (forall v, In v (triggers_in l) -> exists v', In v' la /\ tr_name v' = tr_name v /\ trigger_matches v' v) ->
  (forall v, In v (triggers_in l) -> exists v', In v' lb /\ tr_name v' = tr_name v /\ trigger_matches v' v) ->
  same_triggers la lb.
Proof.
  intros NA NB A B. split; [now apply (names_same tr_name (map tr_name (triggers_in l)))|].
  intros n I. apply NA in I. apply in_map_iff in I as (v & <- & V). destruct (A v V) as (a & Ia & Na & A1 & A2 & A3 & A4). destruct (B v V) as (b & Ib & Nb & B1 & B2 & B3 & B4).
  exists a, b. repeat (split; [first [assumption|congruence]|]). eauto using bodies_both.
Qed.

(** The table of the file for a table of the database. *)
Lemma table_of {T} (nm : T -> string) l la n (I : forall n, In n (map nm la) <-> In n (created l)) :
  In n (map nm la) -> exists t, In t (tables_in l) /\ t_name t = n.
Proof. intros H. apply I in H. unfold created in H. apply in_map_iff in H as (t & E & H). eauto. Qed.

Lemma same_element {A} (f : A -> string) l x y : NoDup (map f l) -> In x l -> In y l -> f x = f y -> x = y.
Proof.
  induction l as [|z l IH]; cbn; [contradiction|]. intros N. inversion N as [|? ? N1 N2]; subst. intros [->|X] [->|Y] E; auto.
  - exfalso. apply N1. rewrite E. now apply in_map.
  - exfalso. apply N1. rewrite <- E. now apply in_map.
Qed.

(** ** MySQL *)
Lemma column_both c a b : column_reached a c -> column_reached b c -> column_said c a b.
Proof.
  intros (NA & (TA & UA & LA & _ & _ & _ & CA & OA & VA) & DA & IA) (NB & (TB & UB & LB & _ & _ & _ & CB & OB & VB) & DB & IB).
  destruct TA as (TA & EA & GA & _). destruct TB as (TB & EB & GB & _).
  constructor; try congruence.
  - eapply rst_trans; [exact TA|now apply rst_sym].
  - now rewrite LA, LB.
  - unfold same_value in VA, VB. destruct (c_onupdate c), (c_onupdate a), (c_onupdate b); try contradiction; [|reflexivity]. cbn. f_equal. destruct VA as (_ & VA & _). destruct VB as (_ & VB & _). congruence.
  - now apply default_both.
  - intros N x y X Y. destruct (c_length c) as [z|]; [|contradiction]. rewrite (GA _ _ X eq_refl). symmetry. now apply GB.
  - intros N. destruct CA, CB; congruence.
  - intros N. destruct OA, OB; congruence.
Qed.

Lemma columns_both lc la lb : Forall2 column_reached la lc -> Forall2 column_reached lb lc -> columns_said lc la lb.
Proof. intros A. revert lb. induction A; intros lb B; inversion B; subst; constructor; eauto using column_both. Qed.

Lemma columns_names lc la lb : columns_said lc la lb -> map c_name la = map c_name lb.
Proof. induction 1 as [|c a b lc la lb H _ IH]; cbn; [reflexivity|]. now rewrite (cs_name _ _ _ H), IH. Qed.

Lemma table_both l t a b : table_reached l t a -> table_reached l t b -> table_said l t a b.
Proof.
  intros A B. assert (C := columns_both _ _ _ (tr_columns _ _ _ A) (tr_columns _ _ _ B)). constructor.
  - exact C.
  - exact (columns_names _ _ _ C).
  - intros i I. apply keys_both; [exact (tr_keys _ _ _ A i I)|exact (tr_keys _ _ _ B i I)].
  - intros k K. apply in_app_iff in K as [K|K]; [exact (tr_other_keys _ _ _ A k K)|exact (tr_other_keys _ _ _ B k K)].
  - intros f F. apply fks_both; [exact (tr_fks _ _ _ A f F)|exact (tr_fks _ _ _ B f F)].
  - apply (names_same fk_constraint (map fk_constraint (t_fks t))); intros n; split.
    + intros I. apply in_map_iff in I as (f & <- & F). exact (tr_other_fks _ _ _ A f F).
    + intros I. apply in_map_iff in I as (f & <- & F). destruct (tr_fks _ _ _ A f F) as (g & G & E & _). rewrite <- E. now apply in_map.
    + intros I. apply in_map_iff in I as (f & <- & F). exact (tr_other_fks _ _ _ B f F).
    + intros I. apply in_map_iff in I as (f & <- & F). destruct (tr_fks _ _ _ B f F) as (g & G & E & _). rewrite <- E. now apply in_map.
Qed.

Lemma my_both l a b : catalogue_ok a -> reached l a -> reached l b -> my_agree l a b.
Proof.
  intros K A B. constructor.
  - exact (names_same t_name (created l) _ _ (re_tables _ _ A) (re_tables _ _ B)).
  - intros x X. destruct (table_of t_name l _ (t_name x) (re_tables _ _ A) (in_map t_name _ _ X)) as (t & T & E).
    destruct (re_table _ _ A t T) as (x' & X' & N & R). destruct (re_table _ _ B t T) as (y & Y & M & S).
    assert (x' = x) by (apply (same_element t_name (cat_tables a)); [exact (co_tables _ K)|exact X'|exact X|congruence]). subst x'.
    exists y, t. eauto 10 using table_both.
  - exact (views_both l _ _ (re_views _ _ A) (re_views _ _ B) (re_view _ _ A) (re_view _ _ B)).
  - exact (triggers_both l _ _ (re_triggers _ _ A) (re_triggers _ _ B) (re_trigger _ _ A) (re_trigger _ _ B)).
Qed.

Theorem my_same_file l a b outa outb :
  mysql_schema l -> catalogue_ok a -> catalogue_ok b -> convertible l a -> convertible l b ->
  plan Mysql l (dump a) = Ok outa -> plan Mysql l (dump b) = Ok outb ->
  exists a' b', run_all outa a = Some a' /\ run_all outb b = Some b' /\ my_agree l a' b' /\ my_agree l b' a'.
Proof.
  intros S KA KB VA VB PA PB. destruct (converges l a outa S KA VA PA) as (a' & RA & HA & OA & _). destruct (converges l b outb S KB VB PB) as (b' & RB & HB & OB & _).
  exists a', b'. eauto 10 using my_both.
Qed.

(** ** PostgreSQL *)
Lemma pg_column_both t c a b : pg_column_reached t a c -> pg_column_reached t b c -> pg_column_said c a b.
Proof.
  intros (NA & (A1 & A2 & A3 & A4 & A5 & A6) & LA & IA & DA & KA & HA) (NB & (B1 & B2 & B3 & B4 & B5 & B6) & LB & IB & DB & KB & HB).
  constructor; try congruence; [now rewrite LA, LB|now apply default_both].
Qed.

Lemma letters_both (a b c : list string) : Forall2 same_letters a c -> Forall2 same_letters b c -> map to_lower a = map to_lower b.
Proof. intros A. revert b. unfold same_letters. induction A as [|x z a c X A IH]; intros b B; inversion B as [|y ? b' ? Y B']; subst; cbn; [reflexivity|]. rewrite X, Y. f_equal. now apply IH. Qed.

Lemma policy_both a b c : policy_same a c -> policy_same b c -> same_policy a b.
Proof.
  unfold policy_same, same_letters. intros (A1 & A2 & A3 & A4 & A5) (B1 & B2 & B3 & B4 & B5). repeat (split; [congruence|]). eapply letters_both; eassumption.
Qed.

Lemma pg_table_both l t a b : sound a -> pg_reached l t a -> pg_reached l t b -> pg_table_said l t a b.
Proof.
  intros S A B.
  assert (NA : forall n, In n (map c_name (g_columns a)) <-> In n (map c_name (t_columns t))).
  { intros n. split; intros I; apply in_map_iff in I as (x & <- & X); [exact (pr_other_columns _ _ _ A x X)|]. destruct (pr_column _ _ _ A x X) as (y & Y & E & _). rewrite <- E. now apply in_map. }
  assert (NB : forall n, In n (map c_name (g_columns b)) <-> In n (map c_name (t_columns t))).
  { intros n. split; intros I; apply in_map_iff in I as (x & <- & X); [exact (pr_other_columns _ _ _ B x X)|]. destruct (pr_column _ _ _ B x X) as (y & Y & E & _). rewrite <- E. now apply in_map. }
  assert (PA : forall n, In n (map p_name (g_policies a)) <-> In n (map p_name (policies_on (t_name t) l))).
  { intros n. split; intros I; apply in_map_iff in I as (x & <- & X); [exact (pr_other_policies _ _ _ A x X)|]. destruct (pr_policy _ _ _ A x X) as (y & Y & E & _). rewrite <- E. now apply in_map. }
  assert (PB : forall n, In n (map p_name (g_policies b)) <-> In n (map p_name (policies_on (t_name t) l))).
  { intros n. split; intros I; apply in_map_iff in I as (x & <- & X); [exact (pr_other_policies _ _ _ B x X)|]. destruct (pr_policy _ _ _ B x X) as (y & Y & E & _). rewrite <- E. now apply in_map. }
  constructor.
  - exact (names_same c_name _ _ _ NA NB).
  - intros x X. assert (I := pr_other_columns _ _ _ A x X). apply in_map_iff in I as (c & E & C).
    destruct (pr_column _ _ _ A c C) as (x' & X' & RX). destruct (pr_column _ _ _ B c C) as (y & Y & RY).
    assert (x' = x) by (apply (same_element c_name (g_columns a)); [exact (so_names _ S)|exact X'|exact X|destruct RX; congruence]). subst x'.
    exists y, c. split; [exact Y|]. split; [exact C|]. split; [now symmetry|]. eapply pg_column_both; eassumption.
  - rewrite (pr_pk _ _ _ A _ (primary_key_declared t)). symmetry. exact (pr_pk _ _ _ B _ (primary_key_declared t)).
  - intros i I. apply keys_both; [exact (pr_index _ _ _ A i I)|exact (pr_index _ _ _ B i I)].
  - intros k K. apply in_app_iff in K as [K|K]; [exact (pr_other_indexes _ _ _ A k K)|exact (pr_other_indexes _ _ _ B k K)].
  - intros f F. apply fks_both; [exact (pr_fk _ _ _ A f F)|exact (pr_fk _ _ _ B f F)].
  - intros f K. apply in_app_iff in K as [K|K]; [exact (pr_other_fks _ _ _ A f K)|exact (pr_other_fks _ _ _ B f K)].
  - exact (names_same p_name _ _ _ PA PB).
  - intros x X. assert (I := pr_other_policies _ _ _ A x X). apply in_map_iff in I as (p & E & P).
    destruct (pr_policy _ _ _ A p P) as (x' & X' & NX & RX). destruct (pr_policy _ _ _ B p P) as (y & Y & NY & RY).
    assert (x' = x) by (apply (same_element p_name (g_policies a)); [exact (so_policies _ S)|exact X'|exact X|congruence]). subst x'.
    exists y. split; [exact Y|]. split; [congruence|]. eapply policy_both; eassumption.
Qed.

Lemma pg_both l a b : database_ok a -> db_reached l a -> db_reached l b -> pg_agree l a b.
Proof.
  intros K A B. constructor.
  - exact (names_same g_name (created l) _ _ (dr_tables _ _ A) (dr_tables _ _ B)).
  - intros x X. destruct (table_of g_name l _ (g_name x) (dr_tables _ _ A) (in_map g_name _ _ X)) as (t & T & E).
    destruct (dr_table _ _ A t T) as (x' & X' & N & R). destruct (dr_table _ _ B t T) as (y & Y & M & S).
    assert (x' = x) by (apply (same_element g_name (db_tables a)); [exact (do_tables _ K)|exact X'|exact X|congruence]). subst x'.
    exists y, t. split; [exact Y|]. split; [exact T|]. split; [exact N|]. split; [exact M|]. apply pg_table_both; [now apply (do_sound _ K)|exact R|exact S].
  - exact (views_both l _ _ (dr_views _ _ A) (dr_views _ _ B) (dr_view _ _ A) (dr_view _ _ B)).
Qed.

Theorem pg_same_file castable replaceable l a b outa outb :
  pg_schema l -> database_ok a -> database_ok b -> pg_convertible castable replaceable l a -> pg_convertible castable replaceable l b ->
  plan Postgres l (pg_dump a) = Ok outa -> plan Postgres l (pg_dump b) = Ok outb ->
  exists a' b', execute_all g_name pg_create (pg_alter castable) replaceable outa a = Some a' /\
    execute_all g_name pg_create (pg_alter castable) replaceable outb b = Some b' /\ pg_agree l a' b' /\ pg_agree l b' a'.
Proof.
  intros S KA KB VA VB PA PB. destruct (pg_converges castable replaceable l a outa S KA VA PA) as (a' & RA & HA & OA & _).
  destruct (pg_converges castable replaceable l b outb S KB VB PB) as (b' & RB & HB & OB & _). exists a', b'. eauto 10 using pg_both.
Qed.

(** ** SQL Server *)
Lemma ms_column_both t c a b : ms_column_reached t a c -> ms_column_reached t b c -> ms_column_said c a b.
Proof.
  intros (NA & (A1 & A2 & A3 & A4 & A5 & A6 & A7) & DA & KA) (NB & (B1 & B2 & B3 & B4 & B5 & B6 & B7) & DB & KB).
  unfold check_matches in KA, KB. destruct KA as [KA _], KB as [KB _].
  constructor; try congruence; [now rewrite A4, B4|now apply default_both| |];
    (destruct (c_check a), (c_check b), (c_check c); try contradiction; try reflexivity; cbn; f_equal; destruct KA, KB; congruence).
Qed.

Lemma ms_table_both l t a b : ms_sound a -> ms_reached l t a -> ms_reached l t b -> ms_table_said l t a b.
Proof.
  intros S A B.
  assert (NA : forall n, In n (map c_name (m_columns a)) <-> In n (map c_name (t_columns t))).
  { intros n. split; intros I; apply in_map_iff in I as (x & <- & X); [exact (mr_other_columns _ _ _ A x X)|]. destruct (mr_column _ _ _ A x X) as (y & Y & E & _). rewrite <- E. now apply in_map. }
  assert (NB : forall n, In n (map c_name (m_columns b)) <-> In n (map c_name (t_columns t))).
  { intros n. split; intros I; apply in_map_iff in I as (x & <- & X); [exact (mr_other_columns _ _ _ B x X)|]. destruct (mr_column _ _ _ B x X) as (y & Y & E & _). rewrite <- E. now apply in_map. }
  assert (IA : forall n, In n (map i_name (m_indexes a)) <-> In n (map i_name (ms_indexes l t))).
  { intros n. split; intros I; apply in_map_iff in I as (x & <- & X); [exact (mr_other_indexes _ _ _ A x X)|]. destruct (mr_index _ _ _ A x X) as (y & Y & E & _). rewrite <- E. now apply in_map. }
  assert (IB : forall n, In n (map i_name (m_indexes b)) <-> In n (map i_name (ms_indexes l t))).
  { intros n. split; intros I; apply in_map_iff in I as (x & <- & X); [exact (mr_other_indexes _ _ _ B x X)|]. destruct (mr_index _ _ _ B x X) as (y & Y & E & _). rewrite <- E. now apply in_map. }
  assert (FA : forall n, In n (map fk_constraint (m_fks a)) <-> In n (map fk_constraint (t_fks t))).
  { intros n. split; intros I; apply in_map_iff in I as (x & <- & X); [exact (mr_other_fks _ _ _ A x X)|]. destruct (mr_fk _ _ _ A x X) as (y & Y & E & _). rewrite <- E. now apply in_map. }
  assert (FB : forall n, In n (map fk_constraint (m_fks b)) <-> In n (map fk_constraint (t_fks t))).
  { intros n. split; intros I; apply in_map_iff in I as (x & <- & X); [exact (mr_other_fks _ _ _ B x X)|]. destruct (mr_fk _ _ _ B x X) as (y & Y & E & _). rewrite <- E. now apply in_map. }
  constructor.
  - exact (names_same c_name _ _ _ NA NB).
  - intros x X. assert (I := mr_other_columns _ _ _ A x X). apply in_map_iff in I as (c & E & C).
    destruct (mr_column _ _ _ A c C) as (x' & X' & RX). destruct (mr_column _ _ _ B c C) as (y & Y & RY).
    assert (x' = x) by (apply (same_element c_name (m_columns a)); [exact (mo_names _ S)|exact X'|exact X|destruct RX; congruence]). subst x'.
    exists y, c. split; [exact Y|]. split; [exact C|]. split; [now symmetry|]. eapply ms_column_both; eassumption.
  - assert (D := primary_key_declared t). assert (KA := mr_key _ _ _ A _ D). assert (KB := mr_key _ _ _ B _ D). destruct (primary_key t) as [i|]; cbn in KA, KB.
    + right. destruct KA as (x & X & MX & _), KB as (y & Y & MY & _). exists i, x, y. split; [exact X|]. split; [exact Y|]. split; [exact D|]. now apply key_both.
    + left. now split.
  - intros i I. apply keys_both; [exact (mr_index _ _ _ A i I)|exact (mr_index _ _ _ B i I)].
  - exact (names_same i_name _ _ _ IA IB).
  - intros f F. apply fks_both; [exact (mr_fk _ _ _ A f F)|exact (mr_fk _ _ _ B f F)].
  - exact (names_same fk_constraint _ _ _ FA FB).
Qed.

Lemma ms_both l a b : ms_database_ok a -> ms_db_reached l a -> ms_db_reached l b -> ms_agree l a b.
Proof.
  intros K A B. constructor.
  - exact (names_same m_name (created l) _ _ (md_tables _ _ A) (md_tables _ _ B)).
  - intros x X. destruct (table_of m_name l _ (m_name x) (md_tables _ _ A) (in_map m_name _ _ X)) as (t & T & E).
    destruct (md_table _ _ A t T) as (x' & X' & N & R). destruct (md_table _ _ B t T) as (y & Y & M & S).
    assert (x' = x) by (apply (same_element m_name (db_tables a)); [exact (mo_tables _ K)|exact X'|exact X|congruence]). subst x'.
    exists y, t. split; [exact Y|]. split; [exact T|]. split; [exact N|]. split; [exact M|]. apply ms_table_both; [now apply (mo_sound _ K)|exact R|exact S].
  - exact (views_both l _ _ (md_views _ _ A) (md_views _ _ B) (md_view _ _ A) (md_view _ _ B)).
  - exact (triggers_both l _ _ (md_triggers _ _ A) (md_triggers _ _ B) (md_trigger _ _ A) (md_trigger _ _ B)).
Qed.

Theorem ms_same_file w replaceable l a b outa outb :
  ms_names_given w -> ms_schema w l -> ms_database_ok a -> ms_database_ok b -> ms_convertible w l a -> ms_convertible w l b ->
  plan Mssql l (ms_shown a) = Ok outa -> plan Mssql l (ms_shown b) = Ok outb ->
  exists a' b', execute_all m_name (ms_create w) (ms_alter w) replaceable outa a = Some a' /\
    execute_all m_name (ms_create w) (ms_alter w) replaceable outb b = Some b' /\ ms_agree l a' b' /\ ms_agree l b' a'.
Proof.
  intros G S KA KB VA VB PA PB. destruct (ms_converges w replaceable l a outa G S KA VA PA) as (a' & RA & HA & OA & _).
  destruct (ms_converges w replaceable l b outb G S KB VB PB) as (b' & RB & HB & OB & _). exists a', b'. eauto 10 using ms_both.
Qed.

(** ** SQLite *)
Lemma lite_held l a : lite_ok a -> lite_reached l a -> forall n o, holds a n o ->
  (exists t, o = LTable t /\ In t (tables_in l) /\ t_name t = n) \/
  (exists d v, o = LView d /\ In v (views_in l) /\ vw_name v = n /\ same_letters d (vw_definition v)).
Proof.
  intros K R n o H. assert (I := lh_other _ _ R n o H). apply in_app_iff in I as [I|I].
  - unfold created in I. apply in_map_iff in I as (t & <- & T). left. exists t. split; [|now split]. exact (holds_unique a _ _ _ K H (lh_table _ _ R t T)).
  - apply in_map_iff in I as (v & <- & V). right. destruct (lh_view _ _ R v V) as (d & D & E). exists d, v. split; [|now repeat split]. exact (holds_unique a _ _ _ K H D).
Qed.

Lemma lite_both l a b : lite_ok a -> lite_ok b -> lite_reached l a -> lite_reached l b -> lite_agree a b.
Proof.
  assert (W : forall a b, lite_ok a -> lite_ok b -> lite_reached l a -> lite_reached l b ->
    (forall n t, holds a n (LTable t) -> holds b n (LTable t)) /\ (forall n, (exists d, holds a n (LView d)) -> exists d, holds b n (LView d))).
  { intros x y KX KY RX RY. split.
    - intros n t H. destruct (lite_held l x KX RX _ _ H) as [(t' & E & T & <-)|(d & v & E & _)]; [|discriminate]. injection E as ->. exact (lh_table _ _ RY _ T).
    - intros n (d & H). destruct (lite_held l x KX RX _ _ H) as [(t' & E & _)|(d' & v & _ & V & <- & _)]; [discriminate|]. destruct (lh_view _ _ RY v V) as (e & F & _). now exists e. }
  intros KA KB RA RB. destruct (W a b KA KB RA RB) as [T1 V1]. destruct (W b a KB KA RB RA) as [T2 V2]. split; [|split].
  - intros n t. split; auto.
  - intros n. split; auto.
  - intros n x y X Y. destruct (lite_held l a KA RA _ _ X) as [(t' & E & _)|(d & v & E & V & <- & M)]; [discriminate|]. injection E as <-.
    destruct (lh_view _ _ RB v V) as (e & F & G). assert (Z := holds_unique b _ _ _ KB Y F). injection Z as ->. unfold same_letters in *. congruence.
Qed.

Theorem lite_same_file file l a b ca cb :
  parse_file SQLite3 file = Ok l -> lite_schema l -> lite_ok a -> lite_ok b -> lite_convertible l a -> lite_convertible l b ->
  lite_dump a = Some ca -> lite_dump b = Some cb ->
  exists outa outb, plan_text SQLite3 file ca = Ok (map s_text outa) /\ plan_text SQLite3 file cb = Ok (map s_text outb) /\
    (exists a', executes_all outa a a') /\ (exists b', executes_all outb b b') /\
    forall a' b', executes_all outa a a' -> executes_all outb b b' -> lite_agree a' b'.
Proof.
  intros P S KA KB VA VB DA DB. destruct (sqlite_run file l a ca P S KA VA DA) as (da & oa & _ & _ & XA & EA & FA). destruct (sqlite_run file l b cb P S KB VB DB) as (dbs & ob & _ & _ & XB & EB & FB).
  assert (W : forall out m, (forall pre s post m1, out = pre ++ s :: post -> executes_all pre m m1 -> exists m2, executes s m1 m2) -> exists m', executes_all out m m').
  { intros out. induction out as [|s out IH]; intros m H; [exists m; constructor|]. destruct (H [] s out m eq_refl (ea_nil m)) as (m1 & E1).
    destruct (IH m1) as (m' & E').
    - intros pre s' post m2 -> Y. exact (H (s :: pre) s' post m2 eq_refl (ea_cons _ _ _ _ _ E1 Y)).
    - exists m'. econstructor; eassumption. }
  exists oa, ob. split; [exact XA|]. split; [exact XB|]. split; [now apply W|]. split; [now apply W|].
  intros a' b' A B. destruct (FA a' A) as [OA RA]. destruct (FB b' B) as [OB RB]. exact (lite_both l a' b' OA OB RA RB).
Qed.
