(** The export of a SQL Server database, from the views of its catalogue on. *)
From Coq Require Import String Ascii List ZArith Bool Permutation Lia.
From Verif Require Import GoStr GoStrFacts Ast Generator Catalog AdapterPostgres AdapterMssql ExportMssql QueryMssql SchemaText SchemaParse Parser Planner SpecPlan SpecLayout SpecShown SpecShownMssql SpecSysMssql
  ProofPg ProofPlan ProofReadMsExport ProofSysMssql.
Import ListNotations.
Local Open Scope string_scope.
Local Open Scope list_scope.

(** ** Indexes with one text *)
Definition same_text (a b : ms_index) : Prop :=
  mi_name a = mi_name b /\ mi_primary a = mi_primary b /\ mi_unique a = mi_unique b /\ mi_type a = mi_type b /\ mi_options a = mi_options b /\
  key_columns a = key_columns b /\ included_columns a = included_columns b.
Lemma same_dump n cols a b fks : Forall2 same_text a b -> ms_build_dump n cols a fks = ms_build_dump n cols b fks.
Proof.
  intros F. assert (T : map primary_text (filter mi_primary a) = map primary_text (filter mi_primary b) /\
    map (index_text n) (filter (fun i => negb (mi_primary i)) a) = map (index_text n) (filter (fun i => negb (mi_primary i)) b)).
  { induction F as [|x y a b S F IH]; [now split|]. destruct S as (S1 & S2 & S3 & S4 & S5 & S6 & S7). destruct IH as [I1 I2]. cbn [filter]. rewrite S2. destruct (mi_primary y); cbn [negb map].
    - split; [|exact I2]. rewrite I1. f_equal. unfold primary_text, type_text, options_text. now rewrite S1, S4, S5, S6.
    - split; [exact I1|]. rewrite I2. f_equal. unfold index_text, type_text, options_text. now rewrite S1, S3, S4, S5, S6, S7. }
  destruct T as [T1 T2]. unfold ms_build_dump, ms_create_text. now rewrite T1, T2.
Qed.

Lemma index_lifted p i r : index_permuted (mq_index_row p i) r -> exists j, key_permuted i j /\ same_text (ms_index_of r) (ms_index_of (mq_index_row p j)).
Proof.
  intros (E & P). cbn [mq_index_row mir_columns] in P.
  assert (Kf : filter (fun c => negb (mx_included c)) (map (fun c : string * bool => mkMsIndexColumn (fst c) (snd c) false) (mqi_columns i) ++ map (fun n => mkMsIndexColumn n false true) (mqi_included i)) =
    map (fun c : string * bool => mkMsIndexColumn (fst c) (snd c) false) (mqi_columns i)).
  { rewrite filter_app, filter_all, filter_none, app_nil_r; [reflexivity| |]; intros x X; apply in_map_iff in X as (y & <- & _); reflexivity. }
  assert (If : filter mx_included (map (fun c : string * bool => mkMsIndexColumn (fst c) (snd c) false) (mqi_columns i) ++ map (fun n => mkMsIndexColumn n false true) (mqi_included i)) =
    map (fun n => mkMsIndexColumn n false true) (mqi_included i)).
  { rewrite filter_app, filter_none, filter_all; [reflexivity| |]; intros x X; apply in_map_iff in X as (y & <- & _); reflexivity. }
  pose proof (perm_filter (fun c => negb (mx_included c)) _ _ P) as PK. pose proof (perm_filter mx_included _ _ P) as PI. rewrite Kf in PK. rewrite If in PI.
  apply Permutation_sym, Permutation_map_inv in PK as (ks & EK & QK). apply Permutation_sym, Permutation_map_inv in PI as (is & EI & QI).
  destruct ks as [|k ks]; [apply Permutation_sym, Permutation_nil_cons in QK; destruct QK|].
  exists (mkMqIndex (mqi_name i) (mqi_unique i) (mqi_clustered i) k ks is (mqi_options i)). split; [repeat (split; [reflexivity|]); split; [exact QK|exact QI]|].
  unfold emptied in E. injection E as E1 E2 E3 E4 E5 E6 E7 E8 E9 E10 E11. unfold same_text, ms_index_of, key_columns, included_columns.
  cbn [mi_name mi_primary mi_unique mi_type mi_options mi_columns]. rewrite EK, EI. rewrite <- E1, <- E2, <- E3, <- E4, <- E5, <- E6, <- E7, <- E8, <- E9, <- E10, <- E11.
  cbn [mq_index_row mir_name mir_primary mir_unique mir_type mir_columns mir_padded mir_fill mir_ignore_dup mir_no_recompute mir_incremental mir_row_locks mir_page_locks mqi_name mqi_unique mqi_clustered mqi_options mqi_included].
  change (mqi_columns {| mqi_name := mqi_name i; mqi_unique := mqi_unique i; mqi_clustered := mqi_clustered i; mqi_first := k; mqi_others := ks; mqi_included := is; mqi_options := mqi_options i |}) with (k :: ks).
  rewrite !filter_app.
  assert (A1 : forall l, filter (fun c => negb (mx_included c)) (map (fun c : string * bool => mkMsIndexColumn (fst c) (snd c) false) l) = map (fun c : string * bool => mkMsIndexColumn (fst c) (snd c) false) l).
  { intros l. apply filter_all. intros x X. apply in_map_iff in X as (y & <- & _). reflexivity. }
  assert (A2 : forall l, filter (fun c => negb (mx_included c)) (map (fun n => mkMsIndexColumn n false true) l) = []).
  { intros l. apply filter_none. intros x X. apply in_map_iff in X as (y & <- & _). reflexivity. }
  assert (A3 : forall l, filter mx_included (map (fun c : string * bool => mkMsIndexColumn (fst c) (snd c) false) l) = []).
  { intros l. apply filter_none. intros x X. apply in_map_iff in X as (y & <- & _). reflexivity. }
  assert (A4 : forall l, filter mx_included (map (fun n => mkMsIndexColumn n false true) l) = map (fun n => mkMsIndexColumn n false true) l).
  { intros l. apply filter_all. intros x X. apply in_map_iff in X as (y & <- & _). reflexivity. }
  rewrite A1, A2, A3, A4, app_nil_r. repeat split.
Qed.
Lemma indexes_lifted p o rs : Forall2 index_permuted (map (mq_index_row p) (listed o)) rs ->
  exists o', option_related key_permuted o o' /\ Forall2 same_text (map ms_index_of rs) (map ms_index_of (map (mq_index_row p) (listed o'))).
Proof.
  destruct o as [i|]; cbn [listed map]; intros F; inversion F as [|? r ? rs' R F']; subst.
  - inversion F'; subst. destruct (index_lifted p i r R) as (j & J & T). exists (Some j). split; [exact J|]. cbn [listed map]. constructor; [exact T|constructor].
  - exists None. split; [exact I|constructor].
Qed.
Lemma same_text_sym a b : same_text a b -> same_text b a.
Proof. intros (A & B & C & D & E & F & G). repeat split; now symmetry. Qed.

(** ** One table *)
Lemma table_dumped s ob t r : sys_keys s -> In ob (sys_objects s) -> so_type ob = "U" -> tells_table s ob (mq_table_row t) -> has_char "." (mqt_schema t) = false ->
  sys_dump_table s (so_schema ob ++ "." ++ so_name ob)%string r ->
  exists u text, r = Ok text /\ table_permuted t u /\
    exists shown, index_order (map ms_index_of (mst_indexes (mq_table_row u))) shown /\
      text = ms_build_dump (so_schema ob ++ "." ++ so_name ob)%string (mst_columns (mq_table_row u)) shown (mst_fks (mq_table_row u)).
Proof.
  intros K Io T (Es & En & C & X & N & H & F) D. cbn [mq_table_row mst_schema mst_name mst_columns mst_indexes mst_fks] in *.
  unfold sys_dump_table, split_table_name. change ("." ++ so_name ob)%string with (String "." (so_name ob)). rewrite split_first_spec by (rewrite <- Es; exact D).
  intros (cols & indexes & fks & RC & RX & RF & shown & S & ->).
  destruct (columns_told s K _ ob _ _ Io eq_refl T C RC) as (cs & -> & PC).
  destruct (indexes_told s K _ ob _ _ Io eq_refl H X N RX) as (l & l' & -> & PX & FX).
  destruct (fks_told s K _ ob _ _ Io eq_refl F RF) as (fs & -> & PF).
  apply Permutation_sym in PX. destruct (perm_forall2 _ _ _ PX _ FX) as (rs & PR & FR). apply Forall2_app_inv_l in FR as (r1 & r2 & F1 & F2 & ->).
  destruct (indexes_lifted _ _ _ F1) as (k' & K' & T1). destruct (indexes_lifted _ _ _ F2) as (i' & I' & T2).
  unfold index_order in S. assert (S' : Permutation (map ms_index_of (r1 ++ r2)) shown) by (eapply perm_trans; [apply Permutation_map, Permutation_sym; exact PR|exact S]).
  rewrite map_app in S'. destruct (perm_forall2 _ _ _ S' _ (Forall2_app T1 T2)) as (shown' & P' & TT).
  apply Permutation_sym, Permutation_map_inv in PC as (cs' & -> & QC). apply Permutation_sym, Permutation_map_inv in PF as (fs' & -> & QF).
  destruct cs' as [|c cs']; [apply Permutation_sym, Permutation_nil_cons in QC; destruct QC|].
  exists (mkMqTable (mqt_schema t) (mqt_name t) c cs' k' i' fs'), (ms_build_dump (so_schema ob ++ "." ++ so_name ob)%string (map mq_column_row (c :: cs')) shown (map mq_fk_row fs')).
  split; [reflexivity|]. split; [repeat (split; [reflexivity|]); split; [exact QC|]; split; [exact K'|]; split; [exact I'|exact QF]|].
  exists shown'. split; [cbn [mq_table_row mst_indexes mqt_key mqt_index]; unfold index_order; now rewrite map_app|]. now apply same_dump.
Qed.

(** ** What permutations keep *)
Lemma forallb_perm {A} (p : A -> bool) l l' : Permutation l l' -> forallb p l = true -> forallb p l' = true.
Proof. intros P H. rewrite forallb_forall in *. intros x I. apply H. eapply Permutation_in; [apply Permutation_sym; exact P|exact I]. Qed.
Lemma key_ok_permuted i j : key_permuted i j -> mq_index_ok i = true -> mq_index_ok j = true.
Proof.
  intros (A & _ & _ & B & C & D). unfold mq_index_ok. rewrite !andb_true_iff. intros [[[[H1 H2] H3] H4] H5]. rewrite <- A, <- B. repeat split; try assumption; eapply forallb_perm; eauto.
Qed.
Lemma table_ok_permuted t u : table_permuted t u -> mq_table_ok t = true -> mq_table_ok u = true.
Proof.
  intros (A & B & C & D & E & F). unfold mq_table_ok. rewrite !andb_true_iff. intros [[[[[H1 H2] H3] H4] H5] H6]. rewrite <- A, <- B. repeat split; try assumption.
  - eapply forallb_perm; eauto.
  - destruct (mqt_key t) as [i|], (mqt_key u) as [j|]; try contradiction D; [|reflexivity]. cbn [all_some option_related] in *. unfold mq_key_ok in *. rewrite !andb_true_iff in *.
    destruct H4 as [[H4 H7] H8]. pose proof (key_ok_permuted i j D H4). destruct D as (_ & D & _ & _ & _ & P). rewrite <- D. repeat split; try assumption. rewrite <- (Permutation_length P). exact H8.
  - destruct (mqt_index t) as [i|], (mqt_index u) as [j|]; try contradiction E; [|reflexivity]. cbn [all_some option_related] in *. now apply (key_ok_permuted i).
  - eapply forallb_perm; eauto.
Qed.
Lemma readable_permuted d e : database_permuted d e -> mq_readable d = true -> mq_readable e = true.
Proof.
  intros ((l & P & F) & V & T). unfold mq_readable. rewrite !andb_true_iff. intros [[[H1 H2] H3] H4].
  assert (L : forallb mq_table_ok l = true) by (eapply forallb_perm; eauto).
  assert (N : NoDup (map mqt_name l)) by (eapply Permutation_NoDup; [apply Permutation_map; exact P|now apply ProofPg.distinct_spec]).
  repeat split; try (eapply forallb_perm; eassumption).
  - clear -F L. induction F as [|t u l m R F IH]; [reflexivity|]. cbn [forallb] in *. apply andb_true_iff in L as [L1 L2]. apply andb_true_iff. split; [now apply (table_ok_permuted t)|now apply IH].
  - apply ProofPg.distinct_spec. replace (map mqt_name (mqd_tables e)) with (map mqt_name l); [exact N|]. clear -F. induction F as [|t u l m R F IH]; [reflexivity|]. cbn [map]. rewrite IH. f_equal. apply R.
Qed.

(** ** The whole export *)
Theorem sys_dump_told s d r : sys_tells s (mq_server d) -> mq_readable d = true -> sys_dump s r ->
  exists text e, r = Ok text /\ database_permuted d e /\ ms_dump (mq_server e) text.
Proof.
  intros [K FT FV VO FG] R (names & tables & views & triggers & (got & A & En) & D & RV & RG & ->). injection En as ->.
  destruct (mq_readable_parts d R) as (OT & _ & _ & _).
  rewrite (views_in_objects s K VO) in RV. destruct (modules_told s K _ _ _ FV RV) as (vs & -> & PV). destruct (modules_told s K _ _ _ FG RG) as (gs & -> & PG).
  apply Permutation_sym, Permutation_map_inv in PV as (vs' & -> & QV). apply Permutation_sym, Permutation_map_inv in PG as (gs' & -> & QG).
  destruct (perm_forall2 _ _ _ A _ FT) as (ts & PT & FT'). cbn [mq_server mss_tables] in PT. apply Permutation_sym, Permutation_map_inv in PT as (ts' & -> & QT).
  assert (U : forall ob, In ob got -> In ob (sys_objects s) /\ so_type ob = "U").
  { intros ob I. eapply Permutation_in in I; [|apply Permutation_sym; exact A]. apply filter_In in I as [I E]. split; [exact I|]. now apply String.eqb_eq. }
  assert (O : forall t, In t ts' -> mq_table_ok t = true) by (intros t I; apply OT; eapply Permutation_in; [apply Permutation_sym; exact QT|exact I]).
  assert (L : exists us texts, tables = Ok texts /\ Forall2 table_permuted ts' us /\
     Forall2 (fun u text => exists shown, index_order (map ms_index_of (mst_indexes (mq_table_row u))) shown /\
        text = ms_build_dump (mqt_schema u ++ "." ++ mqt_name u)%string (mst_columns (mq_table_row u)) shown (mst_fks (mq_table_row u))) us texts).
  { clear A QT FV FG VO. revert ts' FT' O U tables D. induction got as [|ob got IH]; intros ts' FT' O U tables D.
    - destruct ts'; [|inversion FT']. inversion D; subst. exists [], []. repeat split; constructor.
    - destruct ts' as [|t ts']; [inversion FT'|]. cbn [map] in *. inversion FT' as [|? ? ? ? T FT2]; subst. inversion D as [|? ? r rest Dr Drest]; subst.
      destruct (IH ts' FT2 (fun x X => O x (or_intror X)) (fun x X => U x (or_intror X)) rest Drest) as (us & texts & -> & F1 & F2).
      destruct (U ob (or_introl eq_refl)) as [Io Uo].
      assert (S : has_char "." (mqt_schema t) = false).
      { specialize (O t (or_introl eq_refl)). unfold mq_table_ok in O. rewrite !andb_true_iff in O. destruct O as [[[[[S _] _] _] _] _]. unfold mq_word in S. rewrite !andb_true_iff in S. destruct S as [[[_ S] _] _].
        apply (ProofReadMyExport.free_of mq_word_part); [intros c; destruct c as [[] [] [] [] [] [] [] []]; vm_compute; congruence|exact S]. }
      destruct (table_dumped s ob t r K Io Uo T S Dr) as (u & text & -> & Pu & shown & Su & Et).
      exists (u :: us), (text :: texts). cbn [bind]. split; [reflexivity|]. split; [now constructor|]. constructor; [|exact F2]. exists shown. split; [exact Su|].
      destruct T as (E1 & E2 & _). destruct Pu as (E3 & E4 & _). cbn [mq_table_row mst_schema mst_name] in *. rewrite <- E1, <- E2, E3, E4 in Et. exact Et. }
  destruct L as (us & texts & -> & FP & FTx). cbn [bind].
  set (e := mkMqDatabase us vs' gs'). assert (DP : database_permuted d e) by (split; [exists ts'; split; [exact QT|exact FP]|split; [exact QV|exact QG]]).
  pose proof (readable_permuted d e DP R) as Re.
  eexists _, e. split; [reflexivity|]. split; [exact DP|]. exists texts. split.
  - unfold ms_table_names. cbn [mq_server mss_tables]. rewrite map_map. cbn [mq_table_row mst_schema mst_name].
    assert (G : forall u, In u us -> ms_find (mq_server e) (mqt_schema u ++ "." ++ mqt_name u)%string = Some (mq_table_row u)) by (intros u I; now apply find_table).
    change (mqd_tables e) with us. clearbody e. clear -FTx G. induction FTx as [|u text us texts H F IH]; [constructor|]. cbn [map]. constructor.
    + unfold ms_dump_table. rewrite (G u (or_introl eq_refl)). exact H.
    + apply IH. intros x X. apply G. now right.
  - reflexivity.
Qed.
Theorem sys_dump_read s d r : sys_tells s (mq_server d) -> mq_readable d = true -> sys_dump s r ->
  exists text e l, r = Ok text /\ database_permuted d e /\ parse_file Mssql text = Ok l /\ map without_text l = mq_definitions e.
Proof.
  intros T R D. destruct (sys_dump_told s d r T R D) as (text & e & -> & P & X). destruct (ms_dump_read e text (readable_permuted d e P R) X) as (l & Q & E).
  exists text, e, l. repeat (split; [first [reflexivity|assumption]|]). exact E.
Qed.
