(** Proofs about exported indexes and views of PostgreSQL and hidden tables of SQLite. *)
From Coq Require Import String Ascii List ZArith Bool Lia Permutation.
From Verif Require Import GoStr GoStrFacts Ast Formatter SpecReadback ProofReadback SchemaText SqlAst SchemaParse Catalog AdapterPostgres AdapterMssql AdapterSqlite SpecExport
  ProofText ProofExport ProofCatalog.
Import ListNotations.
Local Open Scope string_scope.

Lemma has_suffix_spec s p : has_suffix s p = true <-> exists x, s = x ++ p.
Proof.
  induction s as [|a s IH]; cbn [has_suffix].
  - rewrite orb_false_r, String.eqb_eq. split.
    + intros <-. now exists "".
    + intros (x & H). now destruct x.
  - rewrite orb_true_iff, String.eqb_eq, IH. split.
    + intros [<-|(x & ->)]; [now exists ""|now exists (String a x)].
    + intros ([|b x] & H); cbn in H; [now left|]. injection H as <- ->. right. now exists x.
Qed.

Lemma index_defs_exact db t : the_table db t -> Forall (fun i => no_edge (pi_name i)) (pt_indexes t) ->
  exists l, get_index_defs db (full_name t) = map pi_def l /\
    (forall i, In i l <-> In i (pt_indexes t) /\ ~ named_like_primary i) /\
    (NoDup (pt_indexes t) -> NoDup l).
Proof.
  intros T N. exists (filter (fun i => negb (has_suffix (trim_set (dq ++ " ") (pi_name i)) "_pkey")) (pt_indexes t)).
  split; [|split].
  - unfold get_index_defs. rewrite split_full by apply T. rewrite (filter_table db t T). cbn [flat_map]. now rewrite app_nil_r.
  - intros i. rewrite filter_In, negb_true_iff. split; intros [I H]; (split; [exact I|]);
      rewrite no_edge_trim in * by exact (proj1 (Forall_forall _ _) N i I).
    + intros X. apply has_suffix_spec in X. congruence.
    + apply not_true_iff_false. rewrite has_suffix_spec. exact H.
  - apply NoDup_filter.
Qed.

(** ** SQLite *)
Lemma to_lower_length s : String.length (to_lower s) = String.length s.
Proof. induction s as [|a s IH]; cbn; [reflexivity|]. now rewrite IH. Qed.

Lemma like_sqlite_spec s : like_sqlite s = true <-> lite_hidden s.
Proof.
  unfold like_sqlite, lite_hidden. rewrite andb_true_iff, has_prefix_spec, Nat.ltb_lt, <- (to_lower_length s). split.
  - intros [(r & E) L]. rewrite E in *. rewrite sapp_length in L. cbn in L. destruct r as [|c r]; [cbn in L; lia|]. now exists c, r.
  - intros (c & r & E). rewrite E. split; [now exists (String c r)|]. rewrite sapp_length. cbn. lia.
Qed.

(** ** Views *)
Lemma remove_char_app c a b : remove_char c (a ++ b) = remove_char c a ++ remove_char c b.
Proof. induction a as [|x a IH]; cbn; [reflexivity|]. destruct (Ascii.eqb x c); cbn; now rewrite IH. Qed.

Lemma remove_word w : all_chars (fun c => negb (is_space c)) w = true -> remove_char newline w = w.
Proof.
  induction w as [|x w IH]; cbn [remove_char all_chars]; [reflexivity|]. rewrite andb_true_iff. intros [H R]. rewrite IH by exact R.
  destruct (Ascii.eqb_spec x newline) as [->|]; [discriminate|reflexivity].
Qed.

Lemma collapse_word b w r : word w -> collapse_spaces b (w ++ r) = w ++ collapse_spaces false r.
Proof.
  intros [N H]. destruct w as [|x w]; [congruence|]. clear N. cbn in H |- *. apply andb_true_iff in H. destruct H as [H R].
  destruct (Ascii.eqb_spec x " ") as [->|]; [discriminate|]. f_equal. clear H. revert R. induction w as [|y w IH]; [reflexivity|].
  cbn. rewrite andb_true_iff. intros [H R]. destruct (Ascii.eqb_spec y " ") as [->|]; [discriminate|]. now rewrite IH.
Qed.

Lemma collapse_gap g r : all_chars (fun c => Ascii.eqb c " " || Ascii.eqb c newline) g = true ->
  collapse_spaces true (remove_char newline g ++ r) = collapse_spaces true r.
Proof.
  induction g as [|x g IH]; cbn [remove_char all_chars append]; [reflexivity|]. rewrite andb_true_iff. intros [H R].
  destruct (Ascii.eqb_spec x newline) as [->|N]; [now apply IH|]. rewrite orb_false_r in H. cbn [append collapse_spaces]. rewrite H. now apply IH.
Qed.

Lemma collapse_sep g r : separates g -> collapse_spaces false (remove_char newline g ++ r) = " " ++ collapse_spaces true r.
Proof.
  intros [A B]. induction g as [|x g IH]; [discriminate|]. cbn [all_chars has_char] in A, B. apply andb_true_iff in A. destruct A as [A R].
  cbn [remove_char]. destruct (Ascii.eqb_spec x newline) as [->|N]; [cbn in B; now apply IH|]. rewrite orb_false_r in A. apply Ascii.eqb_eq in A. subst x.
  cbn. now rewrite collapse_gap.
Qed.

Lemma spaced_collapse s l : spaced s l -> forall b, collapse_spaces b (remove_char newline s) = join " " l.
Proof.
  induction 1 as [w W|w g s l W G S IH]; intros b.
  - rewrite remove_word by apply W. cbn [join]. rewrite <- (sapp_nil_r w) at 1. rewrite collapse_word by exact W. apply sapp_nil_r.
  - rewrite !remove_char_app, remove_word by apply W. rewrite collapse_word by exact W. rewrite collapse_sep by exact G.
    rewrite IH, join_cons. destruct S; reflexivity.
Qed.

Lemma first_app a b : a <> "" -> first_char (a ++ b) = first_char a.
Proof. now destruct a. Qed.

Lemma spaced_first s l : spaced s l -> exists a, first_char s = Some a /\ is_space a = false.
Proof.
  assert (G : forall w r, word w -> exists a, first_char (w ++ r) = Some a /\ is_space a = false).
  { intros w r [N H]. rewrite first_app by exact N. destruct w as [|x w]; [congruence|]. cbn in *. apply andb_true_iff in H.
    exists x. split; [reflexivity|]. now apply negb_true_iff. }
  intros [w W|w g s' l' W _ _]; [rewrite <- (sapp_nil_r w)|]; now apply G.
Qed.

Lemma clean_printed d l : printed_view d l -> clean_definition d = join " " l.
Proof.
  intros (lead & s & L & S & ->). unfold clean_definition.
  destruct (spaced_first s l S) as (a & A1 & A2).
  rewrite <- (sapp_nil_r (s ++ ";")).
  rewrite (trim_space_pad lead (s ++ ";") "" a ";") .
  - change (ascii_of_nat 10) with newline. rewrite remove_char_app. change (remove_char newline ";") with ";".
    rewrite trim_suffix_app by discriminate. now apply spaced_collapse.
  - exact L.
  - reflexivity.
  - rewrite first_app; [exact A1|]. intros ->. discriminate.
  - exact A2.
  - now rewrite last_char_app.
  - reflexivity.
Qed.

Lemma views_exact db words : NoDup (map pv_name (pd_views db)) ->
  Forall2 (fun v l => printed_view (pv_definition v) l) (pd_views db) words ->
  views db = map (fun p => "CREATE VIEW " ++ pv_schema (fst p) ++ "." ++ pv_name (fst p) ++ " AS " ++ join " " (snd p))
                 (combine (pd_views db) words).
Proof.
  intros N F. unfold views. set (all := pd_views db) in *.
  assert (G : forall v, In v all -> filter (fun d => String.eqb (pv_name v) (pv_name d)) all = [v]).
  { clear F words. induction all as [|x l IH]; intros v I; [easy|]. cbn [map] in N. inversion N as [|? ? N1 N2]; subst. cbn [filter].
    destruct I as [->|I].
    - rewrite String.eqb_refl, filter_none; [reflexivity|]. intros y J. apply String.eqb_neq. intros E. apply N1. rewrite E. now apply in_map.
    - destruct (String.eqb_spec (pv_name v) (pv_name x)) as [E|E]; [|now apply IH]. exfalso. apply N1. rewrite <- E. now apply in_map. }
  enough (H : forall l w, Forall2 (fun v l => printed_view (pv_definition v) l) l w -> (forall v, In v l -> In v all) ->
    flat_map (fun v => map (fun d => view_ddl (pv_schema v) (pv_name v) (pv_definition d))
                         (filter (fun d => String.eqb (pv_name v) (pv_name d)) all)) l =
    map (fun p => "CREATE VIEW " ++ pv_schema (fst p) ++ "." ++ pv_name (fst p) ++ " AS " ++ join " " (snd p)) (combine l w))
    by (apply H; auto).
  clear F words. intros l w F. induction F as [|v x l w P F IH]; intros I; [reflexivity|]. cbn [flat_map combine map fst snd].
  rewrite G by (apply I; now left). cbn [map app]. unfold view_ddl. rewrite (clean_printed _ _ P). f_equal. apply IH. intros y J. apply I. now right.
Qed.

(** ** SQL Server: order of the indexes *)
Lemma permutation_short {A} (a b : list A) : Permutation a b -> List.length a <= 1 -> a = b.
Proof.
  intros P L. destruct a as [|x [|y a]]; [now apply Permutation_nil in P|now apply Permutation_length_1_inv in P|cbn in L; lia].
Qed.

Lemma permutation_filter {A} (f : A -> bool) a b : Permutation a b -> Permutation (filter f a) (filter f b).
Proof.
  induction 1 as [|x a b P IH|x y a|a b c P1 IH1 P2 IH2]; cbn.
  - constructor.
  - destruct (f x); auto.
  - destruct (f x), (f y); auto. constructor.
  - now transitivity (filter f b).
Qed.

Lemma ms_export_stable table cols catalogue shown shown' fks :
  index_order catalogue shown -> index_order catalogue shown' ->
  List.length (filter mi_primary catalogue) <= 1 ->
  List.length (filter (fun i => negb (mi_primary i)) catalogue) <= 1 ->
  ms_build_dump table cols shown fks = ms_build_dump table cols shown' fks.
Proof.
  intros A B L M. unfold ms_build_dump, ms_create_text.
  rewrite <- (permutation_short _ _ (permutation_filter mi_primary _ _ A) L).
  rewrite <- (permutation_short _ _ (permutation_filter mi_primary _ _ B) L).
  rewrite <- (permutation_short _ _ (permutation_filter (fun i => negb (mi_primary i)) _ _ A) M).
  rewrite <- (permutation_short _ _ (permutation_filter (fun i => negb (mi_primary i)) _ _ B) M).
  reflexivity.
Qed.

(** ** Names of CHECK constraints *)
Lemma format_id_same n : format_id n = n <-> bare_name n = true.
Proof.
  rewrite format_id_eq. destruct (bare_name n); [easy|]. split; [|discriminate]. intros H. exfalso.
  apply (f_equal String.length) in H. rewrite !sapp_length, backticked_doubled in H. cbn in H.
  pose proof (doubled_length "`" n). lia.
Qed.

Lemma check_name_exact options position d k : ct_check (cd_type d) = Some k -> sc_constraint k <> "" ->
  exists c, c_check (parse_column options position d) = Some c /\
    (ck_constraint c = sc_constraint k <-> plain_name (sc_constraint k)).
Proof.
  intros H N. unfold parse_column. cbn [c_check]. rewrite H. cbn [parse_check option_map]. eexists. split; [reflexivity|].
  cbn [ck_constraint]. rewrite format_id_same, plain_name_spec. tauto.
Qed.
