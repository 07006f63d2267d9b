(** SQLite: what the catalogue has, how statements change it, and how its export is read. *)
From Coq Require Import String Ascii List ZArith Bool Lia.
From Verif Require Import GoStr GoStrFacts Ast Generator SchemaText SchemaParse Parser Planner Catalog AdapterSqlite SpecText SpecExport SpecPlan SpecLayout SpecSqlite
  ProofRun ProofText ProofExport ProofExport3 ProofPlan.
Import ListNotations.
Local Open Scope string_scope.
Local Open Scope list_scope.

(** ** Texts and objects *)
Lemma statement_kept m text s d : parse_statement m text s = Ok d -> ddl_statement d = text.
Proof.
  unfold parse_statement. destruct s as [s|]; [|discriminate]. cbv zeta.
  repeat match goal with
  | |- (if ?b then _ else _) = _ -> _ => destruct b
  | |- bind ?x _ = _ -> _ => destruct x; cbn [bind]; try discriminate
  | |- match ?x with _ => _ end = _ -> _ => destruct x; try discriminate
  end; try discriminate; now intros [= <-].
Qed.
Lemma parse_kept m x d : parse_ddl parse_strict_ddl m x = Ok d -> ddl_statement d = x.
Proof. unfold parse_ddl. destruct (parse_strict_ddl m x); cbn [bind]; try discriminate. apply statement_kept. Qed.

Lemma means_unique x n o o' : means x n o -> means x n o' -> o = o'.
Proof.
  intros (_ & A) (_ & B). destruct o as [t|d], o' as [t'|d'].
  - destruct A as [A _], B as [B _]. rewrite A in B. now injection B as ->.
  - destruct A as [A _]. rewrite A in B. discriminate.
  - destruct B as [B _]. rewrite A in B. discriminate.
  - rewrite A in B. now injection B as ->.
Qed.

Lemma keeps_means x y n o : keeps x y -> means x n o -> means y n o.
Proof.
  intros (P & w & X & Y) (_ & M). split; [exact P|]. pose proof (same_meaning _ _ _ _ X Y) as E.
  destruct o as [t|d].
  - destruct M as [M N]. split; [|exact N]. rewrite M in E. cbn [in_ok without_text] in E.
    destruct (parse_ddl parse_strict_ddl SQLite3 y) as [z| | |] eqn:Z; try discriminate. pose proof (parse_kept _ _ _ Z) as K.
    cbn in E. destruct z; cbn in *; try discriminate. injection E as ->. now subst.
  - rewrite M in E. cbn [in_ok without_text] in E.
    destruct (parse_ddl parse_strict_ddl SQLite3 y) as [z| | |] eqn:Z; try discriminate. pose proof (parse_kept _ _ _ Z) as K.
    cbn in E. destruct z as [| | | | | |v|]; cbn in *; try discriminate. destruct v as [s n' d']. cbn in *. injection E as -> ->. now subst.
Qed.

Lemma object_row_dec r : {object_row r} + {~ object_row r}.
Proof.
  unfold object_row. destruct (string_dec (lr_type r) "view") as [V|V]; [now left; right|].
  destruct (string_dec (lr_type r) "table") as [T|T]; [|right; tauto].
  destruct (like_sqlite (lr_table r)) eqn:L.
  - right. apply like_sqlite_spec in L. tauto.
  - left. left. split; [exact T|]. intros H. apply like_sqlite_spec in H. congruence.
Qed.

(** ** One object for a name *)
Lemma one_row m r q : lite_ok m -> In r m -> In q m -> object_row r -> object_row q -> lr_table r = lr_table q -> r = q.
Proof.
  intros K R Q Or Oq E. apply in_split in R as (a & b & ->). apply in_app_or in Q as [Q|[Q|Q]]; [exfalso|exact Q|exfalso].
  - apply (lo_first _ K a r b eq_refl Or q Q). congruence.
  - apply in_split in Q as (c & d & ->). apply (lo_first _ K (a ++ r :: c) q d) with r; [now rewrite <- app_assoc|exact Oq| |exact E].
    apply in_or_app. right. now left.
Qed.

Lemma holds_unique m n o o' : lite_ok m -> holds m n o -> holds m n o' -> o = o'.
Proof.
  intros K (r & x & R & Or & Tr & Nr & Sr & Mr) (q & y & Q & Oq & Tq & Nq & Sq & Mq).
  assert (r = q) as <- by (apply (one_row m); congruence). rewrite Sr in Sq. injection Sq as <-. now apply (means_unique x n).
Qed.

Lemma holds_row m r : lite_ok m -> In r m -> object_row r -> exists o, holds m (lr_table r) o.
Proof. intros K R O. destruct (lo_means _ K r R O) as (_ & x & o & T & S & M). exists o, r, x. auto 10. Qed.

(** ** The catalogue as a map from names *)
Definition state := string -> option lite_object.
Definition tells (m : list lite_row) (st : state) : Prop := forall n o, holds m n o <-> st n = Some o.
Definition upd (st : state) (n : string) (o : option lite_object) : state := fun k => if String.eqb k n then o else st k.

Lemma upd_same st n o : upd st n o n = o.
Proof. unfold upd. now rewrite String.eqb_refl. Qed.
Lemma upd_other st n o k : k <> n -> upd st n o k = st k.
Proof. unfold upd. now destruct (String.eqb_spec k n). Qed.

Section Names.
(** The names of the file. *)
Variable N : list string.
Hypothesis HN : forall n, In n N -> ~ lite_hidden n.

Record inv (m : list lite_row) (st : state) : Prop := {
  in_ok_ : lite_ok m;
  in_tells : tells m st;
  in_names : forall r, In r m -> In (lr_name r) N -> object_row r /\ lr_table r = lr_name r }.

Lemma inv_free m st n : inv m st -> In n N -> st n = None -> free m n.
Proof.
  intros I H S r R E. subst n. destruct (in_names _ _ I r R H) as [O T]. destruct (holds_row m r (in_ok_ _ _ I) R O) as (o & X).
  rewrite T in X. apply (in_tells _ _ I) in X. congruence.
Qed.

Lemma owned_name m n q : lite_ok m -> free m n -> In q m -> lr_table q <> n.
Proof. intros K F Q E. destruct (lo_owned _ K q Q) as (o & O & A & B). apply (F o O). congruence. Qed.

Lemma inv_add m st n o y ty own : inv m st -> In n N -> free m n -> means y n o -> ty = lite_kind o -> Forall (own_row n) own ->
  inv (m ++ mkLiteRow ty n n (Some y) :: own) (upd st n (Some o)).
Proof.
  intros I Hn F M -> W. pose proof (in_ok_ _ _ I) as K. set (row := mkLiteRow (lite_kind o) n n (Some y)).
  assert (OR : object_row row) by (destruct o; [left; split; [reflexivity|now apply HN]|now right]).
  rewrite Forall_forall in W.
  assert (J : forall r, In r (m ++ row :: own) -> object_row r -> In r m \/ r = row).
  { intros r R O. apply in_app_or in R as [R|[R|R]]; [now left|now right|]. destruct (W r R) as (_ & X & _). contradiction. }
  constructor.
  - constructor.
    + intros r R O. destruct (J r R O) as [Q|E].
      * now apply (lo_means _ K).
      * subst r. split; [reflexivity|]. exists y, o. auto.
    + intros a r b E O q Q.
      assert (In r (m ++ row :: own)) as R by (rewrite E; apply in_or_app; right; now left).
      clear R. revert a E Q. destruct (object_row_dec r) as [_|X]; [|contradiction]. intros a E Q.
      assert (P : (exists b', m = a ++ r :: b') \/ (a = m /\ r = row) \/ In r own).
      { clear -E. revert m E. induction a as [|z a IH]; intros m E.
        - destruct m as [|z m]; cbn in E; injection E as E1 E2; subst.
          + right. left. auto.
          + left. exists m. reflexivity.
        - destruct m as [|z' m]; cbn in E; injection E as E1 E2.
          + right. right. rewrite E2. apply in_or_app. right. now left.
          + subst z'. destruct (IH m E2) as [(b' & ->)|[[-> ->]|H]]; [left; now exists b'|right; left; auto|right; right; exact H]. }
      destruct P as [(b' & P)|[[-> ->]|P]].
      * exact (lo_first _ K a r b' P O q Q).
      * now apply (owned_name m).
      * destruct (W r P) as (_ & X & _). contradiction.
    + intros r R. apply in_app_or in R as [R|[R|R]].
      * destruct (lo_owned _ K r R) as (q & Q & A). exists q. split; [apply in_or_app; now left|exact A].
      * subst r. exists row. split; [apply in_or_app; right; now left|auto].
      * destruct (W r R) as (_ & _ & [X|X]).
        -- exists row. split; [apply in_or_app; right; now left|]. now rewrite X.
        -- exists r. split; [apply in_or_app; right; now right|]. now rewrite X.
  - intros k o'. unfold upd. destruct (String.eqb_spec k n) as [->|Hk].
    + split.
      * intros (r & x & R & O & T & E & S & M'). destruct (J r R O) as [Q|E'].
        -- exfalso. now apply (owned_name m n r K F Q).
        -- subst r. cbn in S. injection S as <-. f_equal. now apply (means_unique y n).
      * intros [= <-]. exists row, y. repeat split; try assumption; try reflexivity; try apply M. apply in_or_app. right. now left.
    + rewrite <- (in_tells _ _ I k o'). split.
      * intros (r & x & R & O & T & E & S & M'). destruct (J r R O) as [Q|E']; [exists r, x; auto 10|]. subst r. cbn in E. congruence.
      * intros (r & x & R & Z). exists r, x. split; [apply in_or_app; now left|exact Z].
  - intros r R H. apply in_app_or in R as [R|[R|R]].
    + now apply (in_names _ _ I).
    + subst r. auto.
    + destruct (W r R) as (X & _). now apply HN in H.
Qed.

Lemma filter_split {A} (f : A -> bool) l : forall a r b, filter f l = a ++ r :: b -> exists a' b', l = a' ++ r :: b' /\ incl a a'.
Proof.
  induction l as [|x l IH]; intros a r b E; [now destruct a|]. cbn [filter] in E. destruct (f x).
  - destruct a as [|z a]; cbn in E; injection E as E1 E2; subst.
    + exists [], l. split; [reflexivity|now intros ?].
    + destruct (IH a r b E2) as (a' & b' & -> & H). exists (z :: a'), b'. split; [reflexivity|]. intros q [->|Q]; [now left|right; now apply H].
  - destruct (IH a r b E) as (a' & b' & -> & H). exists (x :: a'), b'. split; [reflexivity|]. intros q Q. right. now apply H.
Qed.

Lemma inv_drop m st n : inv m st -> inv (without_object n m) (upd st n None).
Proof.
  intros I. pose proof (in_ok_ _ _ I) as K.
  assert (J : forall r, In r (without_object n m) <-> In r m /\ lr_table r <> n).
  { intros r. unfold without_object. rewrite filter_In. now destruct (String.eqb_spec (lr_table r) n). }
  constructor.
  - constructor.
    + intros r R O. apply J in R as [R _]. now apply (lo_means _ K).
    + intros a r b E O q Q. apply filter_split in E as (a' & b' & E & H). exact (lo_first _ K a' r b' E O q (H q Q)).
    + intros r R. apply J in R as [R X]. destruct (lo_owned _ K r R) as (q & Q & A & B). exists q. split; [apply J; split; congruence|auto].
  - intros k o. unfold upd. destruct (String.eqb_spec k n) as [->|Hk].
    + split; [|discriminate]. intros (r & x & R & O & T & E & _). apply J in R. now destruct R.
    + rewrite <- (in_tells _ _ I k o). split; intros (r & x & R & O & T & E & Z); exists r, x; (split; [|now auto]).
      * apply J in R. now destruct R.
      * apply J. split; congruence.
  - intros r R. apply J in R as [R _]. now apply (in_names _ _ I).
Qed.

(** ** Statements *)
Inductive makes : stmt -> string -> lite_object -> Prop :=
| mk_table x x' t : (exists w, says SQLite3 x w) -> means x (t_name t) (LTable t) -> makes (mkStmt x (EffVerbatim (CreateTable x' t))) (t_name t) (LTable t)
| mk_view x v : (exists w, says SQLite3 x w) -> means x (vw_name v) (LView (vw_definition v)) -> makes (mkStmt x (EffVerbatim (DView v))) (vw_name v) (LView (vw_definition v))
| mk_new_view x n d : (exists w, says SQLite3 x w) -> means x n (LView d) -> makes (mkStmt x (EffCreateView n d)) n (LView d).
Inductive removes : stmt -> string -> lite_object -> Prop :=
| rm_table x n t : removes (mkStmt x (EffDropTable n)) n (LTable t)
| rm_view x n d : removes (mkStmt x (EffDropView n)) n (LView d).

Inductive goes : list stmt -> state -> state -> Prop :=
| go_nil st st' : (forall n, st n = st' n) -> goes [] st st'
| go_make s n o out st st' : In n N -> makes s n o -> st n = None -> goes out (upd st n (Some o)) st' -> goes (s :: out) st st'
| go_remove s n o out st st' : removes s n o -> st n = Some o -> goes out (upd st n None) st' -> goes (s :: out) st st'.

Lemma inv_ext m st st' : (forall n, st n = st' n) -> inv m st -> inv m st'.
Proof. intros E [A B C]. constructor; [exact A| |exact C]. intros n o. rewrite <- E. apply B. Qed.

Lemma made m m' st s n o : inv m st -> In n N -> makes s n o -> st n = None -> executes s m m' -> inv m' (upd st n (Some o)).
Proof.
  intros I Hn M S X. pose proof (inv_free m st n I Hn S) as F. destruct M as [x x' t W M|x v W M|x n d W M]; inversion X; subst.
  - apply inv_add; try assumption; [|reflexivity]. now apply (keeps_means x).
  - apply inv_add; try assumption; try reflexivity; [|constructor]. now apply (keeps_means x).
  - apply inv_add; try assumption; try reflexivity; [|constructor]. now apply (keeps_means x).
Qed.
Lemma can_make m st s n o : inv m st -> In n N -> makes s n o -> st n = None -> exists m', executes s m m'.
Proof.
  intros I Hn M S. pose proof (inv_free m st n I Hn S) as F.
  assert (Q : forall x k p, (exists w, says SQLite3 x w) -> means x k p -> keeps x x).
  { intros x k p (w & W) (P & _). split; [exact P|]. eauto. }
  destruct M as [x x' t W M|x v W M|x n d W M]; eexists.
  - apply ex_create_table with (y := x) (own := []); [exact F|eauto|constructor].
  - apply ex_create_view with (y := x); [exact F|eauto].
  - apply ex_new_view with (y := x); [exact F|eauto].
Qed.
Lemma removed m m' st s n o : inv m st -> removes s n o -> executes s m m' -> inv m' (upd st n None).
Proof. intros I R X. destruct R; inversion X; subst; now apply inv_drop. Qed.
Lemma can_remove m st s n o : inv m st -> removes s n o -> st n = Some o -> exists m', executes s m m'.
Proof.
  intros I R S. apply (in_tells _ _ I) in S. destruct S as (r & x & A & O & T & E & _). destruct (lo_means _ (in_ok_ _ _ I) r A O) as (E' & _).
  destruct R as [t|d]; eexists.
  - apply (ex_drop_table t n m r); [exact A|exact T|congruence].
  - apply (ex_drop_view d n m r); [exact A|exact T|congruence].
Qed.

Lemma goes_end out : forall m m' st st', goes out st st' -> inv m st -> executes_all out m m' -> inv m' st'.
Proof.
  induction out as [|s out IH]; intros m m' st st' G I X; inversion X; subst; inversion G; subst.
  - eapply inv_ext; eassumption.
  - eapply IH; [eassumption| |eassumption]. eapply made; eassumption.
  - eapply IH; [eassumption| |eassumption]. eapply removed; eassumption.
Qed.
Lemma goes_on pre : forall s post m m1 st st', goes (pre ++ s :: post) st st' -> inv m st -> executes_all pre m m1 -> exists m2, executes s m1 m2.
Proof.
  induction pre as [|z pre IH]; intros s post m m1 st st' G I X; inversion X; subst; inversion G; subst.
  - eapply can_make; eassumption.
  - eapply can_remove; eassumption.
  - eapply IH; [eassumption| |eassumption]. eapply made; eassumption.
  - eapply IH; [eassumption| |eassumption]. eapply removed; eassumption.
Qed.
Lemma goes_ext out : forall st st' a, (forall n, st n = a n) -> goes out st st' -> goes out a st'.
Proof.
  induction out as [|s out IH]; intros st st' a E G; inversion G; subst.
  - constructor. intros n. now rewrite <- E.
  - eapply go_make; [eassumption|eassumption|now rewrite <- E|]. eapply IH; [|eassumption]. intros k. unfold upd. now destruct (String.eqb k n).
  - eapply go_remove; [eassumption|rewrite <- E; eassumption|]. eapply IH; [|eassumption]. intros k. unfold upd. now destruct (String.eqb k n).
Qed.
Lemma goes_app a : forall b st st1 st2, goes a st st1 -> goes b st1 st2 -> goes (a ++ b) st st2.
Proof.
  induction a as [|s a IH]; intros b st st1 st2 G H; inversion G; subst; cbn [app].
  - eapply goes_ext; [|exact H]. intros n. now symmetry.
  - eapply go_make; eauto.
  - eapply go_remove; eauto.
Qed.
End Names.

(** ** Reading the export *)
Definition table_row (r : lite_row) : bool := String.eqb (lr_type r) "table" && negb (like_sqlite (lr_table r)).
Definition view_row (r : lite_row) : bool := String.eqb (lr_type r) "view".

(** What a row is read as. *)
Definition row_reads (r : lite_row) (d : ddl) : Prop :=
  exists x o, lr_sql r = Some x /\ lr_type r = lite_kind o /\ means x (lr_table r) o /\
    d = match o with LTable t => CreateTable x t | LView e => DView (mkView x (lr_table r) e) end.

Lemma table_row_object r : table_row r = true -> object_row r.
Proof.
  unfold table_row. rewrite andb_true_iff, String.eqb_eq, negb_true_iff. intros [T L]. left. split; [exact T|]. intros H. apply like_sqlite_spec in H. congruence.
Qed.
Lemma view_row_object r : view_row r = true -> object_row r.
Proof. unfold view_row. rewrite String.eqb_eq. now right. Qed.
Lemma object_rows r : object_row r -> table_row r = true \/ view_row r = true.
Proof.
  intros [[T L]|V]; [left|right].
  - unfold table_row. rewrite T. cbn. apply negb_true_iff, not_true_iff_false. now rewrite like_sqlite_spec.
  - unfold view_row. now rewrite V.
Qed.

Lemma reads_rows m l : lite_ok m -> (forall r, In r l -> In r m /\ object_row r) -> exists ds, Forall2 row_reads l ds.
Proof.
  intros K. induction l as [|r l IH]; intros H; [exists []; constructor|].
  destruct IH as (ds & D); [intros; apply H; now right|]. destruct (H r (or_introl eq_refl)) as [R O].
  destruct (lo_means _ K r R O) as (_ & x & o & T & S & M). eexists (_ :: ds). constructor; [|exact D]. exists x, o. auto.
Qed.

Lemma dump_own_row m r : lite_ok m -> In r m -> object_row r -> lite_dump_table m (lr_table r) = lr_sql r.
Proof.
  intros K R O. apply in_split in R as (a & b & E). unfold lite_dump_table.
  assert (find (fun q => String.eqb (lr_table q) (lr_table r)) m = Some r) as ->; [|reflexivity].
  pose proof (lo_first _ K a r b E O) as H. rewrite E. clear -H. induction a as [|z a IH]; cbn [app find].
  - now rewrite String.eqb_refl.
  - destruct (String.eqb_spec (lr_table z) (lr_table r)) as [X|_]; [now apply (H z (or_introl eq_refl)) in X|]. apply IH. intros q Q. apply H. now right.
Qed.

Lemma all_some_reads l ds : Forall2 row_reads l ds -> all_some (map lr_sql l) = Some (map ddl_statement ds).
Proof.
  induction 1 as [|r d l ds (x & o & S & T & M & ->) F IH]; [reflexivity|]. cbn [map all_some]. rewrite S, IH. now destruct o.
Qed.

Lemma export_rows m : lite_ok m -> exists ts vs,
  Forall2 row_reads (filter table_row m) ts /\ Forall2 row_reads (filter view_row m) vs /\
  lite_statements m = Some (map ddl_statement (ts ++ vs)).
Proof.
  intros K.
  destruct (reads_rows m (filter table_row m) K) as (ts & T). { intros r R. apply filter_In in R as [R H]. split; [exact R|now apply table_row_object]. }
  destruct (reads_rows m (filter view_row m) K) as (vs & V). { intros r R. apply filter_In in R as [R H]. split; [exact R|now apply view_row_object]. }
  exists ts, vs. split; [exact T|]. split; [exact V|]. unfold lite_statements, lite_views, lite_table_names. fold table_row. fold view_row.
  rewrite map_map. rewrite (map_ext_in _ lr_sql). 2:{ intros r R. apply filter_In in R as [R H]. apply dump_own_row; auto. now apply table_row_object. }
  rewrite (all_some_reads _ _ T), (all_some_reads _ _ V). now rewrite map_app.
Qed.

Lemma row_reads_parse l ds : Forall2 row_reads l ds ->
  Forall2 (fun x d => parse_ddl parse_strict_ddl SQLite3 x = Ok d) (map ddl_statement ds) ds /\ Forall plain_statement (map ddl_statement ds).
Proof.
  induction 1 as [|r d l ds (x & o & S & T & M & ->) F [A B]]; [split; constructor|]. cbn [map]. destruct o as [t|e].
  - destruct M as [P [M _]]. split; constructor; assumption.
  - destruct M as [P M]. split; constructor; assumption.
Qed.

Lemma join_read ds : Forall plain_statement (map ddl_statement ds) ->
  Forall2 (fun x d => parse_ddl parse_strict_ddl SQLite3 x = Ok d) (map ddl_statement ds) ds ->
  parse_file SQLite3 (join (";" ++ nl ++ nl) (map ddl_statement ds)) = Ok ds.
Proof.
  intros P F. unfold parse_file, parse_ddls. destruct ds as [|d ds]; [reflexivity|].
  rewrite (lists_split _ (map ddl_statement (d :: ds))); [now apply parse_all_ok|].
  apply (lists_join _ (nl ++ nl)%string true); [exact P|reflexivity|exact gap2|discriminate].
Qed.

(** The statements of an exported catalogue. *)
Record export_of (m : list lite_row) (ds : list ddl) : Prop := {
  eo_table : forall t, In t (tables_in ds) <-> holds m (t_name t) (LTable t);
  eo_view : forall v, In v (views_in ds) -> holds m (vw_name v) (LView (vw_definition v));
  eo_held : forall n e, holds m n (LView e) -> exists v, In v (views_in ds) /\ vw_name v = n /\ vw_definition v = e;
  eo_names : NoDup (created ds ++ map vw_name (views_in ds));
  eo_only : forall d, In d ds -> match d with CreateTable _ _ | DView _ => True | _ => False end }.

Lemma in_tables_in ds t : In t (tables_in ds) <-> exists s, In (CreateTable s t) ds.
Proof.
  unfold tables_in. rewrite in_flat_map. split.
  - intros (d & D & H). destruct d; cbn in H; try tauto. destruct H as [<-|[]]. eauto.
  - intros (s & H). eexists. split; [exact H|now left].
Qed.
Lemma in_views_in ds v : In v (views_in ds) <-> In (DView v) ds.
Proof.
  unfold views_in. rewrite in_flat_map. split.
  - intros (d & D & H). destruct d; cbn in H; try tauto. destruct H as [<-|[]]. eauto.
  - intros H. eexists. split; [exact H|now left].
Qed.

Lemma reads_in l ds : Forall2 row_reads l ds -> forall d, In d ds -> exists r, In r l /\ row_reads r d.
Proof. induction 1 as [|r d l ds F _ IH]; intros e; [easy|]. intros [<-|E]; [exists r; auto with datatypes|]. destruct (IH e E) as (q & Q & Z). exists q. auto with datatypes. Qed.
Lemma reads_of l ds : Forall2 row_reads l ds -> forall r, In r l -> exists d, In d ds /\ row_reads r d.
Proof. induction 1 as [|r d l ds F _ IH]; intros q; [easy|]. intros [<-|E]; [exists d; auto with datatypes|]. destruct (IH q E) as (e & Q & Z). exists e. auto with datatypes. Qed.

Lemma reads_names l ts vs l' : Forall2 row_reads l ts -> Forall2 row_reads l' vs -> (forall r, In r l -> lr_type r = "table") -> (forall r, In r l' -> lr_type r = "view") ->
  created (ts ++ vs) ++ map vw_name (views_in (ts ++ vs)) = map lr_table (l ++ l').
Proof.
  intros A B Ta Tb.
  assert (E1 : created ts = map lr_table l /\ views_in ts = []).
  { clear B Tb. induction A as [|r d l ts (x & o & S & T & M & ->) F IH]; [split; reflexivity|].
    destruct IH as [I1 I2]; [intros; apply Ta; now right|]. pose proof (Ta r (or_introl eq_refl)) as X. destruct o as [t|e]; [|cbn in T; congruence].
    cbn. fold (tables_in ts). fold (created ts). rewrite I1. destruct M as (_ & _ & ->). split; [reflexivity|exact I2]. }
  assert (E2 : created vs = [] /\ map vw_name (views_in vs) = map lr_table l').
  { clear A Ta E1. induction B as [|r d l' vs (x & o & S & T & M & ->) F IH]; [split; reflexivity|].
    destruct IH as [I1 I2]; [intros; apply Tb; now right|]. pose proof (Tb r (or_introl eq_refl)) as X. destruct o as [t|e]; [cbn in T; congruence|].
    cbn. fold (tables_in vs). fold (created vs). fold (views_in vs). rewrite I2. split; [exact I1|reflexivity]. }
  destruct E1 as [E1 E1'], E2 as [E2 E2']. rewrite created_app, views_in_app, E1, E1', E2, !map_app, E2', app_nil_r. reflexivity.
Qed.

Lemma rows_nodup m l : lite_ok m -> (forall r, In r l -> In r m /\ object_row r) -> NoDup l -> NoDup (map lr_table l).
Proof.
  intros K. induction l as [|r l IH]; intros H D; [constructor|]. inversion D; subst. cbn [map]. constructor; [|apply IH; [intros; apply H; now right|assumption]].
  intros X. apply in_map_iff in X as (q & E & Q). destruct (H r (or_introl eq_refl)), (H q (or_intror Q)). assert (q = r) by now apply (one_row m). now subst.
Qed.

Lemma object_rows_once m f : lite_ok m -> (forall r, f r = true -> object_row r) -> NoDup (filter f m).
Proof.
  intros K H. pose proof (lo_first _ K) as F. clear K. induction m as [|r m IH]; [constructor|]. cbn [filter].
  assert (NoDup (filter f m)). { apply IH. intros a q b -> O p P. apply (F (r :: a) q b eq_refl O). now right. }
  destruct (f r) eqn:E; [|assumption]. constructor; [|assumption]. intros X. apply filter_In in X as [X _]. apply in_split in X as (a & b & ->).
  exact (F (r :: a) r b eq_refl (H r E) r (or_introl eq_refl) eq_refl).
Qed.

Lemma export_read m : lite_ok m -> exists text ds, lite_dump m = Some text /\ parse_file SQLite3 text = Ok ds /\ export_of m ds.
Proof.
  intros K. destruct (export_rows m K) as (ts & vs & T & V & E). exists (join (";" ++ nl ++ nl) (map ddl_statement (ts ++ vs))), (ts ++ vs).
  split; [unfold lite_dump; now rewrite E|]. split.
  { destruct (row_reads_parse _ _ (Forall2_app T V)) as [A B]. now apply join_read. }
  assert (Ty1 : forall r, In r (filter table_row m) -> lr_type r = "table").
  { intros r R. apply filter_In in R as [_ R]. unfold table_row in R. apply andb_true_iff in R as [R _]. now apply String.eqb_eq. }
  assert (Ty2 : forall r, In r (filter view_row m) -> lr_type r = "view").
  { intros r R. apply filter_In in R as [_ R]. unfold view_row in R. now apply String.eqb_eq. }
  assert (Back : forall d, In d (ts ++ vs) -> exists r, In r m /\ object_row r /\ row_reads r d).
  { intros d D. destruct (reads_in _ _ (Forall2_app T V) d D) as (r & R & Z). exists r. apply in_app_or in R as [R|R]; apply filter_In in R as [R X].
    - split; [exact R|]. split; [now apply table_row_object|exact Z].
    - split; [exact R|]. split; [now apply view_row_object|exact Z]. }
  assert (Forth : forall r, In r m -> object_row r -> exists d, In d (ts ++ vs) /\ row_reads r d).
  { intros r R O. destruct (object_rows r O) as [X|X].
    - apply (reads_of _ _ (Forall2_app T V)). apply in_or_app. left. now apply filter_In.
    - apply (reads_of _ _ (Forall2_app T V)). apply in_or_app. right. now apply filter_In. }
  constructor.
  - intros t. rewrite in_tables_in. split.
    + intros (s & H). destruct (Back _ H) as (r & R & O & x & o & S & Ty & M & Z). destruct o as [t'|]; [|discriminate]. injection Z as -> ->.
      destruct M as (P & M & Nm). exists r, x. rewrite Nm. repeat split; auto; apply P.
    + intros (r & x & R & O & Ty & Nm & S & M). destruct (Forth r R O) as (d & D & y & o & S' & Ty' & M' & ->). rewrite S in S'. injection S' as <-.
      rewrite Nm in M'. assert (o = LTable t) as -> by (now apply (means_unique x (t_name t))). now exists x.
  - intros v. rewrite in_views_in. intros H. destruct (Back _ H) as (r & R & O & x & o & S & Ty & M & Z). destruct o as [t'|e]; [discriminate|]. injection Z as ->.
    cbn. exists r, x. auto 10.
  - intros n e (r & x & R & O & Ty & Nm & S & M). destruct (Forth r R O) as (d & D & y & o & S' & Ty' & M' & ->). rewrite S in S'. injection S' as <-.
    rewrite Nm in M'. assert (o = LView e) as -> by (now apply (means_unique x n)). eexists. rewrite in_views_in. split; [exact D|]. cbn. auto.
  - rewrite (reads_names _ _ _ _ T V Ty1 Ty2). apply (rows_nodup m); [exact K| |].
    + intros r R. apply in_app_or in R as [R|R]; apply filter_In in R as [R X]; (split; [exact R|]); [now apply table_row_object|now apply view_row_object].
    + assert (D1 := object_rows_once m table_row K table_row_object). assert (D2 := object_rows_once m view_row K view_row_object).
      clear -D1 D2 Ty1 Ty2. revert D1 Ty1. generalize (filter table_row m). induction l as [|r l IH]; intros D1 Ty1; [exact D2|].
      inversion D1; subst. cbn [app]. constructor; [|apply IH; auto with datatypes].
      intros X. apply in_app_or in X as [X|X]; [contradiction|]. apply Ty2 in X. rewrite (Ty1 r (or_introl eq_refl)) in X. discriminate.
  - intros d D. destruct (Back d D) as (r & _ & _ & x & o & _ & _ & _ & ->). now destruct o.
Qed.
