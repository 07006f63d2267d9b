(** Proofs for C105 on SQLite: a table no statement is about stays as it is, with its indexes and triggers. *)
From Coq Require Import String Ascii List ZArith Bool.
From Verif Require Import GoStr Ast Generator Catalog SchemaText Parser Planner AdapterSqlite SpecText SpecExport SpecPlan SpecLayout SpecSqlite SpecEdit SpecEditLite ProofSqlite ProofEdit.
Import ListNotations.
Local Open Scope string_scope.
Local Open Scope list_scope.

(** Rows of a view have the name of the view. *)
Definition views_named (m : list lite_row) : Prop := forall q, In q m -> lr_type q = "view" -> lr_name q = lr_table q.

Lemma ok_views_named m : lite_ok m -> views_named m.
Proof. intros K q Q V. exact (proj1 (lo_means _ K q Q (or_intror V))). Qed.
Lemma named_app_own m n r own : views_named m -> lr_name r = lr_table r -> Forall (own_row n) own -> views_named (m ++ r :: own).
Proof.
  intros K E F q Q V. apply in_app_or in Q as [Q|[<-|Q]]; [now apply K|exact E|].
  rewrite Forall_forall in F. destruct (F q Q) as (_ & X & _). destruct X. now right.
Qed.
Lemma named_without m n : views_named m -> views_named (without_object n m).
Proof. intros K q Q. apply filter_In in Q as [Q _]. now apply K. Qed.

Section Table.
Variable n : string.
Notation mine := (rows_of n).
Hypothesis Hn : ~ lite_hidden n.

(** The table, and no view of that name. *)
Definition tabled (m : list lite_row) : Prop := exists r, In r m /\ lr_type r = "table" /\ lr_name r = n /\ lr_table r = n.
Definition unviewed (m : list lite_row) : Prop := forall q, In q m -> lr_table q = n -> lr_type q <> "view".

Lemma mine_app a b : mine (a ++ b) = mine a ++ mine b.
Proof. apply filter_app. Qed.
Lemma mine_none l : (forall r, In r l -> lr_table r <> n) -> mine l = [].
Proof.
  induction l as [|r l IH]; intros H; [reflexivity|]. unfold rows_of. cbn [filter]. destruct (String.eqb_spec (lr_table r) n) as [E|_].
  - destruct (H r (or_introl eq_refl) E).
  - apply IH. intros q Q. apply H. now right.
Qed.
Lemma mine_own k own : k <> n -> Forall (own_row k) own -> mine own = [].
Proof.
  intros D F. apply mine_none. intros r R E. rewrite Forall_forall in F. destruct (F r R) as (H & _ & [X|X]); [congruence|]. apply Hn. now rewrite <- E, X.
Qed.
Lemma mine_without k m : k <> n -> mine (without_object k m) = mine m.
Proof.
  intros D. induction m as [|r m IH]; [reflexivity|]. unfold rows_of, without_object in *. cbn [filter].
  destruct (String.eqb_spec (lr_table r) k) as [E|E]; cbn [negb filter].
  - destruct (String.eqb_spec (lr_table r) n); [congruence|exact IH].
  - destruct (String.eqb_spec (lr_table r) n); now rewrite IH.
Qed.

Lemma still s a b : eff_table (s_eff s) <> Some n -> executes s a b -> views_named a -> tabled a -> unviewed a ->
  mine b = mine a /\ views_named b.
Proof.
  intros T X K (r & R & Ty & Nm & Tb) U. destruct X as [x x' t y own a F _ O|x v y a F _|x k d y a F _|x k a q Q V E|x k a q Q V E]; cbn [s_eff eff_table ddl_table] in T.
  - assert (D : t_name t <> n) by (intros E; apply T; cbn; congruence). split; [|now apply (named_app_own a (t_name t))].
    rewrite mine_app. unfold rows_of at 2. cbn [filter lr_table]. destruct (String.eqb_spec (t_name t) n); [contradiction|]. fold (rows_of n own). now rewrite (mine_own _ _ D O), app_nil_r.
  - assert (D : vw_name v <> n) by (intros E; apply (F r R); congruence). split; [|now apply (named_app_own a (vw_name v))].
    rewrite mine_app. unfold rows_of at 2. cbn [filter lr_table]. destruct (String.eqb_spec (vw_name v) n); [contradiction|]. now rewrite app_nil_r.
  - assert (D : k <> n) by (intros E; apply (F r R); congruence). split; [|now apply (named_app_own a k)].
    rewrite mine_app. unfold rows_of at 2. cbn [filter lr_table]. destruct (String.eqb_spec k n); [contradiction|]. now rewrite app_nil_r.
  - split; [|now apply named_without]. apply mine_without. congruence.
  - split; [|now apply named_without]. apply mine_without. intros ->. apply (U q Q); [|exact V]. rewrite <- (K q Q V). exact E.
Qed.
Lemma in_mine r m : In r (mine m) <-> In r m /\ lr_table r = n.
Proof. unfold rows_of. rewrite filter_In, String.eqb_eq. reflexivity. Qed.
Lemma all_still out : forall a b, (forall s, In s out -> eff_table (s_eff s) <> Some n) -> executes_all out a b -> views_named a -> tabled a -> unviewed a -> mine b = mine a.
Proof.
  induction out as [|s out IH]; intros a b T X K B U; inversion X as [|? ? ? c ? S R]; subst; [reflexivity|].
  destruct (still s a c (T s (or_introl eq_refl)) S K B U) as [M K']. rewrite <- M. apply IH; [intros z Z; apply T; now right|exact R|exact K'| |].
  - destruct B as (r & H & Ty & Nm & Tb). exists r. split; [|now repeat split]. apply (in_mine r c). rewrite M. apply in_mine. now split.
  - intros q Q E. apply U; [|exact E]. apply (in_mine q a). rewrite <- M. apply in_mine. now split.
Qed.
End Table.

Theorem lite_stays n l l' a current definitions out' pre b t : lite_ok a -> holds a n (LTable t) ->
  lite_dump a = Some current -> parse_file SQLite3 current = Ok definitions ->
  NoDup (created l) -> NoDup (created l') -> plan SQLite3 l definitions = Ok [] -> plan SQLite3 l' definitions = Ok out' ->
  statements_on n l = statements_on n l' -> executed_first pre out' -> executes_all pre a b -> rows_of n b = rows_of n a.
Proof.
  intros K H _ _ N N' P P' E (post & ->) X. destruct H as (r & x & R & O & Ty & Tb & _ & _). cbn [lite_kind] in Ty.
  assert (Hn : ~ lite_hidden n). { destruct O as [[_ O]|O]; [now rewrite <- Tb|congruence]. }
  apply (all_still n Hn pre a b); [| exact X|now apply ok_views_named| |].
  - intros s S. apply (unedited SQLite3 n l l' definitions _ N N' P P' E). apply in_app_iff. now left.
  - exists r. split; [exact R|]. split; [exact Ty|]. split; [|exact Tb]. rewrite (proj1 (lo_means _ K r R O)). exact Tb.
  - intros q Q Eq V. assert (q = r) by (apply (one_row a); [exact K|exact Q|exact R|now right|exact O|congruence]). subst q. congruence.
Qed.
