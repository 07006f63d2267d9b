(** Statements that remove nothing, executed, take nothing away. *)
From Coq Require Import String Ascii List ZArith Bool.
From Verif Require Import GoStr Ast Generator SpecPlan SpecColumns SpecSql ProofSql ProofDrop SpecMysql SpecDatabase SpecPostgres SpecMssql SpecSource ProofSource SpecKeep.
Import ListNotations.
Local Open Scope string_scope.
Local Open Scope list_scope.

Lemma let_through_removes m desired current sent : let_through m desired current sent ->
  Forall (fun st => removes (s_eff st) = false /\ asked_for desired current (s_eff st)) sent.
Proof.
  intros (out & P & I). apply Forall_forall. intros st Hs. destruct (I st Hs) as [Ho Hd].
  pose proof (plan_says _ _ _ _ P) as S. pose proof (plan_asked _ _ _ _ P) as A. rewrite Forall_forall in S, A. split; [|now apply A].
  destruct (removes (s_eff st)) eqn:R; [|reflexivity]. pose proof (removal_has_drop m _ _ R (S st Ho)). congruence.
Qed.

(** ** Lists *)
Section Lists.
Context {A : Type} (f : A -> string).
Lemma named_name n l x : named f n l = Some x -> f x = n.
Proof.
  unfold named. induction l as [|y l IH]; [discriminate|]. cbn [find]. destruct (String.eqb (f y) n) eqn:E; [|exact IH].
  intros H. injection H as <-. now apply String.eqb_eq.
Qed.
Lemma named_mem n l x : named f n l = Some x -> mem n (map f l) = true.
Proof.
  unfold named. induction l as [|y l IH]; [discriminate|]. cbn [find map mem existsb]. rewrite String.eqb_sym. destruct (String.eqb n (f y)) eqn:E; [reflexivity|exact IH].
Qed.
Lemma named_before n l l' x : named f n l = Some x -> named f n (l ++ l') = Some x.
Proof. unfold named. induction l as [|y l IH]; [discriminate|]. cbn [find app]. destruct (String.eqb (f y) n); auto. Qed.
Lemma still_refl (R : A -> A -> Prop) l : (forall x, R x x) -> still f R l l.
Proof. intros H n x E. eauto. Qed.
Lemma still_app (R : A -> A -> Prop) l l' : (forall x, R x x) -> still f R l (l ++ l').
Proof. intros H n x E. exists x. split; [now apply named_before|apply H]. Qed.
Lemma still_trans (R : A -> A -> Prop) a b c : (forall x y z, R x y -> R y z -> R x z) -> still f R a b -> still f R b c -> still f R a c.
Proof. intros H X Y n x E. destruct (X n x E) as (y & Ey & Ry). destruct (Y n y Ey) as (z & Ez & Rz). eauto. Qed.
Lemma still_map (R : A -> A -> Prop) g l : (forall x, f (g x) = f x) -> (forall x, R x (g x)) -> still f R l (map g l).
Proof.
  intros N H n x E. exists (g x). split; [|apply H]. revert E. unfold named. induction l as [|y l IH]; [discriminate|]. cbn [find map]. rewrite N.
  destruct (String.eqb (f y) n); [intros Q; injection Q as ->; reflexivity|exact IH].
Qed.
(** One element is replaced. *)
Lemma named_replaced_other n k y l : f y = k -> n <> k -> named f n (map (fun x => if String.eqb (f x) k then y else x) l) = named f n l.
Proof.
  intros Y N. unfold named. induction l as [|x l IH]; [reflexivity|]. cbn [map find]. destruct (String.eqb (f x) k) eqn:E.
  - apply String.eqb_eq in E. rewrite Y, E. assert (String.eqb k n = false) as -> by (apply String.eqb_neq; congruence). exact IH.
  - destruct (String.eqb (f x) n); [reflexivity|exact IH].
Qed.
Lemma named_replaced_self k y x l : f y = k -> named f k l = Some x -> named f k (map (fun x => if String.eqb (f x) k then y else x) l) = Some y.
Proof.
  intros Y. unfold named. induction l as [|z l IH]; [discriminate|]. cbn [map find]. destruct (String.eqb (f z) k) eqn:E.
  - intros _. rewrite Y, String.eqb_refl. reflexivity.
  - rewrite E. exact IH.
Qed.
Lemma still_replaced (R : A -> A -> Prop) k y x l : (forall z, R z z) -> named f k l = Some x -> f y = f x -> R x y ->
  still f R l (map (fun x => if String.eqb (f x) k then y else x) l).
Proof.
  intros RR E N Rxy n z Z. assert (K : f y = k) by (rewrite N; now apply named_name in E).
  destruct (string_dec n k) as [->|D].
  - exists y. split; [now apply (named_replaced_self k y x)|]. congruence.
  - exists z. split; [now rewrite named_replaced_other|apply RR].
Qed.
Lemma in_named l x : In x l -> exists y, named f (f x) l = Some y.
Proof.
  unfold named. induction l as [|y l IH]; [intros []|]. cbn [find]. intros H. destruct (String.eqb (f y) (f x)) eqn:E; [eauto|].
  destruct H as [->|H]; [rewrite String.eqb_refl in E; discriminate|auto].
Qed.
Lemma named_list n l x : named f n l = Some x -> In x l.
Proof. unfold named. intros H. now apply find_some in H. Qed.
(** Names that are still there. *)
Lemma still_names l l' : incl (map f l) (map f l') -> still f anything l l'.
Proof.
  intros H n x E. assert (N : f x = n) by now apply named_name in E. apply named_list in E. specialize (H (f x) (in_map f _ _ E)).
  apply in_map_iff in H as (y & Y & I). destruct (in_named l' y I) as (z & Z). exists z. rewrite Y, N in Z. split; [exact Z|exact Logic.I].
Qed.
Lemma mem_In n (l : list string) : mem n l = true -> In n l.
Proof. unfold mem. intros H. apply existsb_exists in H as (x & I & E). apply String.eqb_eq in E. now subst. Qed.
Lemma removed_put_names n (x : A) l : f x = n -> incl (map f l) (map f (remove_named f n l ++ [x])).
Proof.
  intros N y Y. apply in_map_iff in Y as (z & <- & Z). rewrite map_app, in_app_iff. destruct (string_dec (f z) n) as [E|E].
  - right. rewrite E, <- N. now left.
  - left. apply in_map. apply filter_In. split; [exact Z|]. apply negb_true_iff. now apply String.eqb_neq.
Qed.
End Lists.

Lemma if_any_refl {A} (o : option A) : if_any o o. Proof. intros H; exact H. Qed.
Lemma if_some_refl {A} (o : option A) : if_some o o. Proof. intros x H; exact H. Qed.
Lemma if_any_trans {A} (a b c : option A) : if_any a b -> if_any b c -> if_any a c. Proof. intros X Y H. auto. Qed.
Lemma if_some_trans {A} (a b c : option A) : if_some a b -> if_some b c -> if_some a c. Proof. intros X Y x H. auto. Qed.

(** ** MySQL *)
Lemma mysql_table_refl t : mysql_table_kept t t.
Proof. split; [apply still_refl; intros; exact I|]. split; apply incl_refl. Qed.
Lemma mysql_table_trans a b c : mysql_table_kept a b -> mysql_table_kept b c -> mysql_table_kept a c.
Proof.
  intros (A1 & A2 & A3) (B1 & B2 & B3). split; [apply (still_trans _ _ _ _ _ (fun _ _ _ _ _ => I) A1 B1)|]. split; eapply incl_tran; eauto.
Qed.
Lemma mysql_columns_kept t l : incl (map c_name (t_columns t)) (map c_name l) -> mysql_table_kept t (with_columns l t).
Proof. intros H. split; [now apply still_names|]. split; apply incl_refl. Qed.
Lemma put_names c p l r : put_column c p l = Some r -> forall x, In x (c_name c :: map c_name l) -> In x (map c_name r).
Proof.
  destruct p as [| |y]; cbn [put_column].
  - intros H. injection H as <-. intros x X. rewrite map_app, in_app_iff. cbn [map In] in *. tauto.
  - intros H. injection H as <-. intros x X. exact X.
  - revert r. induction l as [|z l IH]; intros r H; [discriminate|]. cbn [put_column_after] in H. destruct (String.eqb (c_name z) y).
    + injection H as <-. intros x X. cbn [map In] in *. tauto.
    + destruct (put_column_after y c l) as [r'|]; [|discriminate]. injection H as <-. specialize (IH r' eq_refl).
      intros x X. cbn [map In] in *. destruct X as [X|[X|X]]; [right; apply IH; now left|now left|right; apply IH; now right].
Qed.
Lemma add_key_kept i t t' : SpecMysql.add_key i t = Some t' -> mysql_table_kept t t'.
Proof.
  unfold SpecMysql.add_key. destruct (mem _ _); [discriminate|]. intros H. injection H as <-. split; [|cbn [t_indexes t_fks]; split; [apply incl_appl, incl_refl|apply incl_refl]].
  cbn [t_columns]. destruct (i_primary i); [|apply still_refl; intros; exact I]. apply still_map; [|intros; exact I]. intros c. now destruct (mem (c_name c) _).
Qed.
Lemma recorded_name c : c_name (recorded c) = c_name c. Proof. reflexivity. Qed.
Lemma kept_notnull_name t c : c_name (kept_notnull t c) = c_name c.
Proof. unfold kept_notnull. now destruct (in_pk _ _). Qed.
Lemma mysql_alter_kept e t t' : removes e = false -> alter_table e t = Some t' -> t_name t' = t_name t /\ mysql_table_kept t t'.
Proof.
  assert (K : forall i u, SpecMysql.add_key i t = Some u -> t_name u = t_name t /\ mysql_table_kept t u).
  { intros i u H. split; [|now apply add_key_kept in H]. revert H. unfold SpecMysql.add_key. destruct (mem _ _); [discriminate|]. intros H. injection H as <-. reflexivity. }
  intros R. destruct e; cbn [removes] in R; try discriminate R; cbn [alter_table]; try discriminate; try (intros H; now apply K in H).
  - match goal with |- context [EffVerbatim ?d] => destruct d | _ => idtac end; try discriminate; try (intros H; now apply K in H).
    all: match goal with |- context [match ?d with _ => _ end] => destruct d end; try discriminate; try (intros H; now apply K in H).
  - destruct (mem _ _); [discriminate|]. destruct (put_column _ _ _) as [l|] eqn:P; [|discriminate].
    assert (W : mysql_table_kept t (with_columns l t)).
    { apply mysql_columns_kept. intros x X. apply (put_names _ _ _ _ P). now right. }
    destruct (is_unique _).
    + intros H. split.
      * revert H. unfold SpecMysql.add_key. destruct (mem _ _); [discriminate|]. intros H. injection H as <-. reflexivity.
      * apply add_key_kept in H. eapply mysql_table_trans; eauto.
    + intros H. injection H as <-. split; [reflexivity|exact W].
  - destruct (_ && _) eqn:C; [|discriminate]. apply andb_true_iff in C as [C1 C2]. apply String.eqb_eq in C1.
    match goal with |- context [match ?p with PosNone => _ | _ => _ end] => destruct p eqn:Ep end.
    + intros H. injection H as <-. split; [reflexivity|]. apply mysql_columns_kept. rewrite map_map. intros x X. apply in_map_iff in X as (z & <- & Z).
      apply in_map_iff. exists z. split; [|exact Z]. destruct (String.eqb (c_name z) _) eqn:E; [|reflexivity]. rewrite kept_notnull_name, recorded_name, C1. symmetry. now apply String.eqb_eq.
    + destruct (put_column _ _ _) as [l|] eqn:P; [|discriminate]. intros H. injection H as <-. split; [reflexivity|]. apply mysql_columns_kept.
      intros x X. apply (put_names _ _ _ _ P). rewrite kept_notnull_name, recorded_name, C1. apply in_map_iff in X as (z & <- & Z).
      match goal with |- In _ (?o :: _) => destruct (string_dec (c_name z) o) as [->|E] end; [now left|]. right. apply in_map. apply filter_In. split; [exact Z|]. apply negb_true_iff. now apply String.eqb_neq.
    + destruct (put_column _ _ _) as [l|] eqn:P; [|discriminate]. intros H. injection H as <-. split; [reflexivity|]. apply mysql_columns_kept.
      intros x X. apply (put_names _ _ _ _ P). rewrite kept_notnull_name, recorded_name, C1. apply in_map_iff in X as (z & <- & Z).
      match goal with |- In _ (?o :: _) => destruct (string_dec (c_name z) o) as [->|E] end; [now left|]. right. apply in_map. apply filter_In. split; [exact Z|]. apply negb_true_iff. now apply String.eqb_neq.
  - destruct (mem _ _); [discriminate|]. intros H. injection H as <-. split; [reflexivity|]. split; [apply still_refl; intros; exact I|]. cbn [t_indexes t_fks with_fks]. split; [apply incl_refl|apply incl_appl, incl_refl].
Qed.

Lemma mysql_kept_trans a b c : mysql_kept a b -> mysql_kept b c -> mysql_kept a c.
Proof.
  intros (A1 & A2 & A3) (B1 & B2 & B3). split; [apply (still_trans _ _ _ _ _ mysql_table_trans A1 B1)|].
  split; [apply (still_trans _ _ _ _ _ (fun _ _ _ _ _ => I) A2 B2)|eapply incl_tran; eauto].
Qed.
Lemma mysql_kept_refl c : mysql_kept c c.
Proof. split; [apply still_refl, mysql_table_refl|]. split; [apply still_refl; intros; exact I|apply incl_refl]. Qed.
Lemma mysql_run_kept e c c' : removes e = false -> run e c = Some c' -> mysql_kept c c'.
Proof.
  intros R. assert (D : forall n, (match table_named n (cat_tables c) with
          | None => None
          | Some t => match alter_table e t with
              | Some t' => if integrity t' then Some (mkCatalogue (replace_table n t' (cat_tables c)) (cat_views c) (cat_triggers c)) else None
              | None => None end end) = Some c' -> mysql_kept c c').
  { intros n. destruct (table_named n (cat_tables c)) as [t|] eqn:T; [|discriminate]. destruct (alter_table e t) as [t'|] eqn:A; [|discriminate].
    destruct (integrity t'); [|discriminate]. intros H. injection H as <-. destruct (mysql_alter_kept _ _ _ R A) as [N K].
    split; [|split; [apply still_refl; intros; exact I|apply incl_refl]]. cbn [cat_tables]. unfold replace_table. apply (still_replaced t_name mysql_table_kept n t' t); auto.
    exact mysql_table_refl. }
  destruct e; cbn [removes] in R; try discriminate R; cbn [run eff_table]; try discriminate; try exact (D _).
  - match goal with |- context [match ?d with CreateTable _ _ => _ | _ => _ end] => destruct d end; cbn [eff_table]; try discriminate; try exact (D _).
    + destruct (mem _ _); [discriminate|]. destruct (integrity _); [|discriminate]. intros H. injection H as <-. split; [apply still_app, mysql_table_refl|].
      split; [apply still_refl; intros; exact I|apply incl_refl].
    + destruct (mem _ _); [discriminate|]. intros H. injection H as <-. split; [apply still_refl, mysql_table_refl|].
      split; [apply still_app; intros; exact I|apply incl_refl].
  - intros H. injection H as <-. split; [apply still_refl, mysql_table_refl|]. split; [|apply incl_refl]. apply still_names. now apply removed_put_names.
  - destruct (mem _ _); [discriminate|]. intros H. injection H as <-. split; [apply still_refl, mysql_table_refl|]. split; [apply still_refl; intros; exact I|apply incl_appl, incl_refl].
Qed.
Theorem mysql_nothing_lost desired current sent c c' : let_through Mysql desired current sent -> run_all sent c = Some c' -> mysql_kept c c'.
Proof.
  intros L. apply let_through_removes in L. revert c. induction L as [|st l [R _] L IH]; intros c; cbn [run_all].
  - intros H. injection H as ->. apply mysql_kept_refl.
  - destruct (run (s_eff st) c) as [d|] eqn:E; [|discriminate]. intros H. eapply mysql_kept_trans; [eapply mysql_run_kept; eauto|auto].
Qed.

(** ** Any other database *)
Section Database.
Context {T : Type} (name : T -> string) (create : table -> option T) (alter : effect -> T -> option T) (replaceable : view -> string -> bool).
Variables (R : T -> T -> Prop) (P : effect -> Prop).
Hypothesis Rrefl : forall x, R x x.
Hypothesis Rtrans : forall x y z, R x y -> R y z -> R x z.
Hypothesis Pkept : forall e x y, removes e = false -> P e -> alter e x = Some y -> name y = name x /\ R x y.
Lemma execute_kept e c c' : removes e = false -> P e -> execute name create alter replaceable e c = Some c' -> kept name R c c'.
Proof.
  intros Rm Pe. unfold execute. destruct (eff_table e) as [n|] eqn:Et.
  - match goal with |- match ?x with _ => _ end = _ -> _ => destruct x as [l|] eqn:Q end; [|discriminate]. intros H. injection H as <-.
    split; [cbn [db_tables]|split; apply still_refl; intros; exact I].
    assert (D : match named name n (db_tables c) with None => None | Some t => match alter e t with Some t' => Some (replace_named name n t' (db_tables c)) | None => None end end = Some l ->
      still name R (db_tables c) l).
    { destruct (named name n (db_tables c)) as [t|] eqn:Nm; [|discriminate]. destruct (alter e t) as [t'|] eqn:A; [|discriminate]. intros H. injection H as <-.
      destruct (Pkept _ _ _ Rm Pe A) as [N K]. unfold replace_named. now apply (still_replaced name R n t' t). }
    destruct e; cbn [removes] in Rm; try discriminate Rm; cbn [table_run] in Q; try exact (D Q).
    match type of Q with context [match ?d with CreateTable _ _ => _ | _ => _ end] => destruct d end; try exact (D Q).
    destruct (mem _ _); [discriminate|]. destruct (create _); [|discriminate]. injection Q as <-. now apply still_app.
  - destruct (view_ops e) as [|o [|]] eqn:V.
    + destruct (trigger_ops e) as [|o [|]] eqn:Tr; try discriminate. match goal with |- match ?x with _ => _ end = _ -> _ => destruct x as [l|] eqn:Q end; [|discriminate]. intros H. injection H as <-.
      split; [now apply still_refl|]. split; [apply still_refl; intros; exact I|]. cbn [db_triggers].
      destruct o; cbn [trigger_run] in Q.
      * destruct (mem _ _); [discriminate|]. injection Q as <-. apply still_app. intros; exact I.
      * injection Q as <-. apply still_names. now apply removed_put_names.
      * exfalso. destruct e; cbn [removes trigger_ops] in *; try discriminate; repeat match goal with H : match ?d with _ => _ end = _ |- _ => destruct d end; congruence.
    + match goal with |- match ?x with _ => _ end = _ -> _ => destruct x as [l|] eqn:Q end; [|discriminate]. intros H. injection H as <-.
      split; [now apply still_refl|]. split; [|apply still_refl; intros; exact I]. cbn [db_views].
      destruct o; cbn [view_run] in Q.
      * destruct (mem _ _); [discriminate|]. injection Q as <-. apply still_app. intros; exact I.
      * destruct (named _ _ _); [|injection Q as <-; apply still_app; intros; exact I]. destruct (replaceable _ _); [|discriminate]. injection Q as <-. apply still_names. now apply removed_put_names.
      * destruct (mem _ _); [discriminate|]. injection Q as <-. apply still_app. intros; exact I.
      * exfalso. destruct e; cbn [removes view_ops] in *; try discriminate; repeat match goal with H : match ?d with _ => _ end = _ |- _ => destruct d end; discriminate.
    + destruct (trigger_ops e) as [|o' [|]] eqn:Tr; try discriminate. exfalso. destruct e; cbn [view_ops trigger_ops] in *; try discriminate; repeat match goal with H : match ?d with _ => _ end = _ |- _ => destruct d end; discriminate.
Qed.
Lemma kept_trans a b c : kept name R a b -> kept name R b c -> kept name R a c.
Proof.
  intros (A1 & A2 & A3) (B1 & B2 & B3). split; [apply (still_trans _ _ _ _ _ Rtrans A1 B1)|].
  split; [apply (still_trans _ _ _ _ _ (fun _ _ _ _ _ => I) A2 B2)|apply (still_trans _ _ _ _ _ (fun _ _ _ _ _ => I) A3 B3)].
Qed.
Lemma execute_all_kept sent : Forall (fun st => removes (s_eff st) = false /\ P (s_eff st)) sent -> forall c c',
  execute_all name create alter replaceable sent c = Some c' -> kept name R c c'.
Proof.
  intros L. induction L as [|st l [Rm Pe] L IH]; intros c c'; cbn [execute_all].
  - intros H. injection H as ->. split; [now apply still_refl|]. split; apply still_refl; intros; exact I.
  - destruct (execute name create alter replaceable (s_eff st) c) as [d|] eqn:E; [|discriminate]. intros H. eapply kept_trans; [eapply execute_kept; eauto|auto].
Qed.
End Database.

(** ** PostgreSQL *)
Lemma pg_column_refl y : pg_column_kept y y.
Proof. split; [auto|]. split; [apply if_any_refl|]. split; [apply if_some_refl|apply if_any_refl]. Qed.
Lemma pg_column_trans x y z : pg_column_kept x y -> pg_column_kept y z -> pg_column_kept x z.
Proof.
  intros (A & B & C & D) (A' & B' & C' & D'). split; [auto|]. split; [eapply if_any_trans; eauto|]. split; [eapply if_some_trans; eauto|eapply if_any_trans; eauto].
Qed.
Lemma pg_table_refl g : pg_table_kept g g.
Proof. split; [apply still_refl, pg_column_refl|]. split; [apply if_some_refl|]. split; [apply incl_refl|]. split; apply incl_refl. Qed.
Lemma pg_table_trans a b c : pg_table_kept a b -> pg_table_kept b c -> pg_table_kept a c.
Proof.
  intros (A1 & A2 & A3 & A4 & A5) (B1 & B2 & B3 & B4 & B5). split; [apply (still_trans _ _ _ _ _ pg_column_trans A1 B1)|].
  split; [eapply if_some_trans; eauto|]. split; [eapply incl_tran; eauto|]. split; eapply incl_tran; eauto.
Qed.
Lemma pg_cols_kept g l : still c_name pg_column_kept (g_columns g) l -> pg_table_kept g (with_cols l g).
Proof. intros H. split; [exact H|]. split; [apply if_some_refl|]. split; [apply incl_refl|]. split; apply incl_refl. Qed.
Lemma pg_on_column_kept n f g g' : (forall y y', f y = Some y' -> c_name y' = c_name y /\ pg_column_kept y y') -> on_column n f g = Some g' -> g_name g' = g_name g /\ pg_table_kept g g'.
Proof.
  intros F. unfold on_column. destruct (named c_name n (g_columns g)) as [y|] eqn:N; [|discriminate]. destruct (f y) as [y'|] eqn:E; [|discriminate].
  intros H. injection H as <-. destruct (F _ _ E) as [Nm K]. split; [reflexivity|]. apply pg_cols_kept. now apply (still_replaced c_name pg_column_kept n y' y _ pg_column_refl).
Qed.
(** Of SET DEFAULT only when something is set. *)
Definition real_set (e : effect) : Prop := match e with EffSetDefault _ _ d => real_default (Some d) <> None | _ => True end.
Ltac easy_kept := split; [reflexivity|]; repeat split; cbn; try (intros; assumption); try apply if_any_refl; try apply if_some_refl; try tauto.
Lemma pg_add_fk_kept f g g' : add_fk f g = Some g' -> g_name g' = g_name g /\ pg_table_kept g g'.
Proof.
  unfold add_fk. destruct (_ && _); [|discriminate]. intros H. injection H as <-. split; [reflexivity|]. split; [apply still_refl, pg_column_refl|]. split; [apply if_some_refl|].
  cbn. split; [apply incl_refl|]. split; [apply incl_appl, incl_refl|apply incl_refl].
Qed.
Lemma pg_alter_kept castable e g g' : removes e = false -> real_set e -> pg_alter castable e g = Some g' -> g_name g' = g_name g /\ pg_table_kept g g'.
Proof.
  intros R Q. destruct e; cbn [removes] in R; try discriminate R; cbn [pg_alter]; try discriminate.
  - match goal with |- context [match ?d with _ => _ end] => destruct d end; try discriminate.
    + destruct (_ || _); [discriminate|]. intros H. injection H as <-. split; [reflexivity|]. split; [apply still_refl, pg_column_refl|]. split; [apply if_some_refl|].
      cbn. split; [apply incl_appl, incl_refl|]. split; apply incl_refl.
    + apply pg_add_fk_kept.
    + destruct (mem _ _); [discriminate|]. intros H. injection H as <-. split; [reflexivity|]. split; [apply still_refl, pg_column_refl|]. split; [apply if_some_refl|].
      cbn. split; [apply incl_refl|]. split; [apply incl_refl|apply incl_appl, incl_refl].
  - destruct (_ || _); [discriminate|]. match goal with |- context [if ?b then None else _] => destruct b end; [discriminate|]. destruct (is_unique _).
    + destruct (mem _ _); [discriminate|]. intros H. injection H as <-. split; [reflexivity|]. split; [apply still_app, pg_column_refl|]. split; [apply if_some_refl|].
      cbn. split; [apply incl_appl, incl_refl|]. split; apply incl_refl.
    + intros H. injection H as <-. split; [reflexivity|]. apply pg_cols_kept, still_app, pg_column_refl.
  - apply pg_on_column_kept. intros y y'. unfold alter_type. destruct (is_serial (wanted_type _)); [discriminate|]. destruct (negb _); [discriminate|]. destruct (is_serial (c_type y)).
    + destruct (base_serial _); [|discriminate]. destruct (c_array _); [discriminate|]. intros H. injection H as <-. easy_kept.
    + destruct (c_identity y) eqn:Ei; [destruct (_ && _); [|discriminate]|]; intros H; injection H as <-; split; try reflexivity; repeat split; cbn; auto; try apply if_any_refl; try apply if_some_refl.
  - apply pg_on_column_kept. intros y y' H. injection H as <-. easy_kept.
  - apply pg_on_column_kept. intros y y'. unfold add_identity. destruct (c_identity y) eqn:Ei; [discriminate|]. destruct (c_default y) eqn:Ed; [discriminate|]. destruct (c_notnull y) as [[]|] eqn:En; try discriminate.
    destruct (_ && _); [|discriminate]. intros H. injection H as <-. split; [reflexivity|]. repeat split; cbn; auto; try apply if_some_refl; try apply if_any_refl; intros X; rewrite ?Ei, ?Ed in *; congruence.
  - apply pg_on_column_kept. intros y y'. unfold change_identity. destruct (c_identity y) eqn:Ei; [|discriminate]. destruct (String.eqb _ _); [discriminate|]. intros H. injection H as <-.
    split; [reflexivity|]. repeat split; cbn; auto; try apply if_some_refl; try apply if_any_refl. discriminate.
  - cbn [real_set] in Q. apply pg_on_column_kept. intros y y'. unfold change_default. destruct (c_identity y) eqn:Ei; [discriminate|]. intros H. injection H as <-.
    split; [reflexivity|]. repeat split; cbn; auto; try apply if_some_refl; try apply if_any_refl. intros _. unfold kept_default. destruct (real_default _); [discriminate|contradiction].
  - destruct (_ && _); [|discriminate]. apply pg_on_column_kept. intros y y'. destruct (c_check y) eqn:Ec; [discriminate|]. intros H. injection H as <-.
    split; [reflexivity|]. repeat split; cbn; auto; try apply if_any_refl. intros x X. congruence.
  - destruct (g_pk g) as [[? ?]|] eqn:Ep; [discriminate|]. destruct (_ && _); [|discriminate]. intros H. injection H as <-. split; [reflexivity|]. split; [|split; [intros x X; congruence|cbn; repeat split; apply incl_refl]].
    cbn. apply still_map; intros c; unfold require; destruct (mem _ _); try reflexivity; try apply pg_column_refl. repeat split; cbn; auto; try apply if_any_refl; try apply if_some_refl.
  - apply pg_add_fk_kept.
Qed.
Theorem pg_nothing_lost castable replaceable desired current sent db db' : no_null_defaults desired ->
  let_through Postgres desired current sent -> execute_all g_name pg_create (pg_alter castable) replaceable sent db = Some db' -> kept g_name pg_table_kept db db'.
Proof.
  intros D L. apply let_through_removes in L. apply (execute_all_kept g_name pg_create (pg_alter castable) replaceable pg_table_kept real_set pg_table_refl pg_table_trans (pg_alter_kept castable)).
  apply Forall_forall. intros st I. rewrite Forall_forall in L. destruct (L st I) as [R A]. split; [exact R|]. destruct (s_eff st); try exact Logic.I. cbn in A |- *.
  destruct A as (z & Hc & _ & E). exact (D _ _ _ Hc E).
Qed.

(** ** SQL Server *)
Lemma ms_column_refl y : ms_column_kept y y.
Proof. repeat (split; [reflexivity|]). split; apply if_some_refl. Qed.
Lemma ms_column_trans x y z : ms_column_kept x y -> ms_column_kept y z -> ms_column_kept x z.
Proof.
  intros (A & B & C & D & E & F & G & H) (A' & B' & C' & D' & E' & F' & G' & H'). repeat (split; [congruence|]). split; eapply if_some_trans; eauto.
Qed.
Lemma ms_table_refl g : ms_table_kept g g.
Proof. split; [apply still_refl, ms_column_refl|]. split; [apply if_some_refl|]. split; apply incl_refl. Qed.
Lemma ms_table_trans a b c : ms_table_kept a b -> ms_table_kept b c -> ms_table_kept a c.
Proof.
  intros (A1 & A2 & A3 & A4) (B1 & B2 & B3 & B4). split; [apply (still_trans _ _ _ _ _ ms_column_trans A1 B1)|].
  split; [eapply if_some_trans; eauto|]. split; eapply incl_tran; eauto.
Qed.
Lemma ms_on_column_kept n f g g' : (forall y y', f y = Some y' -> c_name y' = c_name y /\ ms_column_kept y y') -> m_on_column n f g = Some g' -> m_name g' = m_name g /\ ms_table_kept g g'.
Proof.
  intros F. unfold m_on_column. destruct (named c_name n (m_columns g)) as [y|] eqn:N; [|discriminate]. destruct (f y) as [y'|] eqn:E; [|discriminate].
  intros H. injection H as <-. destruct (F _ _ E) as [Nm K]. split; [reflexivity|]. split; [|split; [apply if_some_refl|split; apply incl_refl]]. now apply (still_replaced c_name ms_column_kept n y' y _ ms_column_refl).
Qed.
Lemma ms_indexed_kept i g g' : ms_indexed i g = Some g' -> m_name g' = m_name g /\ ms_table_kept g g'.
Proof.
  unfold ms_indexed. destruct (_ || _); [discriminate|]. intros H. injection H as <-. split; [reflexivity|].
  split; [apply still_refl, ms_column_refl|]. split; [apply if_some_refl|]. split; [apply incl_appl, incl_refl|apply incl_refl].
Qed.
Lemma ms_alter_kept w e g g' : removes e = false -> True -> ms_alter w e g = Some g' -> m_name g' = m_name g /\ ms_table_kept g g'.
Proof.
  intros R _. destruct e; cbn [removes] in R; try discriminate R; cbn [ms_alter]; try discriminate.
  - match goal with |- context [match ?d with _ => _ end] => destruct d end; try discriminate. apply ms_indexed_kept.
  - destruct (_ || _); [discriminate|]. intros H. injection H as <-. split; [reflexivity|]. split; [apply still_app, ms_column_refl|]. split; [apply if_some_refl|]. split; apply incl_refl.
  - destruct (df_value _); [|discriminate]. destruct (w_written _ _); [|discriminate]. apply ms_on_column_kept. intros y y'. destruct (c_default y) eqn:Ed; [discriminate|]. destruct (c_identity y); [discriminate|].
    intros H. injection H as <-. split; [reflexivity|]. repeat (split; [reflexivity|]). split; [apply if_some_refl|]. intros x X. congruence.
  - destruct (w_bare _ _); [|discriminate]. apply ms_on_column_kept. intros y y'. destruct (c_check y) eqn:Ec; [discriminate|].
    intros H. injection H as <-. split; [reflexivity|]. repeat (split; [reflexivity|]). split; [|apply if_some_refl]. intros x X. congruence.
  - destruct (m_key g) eqn:Ek; [discriminate|]. destruct (_ && _); [|discriminate]. intros H. injection H as <-. split; [reflexivity|].
    split; [apply still_refl, ms_column_refl|]. split; [intros x X; congruence|]. split; apply incl_refl.
  - apply ms_indexed_kept.
  - destruct (_ && _); [|discriminate]. intros H. injection H as <-. split; [reflexivity|]. split; [apply still_refl, ms_column_refl|]. split; [apply if_some_refl|]. split; [apply incl_refl|apply incl_appl, incl_refl].
Qed.
Theorem ms_nothing_lost w replaceable desired current sent db db' :
  let_through Mssql desired current sent -> execute_all m_name (ms_create w) (ms_alter w) replaceable sent db = Some db' -> kept m_name ms_table_kept db db'.
Proof.
  intros L. apply let_through_removes in L. apply (execute_all_kept m_name (ms_create w) (ms_alter w) replaceable ms_table_kept (fun _ => True) ms_table_refl ms_table_trans (ms_alter_kept w)).
  eapply Forall_impl; [|exact L]. cbn. tauto.
Qed.
