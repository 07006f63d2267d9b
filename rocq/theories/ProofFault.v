(** The error of the planner names a real fault (C99). *)
From Coq Require Import String Ascii List ZArith Bool Lia.
From Verif Require Import GoStr GoStrFacts Ast Generator SpecPlan SpecFault ProofPlan ProofSteps ProofTables
  ProofCompare ProofExact ProofObjects ProofTotal.
Import ListNotations.
Local Open Scope string_scope.
Local Open Scope list_scope.

(** Every error of [r] is a [P]. *)
Definition blames {A} (P : gerror -> Prop) (r : res A) : Prop := forall e, r = Err e -> P e.

Lemma bl_ok {A} P (a : A) : blames P (Ok a).
Proof. intros e H. discriminate. Qed.
Lemma bl_panic {A} P : @blames A P Panic.
Proof. intros e H. discriminate. Qed.
Lemma bl_fatal {A} P : @blames A P Fatal.
Proof. intros e H. discriminate. Qed.
Lemma bl_err {A} (P : gerror -> Prop) e : P e -> @blames A P (Err e).
Proof. intros H e' E. injection E as <-. exact H. Qed.
Lemma bl_bind {A B} P (x : res A) (f : A -> res B) : blames P x -> (forall a, x = Ok a -> blames P (f a)) -> blames P (bind x f).
Proof. destruct x as [a|e0| |]; intros Hx Hf e E; simpl in E; try discriminate; [now apply (Hf a eq_refl)|injection E as <-; now apply Hx]. Qed.
Lemma bl_concat_map {A B} P (f : A -> res (list B)) l : (forall x, In x l -> blames P (f x)) -> blames P (concat_map f l).
Proof.
  induction l as [|x l IH]; simpl; intros H; [apply bl_ok|].
  apply bl_bind; [auto|]. intros a _. apply bl_bind; [auto|]. intros; apply bl_ok.
Qed.
Lemma bl_mono {A} (P Q : gerror -> Prop) (r : res A) : (forall e, P e -> Q e) -> blames P r -> blames Q r.
Proof. intros H Hr e E. auto. Qed.

Create HintDb bl.
#[local] Hint Resolve bl_ok bl_panic bl_fatal : bl.

(** ** One table *)
Section Table.
Context (m : mode) (t : table) (olds : list column).
Notation P := (bad_table m t olds).

(** [c] is written for a column of [t], or of the table as it is. *)
Definition from (c : column) : Prop := exists c0,
  (In c0 (t_columns t) \/ (m = Mysql /\ In c0 olds)) /\ c_name c = c_name c0 /\ c_default c = c_default c0 /\
  (c_key c = c_key c0 \/ c_key c = KeyPrimary).

Lemma bl_default c d v : from c -> c_default c = Some d -> df_value d = Some v -> blames P (generate_default_definition v).
Proof.
  intros (c0 & Hi & _ & Hd & _) Ed Ev. rewrite Hd in Ed.
  assert (H : ~ In (v_type v) printable -> P (EUnsupportedDefault (v_type v))) by (intros Hn; econstructor; eauto).
  unfold generate_default_definition. destruct (v_type v); auto with bl;
    apply bl_err, H; simpl; intuition discriminate.
Qed.

Lemma bl_column_definition c u : from c -> blames P (generate_column_definition m c u).
Proof.
  intros Hf. unfold generate_column_definition. cbv zeta. apply bl_bind.
  { destruct (c_default c) as [d|] eqn:Ed; [|auto with bl]. destruct (df_value d) as [v|] eqn:Ev; [|auto with bl].
    apply bl_bind; [eapply bl_default; eauto|]. auto with bl. }
  intros d7 _. apply bl_bind.
  { destruct (c_key c) eqn:Ek; auto with bl; apply bl_err; destruct Hf as (c0 & Hi & Hn & _ & Hk);
      (destruct Hk as [Hk|Hk]; [|congruence]); eapply bad_key; eauto; rewrite <- Hk, Ek; auto. }
  intros d12 _. apply bl_bind; [|auto with bl].
  destruct (match c_identity c with Some i => if String.eqb (id_behavior i) "" then None else Some i | None => None end);
    [auto with bl|].
  destruct m; auto with bl. destruct (c_sequence c) as [s|]; auto with bl.
  destruct (sq_start_with s); auto with bl. destruct (sq_increment_by s); auto with bl.
  destruct (c_identity c); auto with bl.
Qed.

Lemma bl_mssql_options Q l : blames Q (mssql_options l).
Proof.
  induction l as [|o l IH]; simpl; [auto with bl|].
  destruct (io_value o); [|auto with bl]. apply bl_bind; auto with bl.
Qed.

Lemma bl_add_index Q n i : blames Q (stmt_add_index m n i).
Proof.
  unfold stmt_add_index. apply bl_bind; [|auto with bl].
  unfold generate_add_index. cbv zeta. apply bl_bind.
  - unfold generate_index_option_definition. destruct (i_options i) as [|o l]; [auto with bl|]. destruct m; auto with bl.
    + destruct (io_value o); auto with bl.
    + apply bl_bind; [apply bl_mssql_options|]. auto with bl.
  - intros. destruct m; auto with bl. destruct (i_primary i); auto with bl.
Qed.

Lemma from_autoinc b c : from c -> from (set_autoinc b c).
Proof. intros (c0 & H). exists c0. exact H. Qed.

Context (cur : table).

Lemma bl_column prev c : from c -> blames P (ddls_column m cur t prev c).
Proof.
  intros Hc. unfold ddls_column. destruct (find_column (t_columns cur) (c_name c)) as [cc|] eqn:Ef.
  - assert (Hdc : from (if c_autoinc cc then c else set_autoinc false c)) by (destruct (c_autoinc cc); auto using from_autoinc).
    set (dc := if c_autoinc cc then c else set_autoinc false c) in *. clearbody dc.
    assert (Hm : forall u, blames P (generate_column_definition m dc u)) by (intros; now apply bl_column_definition).
    assert (Hd : forall d v, c_default dc = Some d -> df_value d = Some v -> blames P (generate_default_definition v))
      by (intros; eapply bl_default; eauto).
    destruct m.
    + unfold ddls_column_mysql. cbv zeta. apply bl_bind; [|auto with bl].
      destruct (_ || _); [|auto with bl]. apply bl_bind; auto with bl.
    + unfold ddls_column_postgres. apply bl_bind; [|auto with bl]. unfold pg_default.
      destruct (are_same_default _ _); [auto with bl|]. destruct (c_default dc) as [d|]; [|auto with bl].
      destruct (df_value d) as [v|] eqn:Ev; [|auto with bl]. apply bl_bind; [eauto|auto with bl].
    + auto with bl.
    + unfold ddls_column_mssql. apply bl_bind.
      { unfold ms_identity. destruct (are_same_identity _ _); [auto with bl|]. apply bl_bind; [|auto with bl].
        destruct (c_identity dc); [|auto with bl]. apply bl_bind; auto with bl. }
      intros a _. apply bl_bind; [|auto with bl]. unfold ms_default.
      destruct (are_same_default _ _); [auto with bl|]. apply bl_bind; [|auto with bl].
      destruct (c_default dc) as [d|]; [|auto with bl].
      destruct (df_value d) as [v|] eqn:Ev; [|auto with bl]. apply bl_bind; [eauto|auto with bl].
  - unfold ddls_new_column. apply bl_bind; [now apply bl_column_definition|auto with bl].
Qed.

Lemma bl_columns l : (forall c, In c l -> from c) -> forall prev, blames P (ddls_columns m cur t prev l).
Proof.
  induction l as [|c l IH]; intros H prev; cbn [ddls_columns]; [auto with bl|].
  apply bl_bind; [apply bl_column; apply H; now left|]. intros a _. apply bl_bind; [|auto with bl].
  apply IH. intros c' Hc. apply H. now right.
Qed.

Lemma bl_create_table : (m = Mysql -> forall c, In c (t_columns cur) -> from c) -> blames P (ddls_for_create_table m cur t).
Proof.
  intros Hcur. unfold ddls_for_create_table.
  assert (Hown : forall c, In c (t_columns t) -> from c) by (intros c Hc; exists c; auto).
  apply bl_bind; [now apply bl_columns|]. intros ? ?. apply bl_bind.
  { unfold ddls_remove_autoinc. destruct m eqn:Em; auto with bl. apply bl_concat_map. intros cc Hcc. cbv zeta.
    destruct (_ && _); [|auto with bl]. rewrite <- Em. apply bl_bind; [|auto with bl].
    apply bl_column_definition, from_autoinc. auto. }
  intros ? ?. apply bl_bind.
  { unfold ddls_primary_key. destruct (are_same_primary_keys _ _); [auto with bl|]. apply bl_bind.
    - destruct (primary_key cur); [|auto with bl]. destruct m; auto with bl.
      destruct (split_first _ _) as [[]|]; auto with bl.
    - intros ? ?. apply bl_bind; [|auto with bl]. destruct (primary_key t); [|auto with bl].
      apply bl_bind; [apply bl_add_index|auto with bl]. }
  intros ? ?. apply bl_bind.
  { apply bl_concat_map. intros i Hi. unfold ddls_index. destruct (i_primary i); [auto with bl|].
    destruct (find_index _ _); [destruct (are_same_indexes _ _); [auto with bl|]|];
      (apply bl_bind; [apply bl_add_index|auto with bl]). }
  intros ? ?. apply bl_bind.
  { unfold ddls_add_autoinc. destruct m eqn:Em; auto with bl. apply bl_concat_map. intros dc Hdc. cbv zeta.
    destruct (_ && _); [|auto with bl]. rewrite <- Em. apply bl_bind; [|auto with bl].
    apply bl_column_definition. auto. }
  intros ? ?. apply bl_bind; [|auto with bl].
  apply bl_concat_map. intros f Hf. unfold ddls_fk.
  destruct (String.eqb_spec (fk_constraint f) ""); [apply bl_err; now constructor|].
  destruct (find_fk _ _); [destruct (are_same_foreign_keys _ _ _)|]; auto with bl.
Qed.

End Table.

(** ** The simulated state *)

Lemma in_inline {A} (f : table -> list A) n l x : In x (inline f n l) <-> exists t, In t (tables_in l) /\ t_name t = n /\ In x (f t).
Proof.
  unfold inline. rewrite in_flat_map. split; intros (t & Ht & H).
  - destruct (String.eqb_spec (t_name t) n); [eauto|destruct H].
  - exists t. split; [assumption|]. destruct H as [Hn H]. apply String.eqb_eq in Hn. now rewrite Hn.
Qed.

(** What a table of the simulated database holds comes from the statements [l]. *)
Definition origin (l : list ddl) (t : table) : Prop :=
  (forall c, In c (t_columns t) -> exists c0, In c0 (inline t_columns (t_name t) l) /\
     c_name c = c_name c0 /\ c_default c = c_default c0 /\ (c_key c = c_key c0 \/ c_key c = KeyPrimary)) /\
  incl (t_indexes t) (inline t_indexes (t_name t) l ++ indexes_on (t_name t) l).

Definition declared (l : list ddl) (t : table) : Prop :=
  incl (t_columns t) (inline t_columns (t_name t) l) /\
  incl (t_indexes t) (inline t_indexes (t_name t) l ++ indexes_on (t_name t) l) /\
  incl (t_fks t) (inline t_fks (t_name t) l ++ fks_on (t_name t) l) /\
  incl (t_policies t) (inline t_policies (t_name t) l ++ policies_on (t_name t) l).

Lemma incl_parts {A} (x a b c d : list A) : incl x (a ++ b) -> incl x ((a ++ c) ++ (b ++ d)).
Proof. intros H y Hy. apply H in Hy. rewrite !in_app_iff in *. tauto. Qed.

Lemma origin_app l l' t : origin l t -> origin (l ++ l') t.
Proof.
  intros [Hc Hi]. split.
  - intros c H. destruct (Hc c H) as (c0 & H0 & R). exists c0. split; [|exact R]. rewrite inline_app, in_app_iff. auto.
  - rewrite inline_app, indexes_on_app. now apply incl_parts.
Qed.

Lemma declared_app l l' t : declared l t -> declared (l ++ l') t.
Proof.
  intros (H1 & H2 & H3 & H4). unfold declared. rewrite !inline_app, indexes_on_app, fks_on_app, policies_on_app.
  split; [now apply incl_appl|]. split; [now apply incl_parts|]. split; now apply incl_parts.
Qed.

Lemma Forall_update (P : table -> Prop) f n l :
  Forall P l -> (forall t, P t -> t_name t = n -> P (f t)) -> Forall P (update_table f n l).
Proof.
  intros Hl Hf. induction Hl as [|t l Ht Hl IH]; simpl; [constructor|].
  destruct (String.eqb_spec (t_name t) n); constructor; auto.
Qed.

Lemma merge_incl {A} (nm : A -> string) (g : list A -> list string) l2 : forall acc x,
  In x (fold_left (fun acc c => if contains_string (g acc) (nm c) then acc ++ [c] else acc) l2 acc) ->
  In x acc \/ In x l2.
Proof.
  induction l2 as [|c l2 IH]; simpl; intros acc x H; [auto|].
  apply IH in H. destruct (contains_string _ _); rewrite ?in_app_iff in H; simpl in H; tauto.
Qed.

Lemma origin_merge l t x : origin l x -> origin l t -> t_name x = t_name t -> origin l (merge_table x t).
Proof.
  intros [X1 X2] [T1 T2] E. split; simpl.
  - intros c H. apply merge_incl in H as [H|H]; [auto|]. rewrite E. auto.
  - intros i H. apply merge_incl in H as [H|H]; [auto|]. rewrite E. auto.
Qed.

Lemma tables_one s t l : tables_in (l ++ [CreateTable s t]) = tables_in l ++ [t].
Proof. now rewrite tables_in_app. Qed.

Lemma origin_own l s t : origin (l ++ [CreateTable s t]) t.
Proof.
  assert (Hin : In t (tables_in (l ++ [CreateTable s t]))) by (rewrite tables_one, in_app_iff; simpl; auto).
  split.
  - intros c H. exists c. split; [|auto]. apply in_inline. eauto.
  - intros i H. apply in_app_iff. left. apply in_inline. eauto.
Qed.

Lemma declared_own l s t : declared (l ++ [CreateTable s t]) t.
Proof.
  assert (Hin : In t (tables_in (l ++ [CreateTable s t]))) by (rewrite tables_one, in_app_iff; simpl; auto).
  split; [|split; [|split]]; intros c H; rewrite ?in_app_iff; try left; apply in_inline; eauto.
Qed.

Definition index_ddl (d : ddl) (n : string) (i : index) : Prop := exists s, d = CreateIndex s n i \/ d = AddIndex s n i.

Lemma index_ddl_on d n i l : index_ddl d n i -> In i (indexes_on n (l ++ [d])).
Proof.
  intros (s & H). rewrite indexes_on_app, in_app_iff. right.
  destruct H as [->| ->]; simpl; rewrite String.eqb_refl; now left.
Qed.

Lemma origin_add_index l d n i t : index_ddl d n i -> t_name t = n -> origin l t ->
  origin (l ++ [d]) (set_indexes (t_indexes t ++ [i]) t).
Proof.
  intros Hd Hn H. apply (origin_app l [d]) in H. destruct H as [H1 H2]. split; [exact H1|]. simpl.
  apply incl_app; [exact H2|]. intros x [<-|[]]. apply in_app_iff. right. rewrite Hn. now apply index_ddl_on.
Qed.

Lemma origin_replace_index l d n i t : index_ddl d n i -> t_name t = n -> origin l t ->
  origin (l ++ [d]) (set_indexes (replace_index i (t_indexes t)) t).
Proof.
  intros Hd Hn H. apply (origin_app l [d]) in H. destruct H as [H1 H2]. split; [exact H1|]. simpl.
  intros x Hx. unfold replace_index in Hx. apply in_map_iff in Hx as (y & Hy & Hin).
  destruct (String.eqb _ _); subst x; [apply in_app_iff; right; rewrite Hn; now apply index_ddl_on|auto].
Qed.

Lemma declared_add_index l d n i t : index_ddl d n i -> t_name t = n -> declared l t ->
  declared (l ++ [d]) (set_indexes (t_indexes t ++ [i]) t).
Proof.
  intros Hd Hn H. apply (declared_app l [d]) in H. destruct H as (H1 & H2 & H3 & H4).
  split; [exact H1|]. split; [|split; [exact H3|exact H4]]. simpl.
  apply incl_app; [exact H2|]. intros x [<-|[]]. apply in_app_iff. right. rewrite Hn. now apply index_ddl_on.
Qed.

Lemma declared_add_fk l s n f t : t_name t = n -> declared l t ->
  declared (l ++ [AddForeignKey s n f]) (set_fks (t_fks t ++ [f]) t).
Proof.
  intros Hn H. apply (declared_app l [AddForeignKey s n f]) in H. destruct H as (H1 & H2 & H3 & H4).
  split; [exact H1|]. split; [exact H2|]. split; [|exact H4]. simpl.
  apply incl_app; [exact H3|]. intros x [<-|[]]. rewrite !in_app_iff. right.
  rewrite fks_on_app, in_app_iff. right. simpl. rewrite Hn, String.eqb_refl. now left.
Qed.

Lemma declared_add_policy l s n p t : t_name t = n -> declared l t ->
  declared (l ++ [AddPolicy s n p]) (set_policies (t_policies t ++ [p]) t).
Proof.
  intros Hn H. apply (declared_app l [AddPolicy s n p]) in H. destruct H as (H1 & H2 & H3 & H4).
  split; [exact H1|]. split; [exact H2|]. split; [exact H3|]. simpl.
  apply incl_app; [exact H4|]. intros x [<-|[]]. rewrite !in_app_iff. right.
  rewrite policies_on_app, in_app_iff. right. simpl. rewrite Hn, String.eqb_refl. now left.
Qed.

(** Before the statement after [before]. *)
Record told (current before : list ddl) (g : gstate) : Prop := {
  to_cur : Forall (origin (current ++ before)) (g_cur g);
  to_names : forall n, In n (map t_name (g_cur g)) <-> In n (created (current ++ before));
  to_des : Forall (declared before) (g_des g);
  to_des_names : map t_name (g_des g) = created before;
  to_views : map vw_name (g_des_views g) = map vw_name (views_in before) }.

Section Steps.
Context (m : mode) (desired current : list ddl).
Notation F := (fault m desired current).

Lemma bl_step_index before d after g n i :
  desired = before ++ d :: after -> index_ddl d n i -> told current before g ->
  blames F (step_index m n i d g) /\
  forall g' o, step_index m n i d g = Ok (g', o) -> told current (before ++ [d]) g'.
Proof.
  intros Hdes Hd [T1 T2 T3 T4 T5].
  assert (Hn : ddl_table d = Some n) by (destruct Hd as (s & [->| ->]); reflexivity).
  assert (Hcr : created (before ++ [d]) = created before /\ created [d] = [])
    by (rewrite created_app; destruct Hd as (s & [->| ->]); simpl; now rewrite app_nil_r).
  assert (Hv : views_in (before ++ [d]) = views_in before)
    by (rewrite views_in_app; destruct Hd as (s & [->| ->]); simpl; now rewrite app_nil_r).
  unfold step_index. destruct (find_table (g_cur g) n) as [ct|] eqn:Ec.
  2:{ apply find_table_none in Ec. rewrite T2, created_app, in_app_iff in Ec. split; [|discriminate].
      apply bl_err. eapply fault_no_table; eauto. }
  assert (Hcur : forall u o, (u, o) = match find_index (t_indexes ct) (i_name i) with
        | None => (update_table (fun t => set_indexes (t_indexes t ++ [i]) t) n (g_cur g), [verbatim d])
        | Some ci =>
            if are_same_indexes ci i then (g_cur g, [])
            else (update_table (fun t => set_indexes (replace_index i (t_indexes t)) t) n (g_cur g),
                  [stmt_drop_index m (t_name ct) (i_name ci); verbatim d])
        end -> Forall (origin (current ++ (before ++ [d]))) u /\ map t_name u = map t_name (g_cur g)).
  { intros u o Hu. rewrite app_assoc.
    assert (Hkeep : Forall (origin ((current ++ before) ++ [d])) (g_cur g))
      by (eapply Forall_impl; [|exact T1]; intros; now apply origin_app).
    assert (Hup : forall f, (forall t, t_name t = n -> origin (current ++ before) t -> origin ((current ++ before) ++ [d]) (f t)) ->
      Forall (origin ((current ++ before) ++ [d])) (update_table f n (g_cur g))).
    { intros f Hf. clear - T1 Hf. induction T1 as [|t l Ht Hl IH]; simpl; [constructor|].
      destruct (String.eqb_spec (t_name t) n); constructor; auto using origin_app.
      eapply Forall_impl; [|exact Hl]. intros; now apply origin_app. }
    destruct (find_index _ _) as [ci|]; [destruct (are_same_indexes ci i)|]; injection Hu as -> ->;
      rewrite ?update_table_names by reflexivity; (split; [|reflexivity]); [exact Hkeep| |]; apply Hup; intros t Ht Ho.
    - eapply origin_replace_index; eauto.
    - eapply origin_add_index; eauto. }
  destruct (match find_index _ _ with Some _ => _ | None => _ end) as [u o'] eqn:Eu.
  destruct (Hcur u o' eq_refl) as [Hu1 Hu2]. clear Hcur Eu.
  destruct (find_table (g_des g) n) as [dt|] eqn:Ed.
  2:{ apply find_table_none in Ed. rewrite T4 in Ed. split; [|discriminate]. apply bl_err. eapply fault_too_early; eauto. }
  apply find_table_some in Ed as [Hdt Hdn].
  rewrite contains_string_mem. destruct (mem (i_name i) _) eqn:Em.
  - split; [|discriminate]. apply bl_err. apply mem_spec in Em.
    eapply fault_twice; [exact Hdes| |].
    + destruct Hd as (s & [->| ->]); reflexivity.
    + rewrite Forall_forall in T3. destruct (T3 dt Hdt) as (_ & H2 & _).
      assert (Hin : In (i_name i) (index_names_of n before)).
      { unfold index_names in Em. apply in_map_iff in Em as (j & Hj & Hin). rewrite <- Hj.
        unfold index_names_of. apply in_map. apply H2 in Hin. now rewrite Hdn in Hin. }
      destruct Hd as (s & [->| ->]); exact Hin.
  - split; [auto with bl|]. intros g' o H. injection H as <- <-. constructor; simpl.
    + exact Hu1.
    + intros k. rewrite Hu2, T2, !created_app, (proj2 Hcr), app_nil_r. reflexivity.
    + clear - T3 Hd. induction T3 as [|t l Ht Hl IH]; simpl; [constructor|].
      destruct (String.eqb_spec (t_name t) n); constructor; auto using declared_app.
      * eapply declared_add_index; eauto.
      * eapply Forall_impl; [|exact Hl]. intros; now apply declared_app.
    + rewrite update_table_names by reflexivity. now rewrite T4, (proj1 Hcr).
    + now rewrite Hv.
Qed.

Lemma created_other before d : (forall s t, d <> CreateTable s t) -> created (before ++ [d]) = created before /\ created [d] = [].
Proof.
  intros H. rewrite created_app. assert (E : created [d] = []) by (destruct d; try reflexivity; exfalso; eapply H; reflexivity).
  rewrite E. simpl. now rewrite app_nil_r.
Qed.

Lemma views_other before d : (forall v, d <> DView v) -> views_in (before ++ [d]) = views_in before.
Proof. intros H. rewrite views_in_app. destruct d; simpl; rewrite ?app_nil_r; try reflexivity. exfalso. eapply H; reflexivity. Qed.

Lemma Forall_origin_app l d (ts : list table) : Forall (origin l) ts -> Forall (origin (l ++ [d])) ts.
Proof. apply Forall_impl. intros; now apply origin_app. Qed.
Lemma Forall_declared_app l d (ts : list table) : Forall (declared l) ts -> Forall (declared (l ++ [d])) ts.
Proof. apply Forall_impl. intros; now apply declared_app. Qed.

Lemma bl_step before d after g :
  desired = before ++ d :: after -> told current before g ->
  blames F (step m g d) /\ forall g' o, step m g d = Ok (g', o) -> told current (before ++ [d]) g'.
Proof.
  intros Hdes T. destruct d as [s t|s n i|s n i|s n i|s n f|s n p|v|t]; cbn [step].
  - destruct T as [T1 T2 T3 T4 T5]. unfold step_create_table.
    destruct (find_table (g_cur g) (t_name t)) as [ct|] eqn:Ec.
    + apply find_table_some in Ec as [Hct Hcn]. split.
      * apply bl_bind; [|auto with bl].
        eapply bl_mono; [|apply (bl_create_table m t (inline t_columns (t_name t) (current ++ before)))].
        { intros e He. eapply fault_table; [exact Hdes| |exact He]. rewrite <- Hcn. apply T2. now apply in_map. }
        intros Hm c Hc. rewrite Forall_forall in T1. destruct (T1 ct Hct) as [Hcols _].
        destruct (Hcols c Hc) as (c0 & H0 & R). exists c0. rewrite Hcn in H0. auto.
      * intros g' o H. bind_inv H. injection H as <- <-. constructor; simpl.
        -- rewrite app_assoc. apply Forall_update; [now apply Forall_origin_app|].
           intros x Hx Hn. apply origin_merge; [exact Hx|apply origin_own|exact Hn].
        -- intros k. rewrite update_table_names by reflexivity. rewrite app_assoc, created_app, in_app_iff, T2. simpl.
           split; [auto|]. intros [H|[<-|[]]]; [exact H|]. rewrite <- Hcn. apply T2. now apply in_map.
        -- apply Forall_app. split; [now apply Forall_declared_app|]. constructor; [apply declared_own|constructor].
        -- now rewrite map_app, T4, created_app.
        -- now rewrite views_other by discriminate.
    + split; [auto with bl|]. intros g' o H. injection H as <- <-. constructor; simpl.
      * rewrite app_assoc. apply Forall_app. split; [now apply Forall_origin_app|]. constructor; [apply origin_own|constructor].
      * intros k. rewrite map_app, app_assoc, created_app, !in_app_iff, T2. reflexivity.
      * apply Forall_app. split; [now apply Forall_declared_app|]. constructor; [apply declared_own|constructor].
      * now rewrite map_app, T4, created_app.
      * now rewrite views_other by discriminate.
  - eapply bl_step_index; eauto. exists s; auto.
  - eapply bl_step_index; eauto. exists s; auto.
  - split; [|discriminate]. apply bl_err. apply fault_desired. rewrite Hdes, in_app_iff. simpl. auto.
  - destruct T as [T1 T2 T3 T4 T5]. unfold step_fk.
    destruct (created_other before (AddForeignKey s n f)) as [C1 C2]; [discriminate|].
    destruct (find_table (g_des g) n) as [dt|] eqn:Ed.
    2:{ apply find_table_none in Ed. rewrite T4 in Ed. split; [|discriminate]. apply bl_err.
        eapply (fault_too_early _ _ _ before (AddForeignKey s n f)); eauto. }
    apply find_table_some in Ed as [Hdt Hdn]. rewrite contains_string_mem. destruct (mem _ _) eqn:Em.
    + split; [|discriminate]. apply bl_err. apply mem_spec in Em.
      eapply (fault_twice _ _ _ before (AddForeignKey s n f)); [exact Hdes|reflexivity|]. simpl.
      rewrite Forall_forall in T3. destruct (T3 dt Hdt) as (_ & _ & H3 & _).
      unfold fk_names in Em. apply in_map_iff in Em as (j & Hj & Hin). rewrite <- Hj.
      unfold fk_names_of. apply in_map. apply H3 in Hin. now rewrite Hdn in Hin.
    + split; [auto with bl|]. intros g' o H. injection H as <- <-. constructor; simpl.
      * rewrite app_assoc. now apply Forall_origin_app.
      * intros k. rewrite app_assoc, created_app, C2, app_nil_r. apply T2.
      * clear - T3. induction T3 as [|t l Ht Hl IH]; simpl; [constructor|].
        destruct (String.eqb_spec (t_name t) n); constructor; auto using declared_app, declared_add_fk.
        now apply Forall_declared_app.
      * rewrite update_table_names by reflexivity. now rewrite T4.
      * now rewrite views_other by discriminate.
  - destruct T as [T1 T2 T3 T4 T5]. unfold step_policy.
    destruct (created_other before (AddPolicy s n p)) as [C1 C2]; [discriminate|].
    destruct (find_table (g_cur g) n) as [ct|] eqn:Ec.
    2:{ apply find_table_none in Ec. rewrite T2, created_app, in_app_iff in Ec. split; [|discriminate].
        apply bl_err. eapply (fault_no_table _ _ _ before (AddPolicy s n p)); eauto. }
    assert (Hcur : forall u o, (u, o) = match find_policy (t_policies ct) (p_name p) with
        | None => (update_table (fun t => set_policies (t_policies t ++ [p]) t) n (g_cur g), [verbatim (AddPolicy s n p)])
        | Some cp => if are_same_policies cp p then (g_cur g, [])
            else (g_cur g, [stmt_drop_policy m (p_name cp) (t_name ct); verbatim (AddPolicy s n p)])
        end -> Forall (origin (current ++ (before ++ [AddPolicy s n p]))) u /\ map t_name u = map t_name (g_cur g)).
    { intros u o Hu. rewrite app_assoc.
      assert (Hkeep := Forall_origin_app _ (AddPolicy s n p) _ T1).
      destruct (find_policy _ _) as [ci|]; [destruct (are_same_policies ci p)|]; injection Hu as -> ->;
        rewrite ?update_table_names by reflexivity; (split; [|reflexivity]); [exact Hkeep|exact Hkeep|].
      apply Forall_update; [exact Hkeep|]. intros t Ht _. exact Ht. }
    destruct (match find_policy _ _ with Some _ => _ | None => _ end) as [u o'] eqn:Eu.
    destruct (Hcur u o' eq_refl) as [Hu1 Hu2]. clear Hcur Eu.
    destruct (find_table (g_des g) n) as [dt|] eqn:Ed.
    2:{ apply find_table_none in Ed. rewrite T4 in Ed. split; [|discriminate]. apply bl_err.
        eapply (fault_too_early _ _ _ before (AddPolicy s n p)); eauto. }
    apply find_table_some in Ed as [Hdt Hdn]. rewrite contains_string_mem. destruct (mem _ _) eqn:Em.
    + split; [|discriminate]. apply bl_err. apply mem_spec in Em.
      eapply (fault_twice _ _ _ before (AddPolicy s n p)); [exact Hdes|reflexivity|]. simpl.
      rewrite Forall_forall in T3. destruct (T3 dt Hdt) as (_ & _ & _ & H4).
      unfold policy_names in Em. apply in_map_iff in Em as (j & Hj & Hin). rewrite <- Hj.
      unfold policy_names_of. apply in_map. apply H4 in Hin. now rewrite Hdn in Hin.
    + split; [auto with bl|]. intros g' o H. injection H as <- <-. constructor; simpl.
      * exact Hu1.
      * intros k. rewrite Hu2, T2, app_assoc, (created_app (current ++ before)), C2, app_nil_r. reflexivity.
      * clear - T3. induction T3 as [|t l Ht Hl IH]; simpl; [constructor|].
        destruct (String.eqb_spec (t_name t) n); constructor; auto using declared_app, declared_add_policy.
        now apply Forall_declared_app.
      * rewrite update_table_names by reflexivity. now rewrite T4.
      * now rewrite views_other by discriminate.
  - destruct T as [T1 T2 T3 T4 T5]. unfold step_view.
    destruct (created_other before (DView v)) as [C1 C2]; [discriminate|].
    rewrite contains_string_mem. destruct (mem _ _) eqn:Em.
    + split; [|discriminate]. apply bl_err. apply mem_spec in Em. unfold view_names in Em. rewrite T5 in Em.
      eapply fault_view_twice; eauto.
    + split; [auto with bl|]. intros g' o H. injection H as <- <-. constructor; simpl.
      * rewrite app_assoc. now apply Forall_origin_app.
      * intros k. rewrite app_assoc, created_app, C2, app_nil_r. apply T2.
      * now apply Forall_declared_app.
      * now rewrite T4.
      * now rewrite views_in_app, !map_app, T5.
  - assert (Hk : forall g', g_cur g' = g_cur g -> g_des g' = g_des g -> g_des_views g' = g_des_views g ->
      told current (before ++ [DTrigger t]) g').
    { destruct T as [T1 T2 T3 T4 T5]. destruct (created_other before (DTrigger t)) as [C1 C2]; [discriminate|].
      intros g' E1 E2 E3. constructor; rewrite ?E1, ?E2, ?E3.
      * rewrite app_assoc. now apply Forall_origin_app.
      * intros k. rewrite app_assoc, created_app, C2, app_nil_r. apply T2.
      * now apply Forall_declared_app.
      * now rewrite T4.
      * now rewrite views_other by discriminate. }
    unfold step_trigger. destruct (trigger_definition m t); (split; [auto with bl|]);
      intros g' o H; injection H as <- <-; apply Hk; reflexivity.
Qed.

Lemma bl_steps l : forall before g, desired = before ++ l -> told current before g ->
  blames F (steps m g l) /\ forall g' o, steps m g l = Ok (g', o) -> told current desired g'.
Proof.
  induction l as [|d l IH]; intros before g Hd T; cbn [steps].
  - split; [auto with bl|]. intros g' o H. injection H as <- <-. now rewrite Hd, app_nil_r.
  - destruct (bl_step before d l g Hd T) as [B1 B2].
    assert (Hd' : desired = (before ++ [d]) ++ l) by (now rewrite <- app_assoc).
    split.
    + apply bl_bind; [exact B1|]. intros [g1 a] E. destruct (IH _ g1 Hd' (B2 _ _ E)) as [I1 _].
      apply bl_bind; [exact I1|]. intros [g2 b] _. auto with bl.
    + intros g' o H. destruct (step m g d) as [[g1 a]| | |] eqn:E; try discriminate. cbn [bind] in H.
      destruct (IH _ g1 Hd' (B2 _ _ eq_refl)) as [_ I2].
      destruct (steps m g1 l) as [[g2 b]| | |]; try discriminate. injection H as <- <-. eauto.
Qed.

(** ** The exported schema *)
Lemma bl_convert l : forall before ts, current = before ++ l ->
  Forall (origin before) ts -> map t_name ts = created before ->
  blames F (convert_from ts l) /\
  forall ts', convert_from ts l = Ok ts' -> Forall (origin current) ts' /\ map t_name ts' = created current.
Proof.
  induction l as [|d l IH]; intros before ts Hd Ho Hn; cbn [convert_from].
  { split; [auto with bl|]. intros ts' H. injection H as <-. now rewrite Hd, app_nil_r. }
  assert (Hd' : current = (before ++ [d]) ++ l) by (now rewrite <- app_assoc).
  assert (Hstep : blames F (convert_step ts d) /\
    forall ts', convert_step ts d = Ok ts' -> Forall (origin (before ++ [d])) ts' /\ map t_name ts' = created (before ++ [d])).
  { assert (Hmiss : forall n, ddl_table d = Some n -> find_table ts n = None -> F (EBeforeCreateTable (ddl_statement d))).
    { intros n Hdn Hf. apply find_table_none in Hf. rewrite Hn in Hf. eapply fault_export_order; eauto. }
    assert (Hk : (forall s t, d <> CreateTable s t) -> Forall (origin (before ++ [d])) ts /\ map t_name ts = created (before ++ [d])).
    { intros H. destruct (created_other before d H) as [C1 _]. rewrite C1. split; [now apply Forall_origin_app|exact Hn]. }
    destruct d as [s t|s n i|s n i|s n i|s n f|s n p|v|t]; cbn [convert_step].
    - split; [auto with bl|]. intros ts' H. injection H as <-. rewrite map_app, created_app, Hn. split; [|reflexivity].
      apply Forall_app. split; [now apply Forall_origin_app|]. constructor; [apply origin_own|constructor].
    - destruct (find_table ts n) as [t0|] eqn:Ef; [|split; [apply bl_err; exact (Hmiss n eq_refl Ef)|discriminate]].
      split; [auto with bl|]. intros ts' H. injection H as <-. destruct Hk as [K1 K2]; [discriminate|].
      rewrite update_table_names by reflexivity. split; [|exact K2].
      clear - Ho. induction Ho as [|t l Ht Hl IH]; simpl; [constructor|].
      destruct (String.eqb_spec (t_name t) n); constructor; auto using origin_app.
      + eapply origin_add_index; eauto. exists s; auto.
      + now apply Forall_origin_app.
    - split; [|discriminate]. apply bl_err. apply fault_current. rewrite Hd, in_app_iff. simpl. auto.
    - destruct (find_table ts n) as [t0|] eqn:Ef; [|split; [apply bl_err; exact (Hmiss n eq_refl Ef)|discriminate]].
      destruct Hk as [K1 K2]; [discriminate|]. apply find_table_some in Ef as [Hin Htn].
      assert (Hmp : blames F (mark_primary i t0) /\ forall t', mark_primary i t0 = Ok t' ->
        t_name t' = t_name t0 /\ forall l, origin l t0 -> origin l t').
      { unfold mark_primary. destruct (t_columns t0) as [|c0 cs] eqn:Ecs.
        - split; [auto with bl|]. intros t' H. injection H as <-. auto.
        - destruct (i_columns i) as [|ic ics]; [split; [auto with bl|discriminate]|].
          split; [auto with bl|]. intros t' H. injection H as <-. split; [reflexivity|].
          intros l0 [O1 O2]. split; [|exact O2]. cbn [t_columns set_columns t_name].
          intros c Hc. change (In c (map (fun c => if String.eqb (c_name c) (ic_column ic) then set_key KeyPrimary c else c) (c0 :: cs))) in Hc. rewrite <- Ecs in Hc. apply in_map_iff in Hc as (c1 & Hc1 & Hin1).
          destruct (O1 c1 Hin1) as (c2 & I2 & R1 & R2 & R3). exists c2. split; [exact I2|].
          destruct (String.eqb _ _); subst c; simpl; auto. }
      destruct Hmp as [M1 M2]. split.
      + apply bl_bind; [exact M1|auto with bl].
      + intros ts' H. destruct (mark_primary i t0) as [t'| | |]; try discriminate. injection H as <-.
        destruct (M2 t' eq_refl) as [N1 N2]. split.
        * apply Forall_update; [exact K1|]. intros _ _ _. apply N2. rewrite Forall_forall in K1. auto.
        * rewrite <- K2. clear - N1 Htn. rewrite Htn in N1. induction ts as [|x ts IH]; simpl; [reflexivity|].
          destruct (String.eqb_spec (t_name x) n); simpl; [congruence|now rewrite IH].
    - destruct (find_table ts n) as [t0|] eqn:Ef; [|split; [apply bl_err; exact (Hmiss n eq_refl Ef)|discriminate]].
      split; [auto with bl|]. intros ts' H. injection H as <-. destruct Hk as [K1 K2]; [discriminate|].
      rewrite update_table_names by reflexivity. split; [|exact K2]. apply Forall_update; [exact K1|]. intros t Ht _. exact Ht.
    - destruct (find_table ts n) as [t0|] eqn:Ef; [|split; [apply bl_err; exact (Hmiss n eq_refl Ef)|discriminate]].
      split; [auto with bl|]. intros ts' H. injection H as <-. destruct Hk as [K1 K2]; [discriminate|].
      rewrite update_table_names by reflexivity. split; [|exact K2]. apply Forall_update; [exact K1|]. intros t Ht _. exact Ht.
    - split; [auto with bl|]. intros ts' H. injection H as <-. apply Hk. discriminate.
    - split; [auto with bl|]. intros ts' H. injection H as <-. apply Hk. discriminate. }
  destruct Hstep as [S1 S2]. split.
  - apply bl_bind; [exact S1|]. intros ts1 E. destruct (S2 _ E) as [O1 N1]. now apply (IH (before ++ [d])).
  - intros ts' H. destruct (convert_step ts d) as [ts1| | |]; try discriminate. cbn [bind] in H.
    destruct (S2 _ eq_refl) as [O1 N1]. now apply (IH (before ++ [d]) ts1).
Qed.

(** ** Clean-up *)
Lemma bl_cleanup des l : forall live,
  Forall (origin (current ++ desired)) l -> Forall (declared desired) des ->
  (NoDup (created desired) -> forall n dt, find_table des n = Some dt -> index_names (t_indexes dt) = index_names_of n desired) ->
  blames F (cleanup_tables m des live l).
Proof.
  intros live Ho. revert live. induction Ho as [|ct l Hct Ho IH]; intros live Hdes Hidx; cbn [cleanup_tables]; [auto with bl|].
  destruct (find_table des (t_name ct)) as [dt|] eqn:Ef.
  2:{ destruct (remove_table _ _); [|auto with bl]. apply bl_bind; auto with bl. }
  apply bl_bind; [|intros; apply bl_bind; auto with bl].
  unfold cleanup_kept. apply bl_bind; [|auto with bl]. unfold cleanup_indexes. apply bl_concat_map. intros i Hi.
  destruct (_ || _) eqn:Eo; [auto with bl|]. apply orb_false_iff in Eo as [Eo _].
  rewrite contains_string_mem in Eo. apply mem_false in Eo.
  unfold absent_index. destruct (i_primary i) eqn:Ep.
  2:{ destruct (i_unique i); [|auto with bl]. destruct (t_columns dt); [auto with bl|].
      destruct (i_columns i); [auto with bl|]. destruct (existsb _ _); auto with bl. }
  destruct (find _ (t_columns dt)) as [pc|] eqn:Efp; [|destruct m; auto with bl].
  destruct (i_columns i) as [|ic rest] eqn:Ei; [auto with bl|].
  destruct (String.eqb_spec (c_name pc) (ic_column ic)); [auto with bl|].
  apply find_some in Efp as [Hpc Hkp]. pose proof (find_table_some _ _ _ Ef) as [Hdt Hdn].
  apply bl_err. eapply fault_primary_key with (i := i); eauto.
  - rewrite Forall_forall in Hdes. destruct (Hdes dt Hdt) as (H1 & _). rewrite <- Hdn. auto.
  - destruct (c_key pc); try discriminate. reflexivity.
  - destruct Hct as [_ H2]. auto.
  - intros Hnd. rewrite <- (Hidx Hnd _ _ Ef). exact Eo.
Qed.

(** C99 *)
Theorem errors_tell : blames F (plan m desired current).
Proof.
  unfold plan. destruct (bl_convert current [] [] eq_refl (Forall_nil _) eq_refl) as [C1 C2].
  apply bl_bind; [exact C1|]. intros tables Ec. destruct (C2 _ Ec) as [O1 N1].
  unfold generate_ddls.
  assert (T : told current [] (init_state tables current)).
  { constructor; simpl; [now rewrite app_nil_r| |constructor|reflexivity|reflexivity].
    intros n. now rewrite app_nil_r, N1. }
  destruct (bl_steps desired [] _ eq_refl T) as [S1 S2].
  apply bl_bind; [exact S1|]. intros [g a] Eg. destruct (S2 _ _ Eg) as [T1 T2 T3 T4 T5].
  apply bl_bind; [|auto with bl]. apply bl_cleanup; [exact T1|exact T3|].
  intros Hnd n dt Hf.
  pose proof (steps_sim m tables (views_in current) (triggers_in current) desired [] _ (sim_init tables current) Hnd) as Hs.
  destruct (well_formed_after [] desired).
  - destruct Hs as (g' & Hg & Hsim). rewrite Eg in Hg.
    destruct (concat_map _ desired); try discriminate. injection Hg as -> _.
    rewrite (sim_des _ _ _ _ _ Hsim) in Hf. now apply (schema_index_names desired n dt Hnd).
  - destruct Hs as [Hs _]. now destruct (Hs (g, a)).
Qed.
End Steps.

Theorem refused_runs parse m desired_sql current_sql e :
  generate_idempotent_ddls parse m desired_sql current_sql = Err e ->
  parse m desired_sql = Err e \/ parse m current_sql = Err e \/
  exists desired current, parse m desired_sql = Ok desired /\ parse m current_sql = Ok current /\
    fault m desired current e.
Proof.
  unfold generate_idempotent_ddls. intros H.
  destruct (parse m desired_sql) as [d|e1| |]; try discriminate; [|left; simpl in H; congruence].
  cbn [bind] in H. destruct (parse m current_sql) as [c|e1| |]; try discriminate; [|right; left; simpl in H; congruence].
  right. right. exists d, c. split; [reflexivity|]. split; [reflexivity|]. apply errors_tell.
  cbn [bind] in H. destruct (plan m d c) as [o|e1| |]; try discriminate. simpl in H. congruence.
Qed.
