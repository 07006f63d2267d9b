(** The ideal SQL Server table: names and soundness are kept by every statement. *)
From Coq Require Import String Ascii List ZArith Bool Lia.
From Verif Require Import GoStr GoStrFacts Ast Generator SpecPlan ProofPlan SpecColumns ProofColumns SpecOrder ProofOrder
  SpecMysql ProofMysql ProofConverge SpecDatabase ProofDatabase SpecPostgres ProofPg ProofPgColumn SpecShownMssql SpecMssql SpecConvergeMs.
Import ListNotations.
Local Open Scope string_scope.
Local Open Scope list_scope.

Lemma m_on_column_inv n f g g' : m_on_column n f g = Some g' ->
  exists y y', named c_name n (m_columns g) = Some y /\ f y = Some y' /\ g' = with_m_columns (replaced n y' (m_columns g)) g.
Proof.
  unfold m_on_column. destruct (named c_name n (m_columns g)) as [y|]; [|discriminate]. destruct (f y) as [y'|] eqn:E; [|discriminate].
  intros H. injection H as <-. exists y, y'. auto.
Qed.

Lemma m_on_column_some n f g y y' : named c_name n (m_columns g) = Some y -> f y = Some y' ->
  m_on_column n f g = Some (with_m_columns (replaced n y' (m_columns g)) g).
Proof. intros H1 H2. unfold m_on_column. now rewrite H1, H2. Qed.

Section Alter.
Variable w : ms_ways.
Notation ms_alter := (ms_alter w).

Lemma m_on_column_name n f g g' : m_on_column n f g = Some g' -> m_name g' = m_name g.
Proof. intros H. apply m_on_column_inv in H as (y & y' & _ & _ & ->). reflexivity. Qed.

Lemma ms_indexed_name i g g' : ms_indexed i g = Some g' -> m_name g' = m_name g.
Proof. unfold ms_indexed. destruct (_ || _); [discriminate|]. intros H; now injection H as <-. Qed.

Lemma ms_alter_name e g g' : ms_alter e g = Some g' -> m_name g' = m_name g.
Proof.
  destruct e; cbn [SpecMssql.ms_alter]; try discriminate; try (apply m_on_column_name).
  - destruct d; try discriminate. apply ms_indexed_name.
  - destruct (_ || _); [discriminate|]. intros H; now injection H as <-.
  - destruct (named c_name c (m_columns g)) as [y|]; [|discriminate]. destruct (c_default y); [discriminate|]. destruct (c_check y); [discriminate|].
    destruct (in_use c g); [discriminate|]. intros H; now injection H as <-.
  - destruct (df_value d) as [v|]; [|discriminate]. destruct (w_written w v); [|discriminate]. apply m_on_column_name.
  - destruct (w_bare w n); [|discriminate]. apply m_on_column_name.
  - destruct (w_bare w n); [|discriminate]. apply m_on_column_name.
  - destruct (m_key g) as [k|]; [|discriminate]. destruct (String.eqb _ _); [|discriminate]. intros H; now injection H as <-.
  - destruct (m_key g) as [k|]; [discriminate|]. destruct (_ && _); [|discriminate]. intros H; now injection H as <-.
  - apply ms_indexed_name.
  - destruct (mem _ _); [|discriminate]. intros H; now injection H as <-.
  - destruct (mem _ _); [|discriminate]. intros H; now injection H as <-.
  - destruct (_ && _); [|discriminate]. intros H; now injection H as <-.
Qed.

Lemma ms_create_name t g : ms_create w t = Some g -> m_name g = t_name t.
Proof. unfold ms_create. cbv zeta. destruct (_ && _); [|discriminate]. intros H. now injection H as <-. Qed.

Lemma ms_altering out : forall g g', alters ms_alter out g = Some g' -> forall s, In s out -> altering (s_eff s).
Proof.
  induction out as [|s out IH]; intros g g' H x Hx; [destruct Hx|]. cbn [alters] in H. destruct (ms_alter (s_eff s) g) as [g1|] eqn:E; [|discriminate].
  destruct Hx as [<-|Hx]; [|eapply IH; eauto]. destruct (s_eff s) eqn:Es; try exact Logic.I; cbn [SpecMssql.ms_alter] in E; try discriminate. destruct d; try exact Logic.I; discriminate.
Qed.

(** ** Soundness *)
Hypothesis Hgiven : ms_names_given w.

Definition column_sound (c : column) : Prop :=
  (forall d, c_default c = Some d -> df_constraint d <> "") /\
  c_check_no_inherit c = false /\ c_autoinc c = false /\ c_key c = KeyNone /\
  forall i, c_identity c = Some i -> id_behavior i = "" /\ c_default c = None.

Lemma sound_column g c : ms_sound g -> In c (m_columns g) -> column_sound c.
Proof.
  intros S H. destruct (mo_column _ S c H) as (H1 & H2 & H3 & H4). split; [|auto]. intros d. now apply (mo_default _ S).
Qed.

Lemma with_columns_sound g cols : ms_sound g -> NoDup (map c_name cols) -> (forall c, In c cols -> column_sound c) -> ms_sound (with_m_columns cols g).
Proof.
  intros [H1 H2 H3 H4 H5 H6 H7 H8] Hn Hs. constructor; cbn [with_m_columns m_columns m_key m_indexes m_fks]; auto.
  - intros c d Hc. now apply (Hs c Hc).
  - intros c Hc. apply (Hs c Hc).
Qed.

Lemma m_on_column_sound n f g g' : ms_sound g -> (forall y y', f y = Some y' -> c_name y' = c_name y) ->
  (forall y y', f y = Some y' -> column_sound y -> column_sound y') -> m_on_column n f g = Some g' -> ms_sound g'.
Proof.
  intros S Hn Hs H. apply m_on_column_inv in H as (y & y' & E1 & E2 & ->). apply named_some in E1 as [Hy En].
  apply with_columns_sound; [exact S| |].
  - rewrite replaced_names_of; [apply (mo_names _ S)|]. rewrite (Hn _ _ E2). exact En.
  - intros c Hc. apply in_replaced in Hc as [->|[Hc _]]; [|now apply (sound_column g)]. apply (Hs y y' E2). now apply (sound_column g).
Qed.

Lemma valid_parts c : ms_valid c = true ->
  c_autoinc c = false /\ c_check_no_inherit c = false /\ c_references c = "" /\ (c_key c = KeyNone \/ (c_key c = KeyPrimary /\ c_notnull c <> Some false)) /\
  (forall d, c_default c = Some d -> df_value d <> None) /\
  (forall i, c_identity c = Some i -> id_behavior i = "" /\ c_default c = None /\ c_notnull c <> Some false).
Proof.
  unfold ms_valid. rewrite !andb_true_iff, !negb_true_iff, !String.eqb_eq.
  intros (((((((((((_ & H2) & _) & _) & _) & _) & H7) & H8) & _) & H10) & H11) & H12).
  split; [exact H2|]. split; [exact H7|]. split; [exact H8|]. split; [|split].
  - destruct (c_key c); try discriminate; [now left|right]. split; [reflexivity|]. unfold declared_null in H10. destruct (c_notnull c) as [[]|]; try discriminate; congruence.
  - intros d E. rewrite E in H11. destruct d as [[v|] n]; [discriminate|discriminate].
  - intros i E. rewrite E in H12. destruct (c_sequence c) as [q|]; [|discriminate]. rewrite !andb_true_iff, String.eqb_eq in H12. destruct H12 as [[A B] C].
    split; [exact A|]. destruct (c_default c); [discriminate|]. split; [reflexivity|]. unfold declared_null in B. destruct (c_notnull c) as [[]|]; try discriminate; congruence.
Qed.

Lemma recorded_sound dn cn c : ms_valid c = true -> dn <> "" -> column_sound (ms_recorded w dn cn c).
Proof.
  intros Hv Hd. destruct (valid_parts c Hv) as (_ & _ & _ & _ & _ & Hi). split; [|split; [reflexivity|split; [reflexivity|split; [reflexivity|]]]]; cbn [ms_recorded c_default c_identity].
  - intros d. destruct (c_default c); [|discriminate]. cbn [option_map]. intros H. injection H as <-. exact Hd.
  - intros i H. destruct (c_identity c) as [j|]; [|discriminate]. destruct (Hi j eq_refl) as (_ & E & _). rewrite E. cbn [option_map] in *. injection H as <-. auto.
Qed.

Lemma or_given_some kind tbl c n : or_given w kind tbl c n <> "".
Proof. unfold or_given. destruct (String.eqb_spec n "") as [_|N]; [apply Hgiven|exact N]. Qed.

Lemma in_names_remove {A} (f : A -> string) n l x : In x (map f (remove_named f n l)) -> In x (map f l).
Proof. unfold remove_named. intros H. apply in_map_iff in H as (y & <- & H). apply filter_In in H as [H _]. now apply in_map. Qed.

Lemma nodup_snoc {A} (x : A) l : NoDup l -> ~ In x l -> NoDup (l ++ [x]).
Proof.
  induction l as [|y l IH]; intros H1 H2; [repeat constructor; auto|]. cbn [app]. inversion H1 as [|? ? Hy Hl]; subst. constructor.
  - rewrite in_app_iff. intros [X|[->|[]]]; [contradiction|]. apply H2. now left.
  - apply IH; [exact Hl|]. intros X. apply H2. now right.
Qed.

Lemma index_valid_parts cols i : ms_index_valid cols i = true ->
  i_primary i = false /\ i_name i <> "" /\ i_columns i <> [] /\ forall x, In x (index_columns i) -> In x cols.
Proof.
  unfold ms_index_valid. rewrite !andb_true_iff, !negb_true_iff, String.eqb_neq. intros (((H1 & H2) & H3) & H4). repeat split; auto.
  - destruct (i_columns i); discriminate.
  - intros x Hx. unfold all_in in H4. rewrite forallb_forall in H4. now apply mem_in, H4.
Qed.

Lemma ms_indexed_sound i g g' : ms_sound g -> ms_indexed i g = Some g' -> ms_sound g'.
Proof.
  intros [H1 H2 H3 H4 H5 H6 H7 H8]. unfold ms_indexed. destruct (_ || _) eqn:E; [discriminate|]. rewrite orb_false_iff, negb_false_iff in E. destruct E as [E1 E2].
  intros H. injection H as <-. apply mem_not_in in E1. constructor; cbn [with_m_indexes m_columns m_key m_indexes m_fks]; auto.
  - rewrite app_assoc, map_app. cbn [map]. change (i_name (ms_index i)) with (i_name i). now apply nodup_snoc.
  - intros k. rewrite in_app_iff. intros [Hk|[<-|[]]]; [now apply H7|]. split; [reflexivity|]. cbn [ms_index i_columns].
    destruct (index_valid_parts _ _ E2) as (_ & _ & X & _). destruct (i_columns i); [congruence|discriminate].
Qed.

Lemma ms_alter_sound e g g' : ms_sound g -> ms_alter e g = Some g' -> ms_sound g'.
Proof.
  intros S. pose proof S as [H1 H2 H3 H4 H5 H6 H7 H8]. destruct e; cbn [SpecMssql.ms_alter]; try discriminate.
  - destruct d as [| |q n i| | | | |]; try discriminate. now apply ms_indexed_sound.
  - destruct (_ || _) eqn:E; [discriminate|]. rewrite !orb_false_iff, !negb_false_iff in E. destruct E as (((E1 & E2) & _) & E3). intros H. injection H as <-.
    apply mem_not_in in E1. apply with_columns_sound; [exact S| |].
    + rewrite map_app. cbn [map]. apply nodup_snoc; [exact H1|exact E1].
    + intros x. rewrite in_app_iff. intros [X|[<-|[]]]; [now apply (sound_column g)|]. now apply recorded_sound.
  - destruct (named c_name c (m_columns g)) as [y|] eqn:E; [|discriminate]. destruct (c_default y); [discriminate|]. destruct (c_check y); [discriminate|].
    destruct (in_use c g); [discriminate|]. intros H. injection H as <-. apply with_columns_sound; [exact S| |].
    + unfold remove_named. now apply nodup_filter_names.
    + intros x Hx. unfold remove_named in Hx. apply filter_In in Hx as [Hx _]. now apply (sound_column g).
  - destruct (df_value d) as [v|]; [|discriminate]. destruct (w_written w v); [|discriminate]. apply m_on_column_sound; [exact S| |].
    + intros y y'. destruct (c_default y); [discriminate|]. destruct (c_identity y); [discriminate|]. intros H; now injection H as <-.
    + intros y y'. destruct (c_default y) eqn:Ed; [discriminate|]. destruct (c_identity y) eqn:Ei; [discriminate|]. intros H (A & B & C & D & F). injection H as <-.
      split; [|split; [exact B|split; [exact C|split; [exact D|]]]]; cbn [set_ms_default c_default c_identity].
      * intros d' X. injection X as <-. cbn [kept_ms_default df_constraint]. apply or_given_some.
      * congruence.
  - apply m_on_column_sound; [exact S| |].
    + intros y y'. destruct (c_default y) as [d|]; [|discriminate]. destruct (String.eqb _ _); [|discriminate]. intros H; now injection H as <-.
    + intros y y'. destruct (c_default y) as [d|] eqn:Ed; [|discriminate]. destruct (String.eqb _ _); [|discriminate]. intros H (A & B & C & D & F). injection H as <-.
      split; [discriminate|split; [exact B|split; [exact C|split; [exact D|]]]]; cbn [set_ms_default c_default c_identity]. intros i X. split; [apply (F i X)|reflexivity].
  - destruct (w_bare w n); [|discriminate]. apply m_on_column_sound; [exact S| |].
    + intros y y'. destruct (c_check y) as [d|]; [|discriminate]. destruct (String.eqb _ _); [|discriminate]. intros H; now injection H as <-.
    + intros y y'. destruct (c_check y) as [d|] eqn:Ed; [|discriminate]. destruct (String.eqb _ _); [|discriminate]. intros H (A & B & C & D & F). injection H as <-.
      split; [exact A|split; [reflexivity|split; [exact C|split; [exact D|exact F]]]].
  - destruct (w_bare w n); [|discriminate]. apply m_on_column_sound; [exact S| |].
    + intros y y'. destruct (c_check y) as [d'|]; [discriminate|]. intros H; now injection H as <-.
    + intros y y'. destruct (c_check y) as [d'|] eqn:Ed; [discriminate|]. intros H (A & B & C & D & F). injection H as <-.
      split; [exact A|split; [reflexivity|split; [exact C|split; [exact D|exact F]]]].
  - destruct (m_key g) as [k|] eqn:Ek; [|discriminate]. destruct (String.eqb _ _); [|discriminate]. intros H. injection H as <-.
    constructor; cbn [with_m_key m_columns m_key m_indexes m_fks listed app]; auto; [|discriminate]. cbn [listed app map] in H2. now inversion H2.
  - destruct (m_key g) as [k|] eqn:Ek; [discriminate|]. destruct (_ && _) eqn:E; [|discriminate]. intros H. injection H as <-.
    rewrite !andb_true_iff, negb_true_iff in E. destruct E as [[E1 E2] E3]. apply mem_not_in in E2.
    constructor; cbn [with_m_key m_columns m_key m_indexes m_fks listed app]; auto.
    + cbn [map]. constructor; [exact E2|exact H2].
    + intros k H. injection H as <-. split; [reflexivity|]. cbn [ms_key i_columns]. unfold ms_key_valid in E1. rewrite !andb_true_iff, !negb_true_iff in E1.
      destruct E1 as [[[_ E1] _] _]. destruct (i_columns i); [discriminate|discriminate].
  - now apply ms_indexed_sound.
  - destruct (mem _ _); [|discriminate]. intros H. injection H as <-. constructor; cbn [with_m_indexes m_columns m_key m_indexes m_fks]; auto.
    + rewrite map_app in H2 |- *. revert H2. generalize (map i_name (listed (m_key g))). induction l as [|x l IH]; cbn [app]; intros X.
      * unfold remove_named. now apply nodup_filter_names.
      * inversion X as [|? ? X1 X2]; subst. constructor; [|auto]. rewrite in_app_iff in *. intros [Y|Y]; [tauto|]. apply in_names_remove in Y. tauto.
    + intros k Hk. unfold remove_named in Hk. apply filter_In in Hk as [Hk _]. auto.
  - destruct (mem _ _); [|discriminate]. intros H. injection H as <-. constructor; cbn [with_m_fks m_columns m_key m_indexes m_fks]; auto.
    + unfold remove_named. now apply nodup_filter_names.
    + intros k Hk. unfold remove_named in Hk. apply filter_In in Hk as [Hk _]. auto.
  - destruct (_ && _) eqn:E; [|discriminate]. intros H. injection H as <-. rewrite andb_true_iff, negb_true_iff in E. destruct E as [E1 E2]. apply mem_not_in in E2.
    constructor; cbn [with_m_fks m_columns m_key m_indexes m_fks]; auto.
    + rewrite map_app. cbn [map]. now apply nodup_snoc.
    + intros x. rewrite in_app_iff. intros [X|[<-|[]]]; [auto|]. cbn [ms_fk fk_ref_name]. unfold ms_fk_valid in E1. rewrite !andb_true_iff, !negb_true_iff, !String.eqb_neq in E1. apply E1.
Qed.

Lemma ms_alters_sound out : forall g g', ms_sound g -> alters ms_alter out g = Some g' -> ms_sound g'.
Proof.
  induction out as [|s out IH]; intros g g' S H; cbn [alters] in H; [now injection H as <-|].
  destruct (ms_alter (s_eff s) g) as [g1|] eqn:E; [|discriminate]. eapply IH; [|exact H]. eapply ms_alter_sound; eauto.
Qed.

(** ** CREATE TABLE *)
Record ms_accepted (t : table) : Prop := {
  ma_valid : forall c, In c (t_columns t) -> ms_valid c = true;
  ma_names : NoDup (map c_name (t_columns t));
  ma_identity : forall a b, In a (t_columns t) -> In b (t_columns t) -> c_identity a <> None -> c_identity b <> None -> a = b;
  ma_index : forall i, In i (inline_indexes t) -> ms_index_valid (map c_name (t_columns t)) i = true;
  ma_indexes : NoDup (map (key_name w (t_name t)) (listed (created_key t)) ++ map i_name (inline_indexes t));
  ma_policies : t_policies t = [];
  ma_one : length (key_declarations t) <= 1;
  ma_key : forall i, In i (key_declarations t) -> ms_key_valid i (map c_name (t_columns t)) = true;
  ma_fks : NoDup (map fk_constraint (t_fks t));
  ma_fk : forall f, In f (t_fks t) -> ms_fk_valid (map c_name (t_columns t)) f = true }.

Definition created_need (t : table) : list string := match created_key t with Some i => SpecMysql.key_columns i | None => [] end.
Definition created_tab_ms (t : table) : ms_tab :=
  mkMs (t_name t) (map (require (created_need t)) (map (fun c => ms_recorded w (default_name w (t_name t) c) (check_constraint_name w (t_name t) c) c) (t_columns t)))
    (option_map (fun i => ms_key (key_name w (t_name t) i) i) (created_key t)) (map ms_index (inline_indexes t)) (map ms_fk (t_fks t)).

Lemma ms_create_accepted t g : ms_create w t = Some g -> g = created_tab_ms t /\ ms_accepted t.
Proof.
  unfold ms_create. cbv zeta. destruct (_ && _) eqn:E; [|discriminate]. intros H. split; [now injection H as <-|]. clear H.
  rewrite !andb_true_iff in E. destruct E as ((((((((((E1 & E2) & E3) & E4) & E4') & E5) & E6) & E7) & E8) & E9) & E10).
  rewrite forallb_forall in E1, E4, E7, E10. apply distinct_spec in E2, E4', E9. apply Nat.leb_le in E3, E6. constructor; auto.
  - intros a b Ha Hb Ia Ib. assert (Fa : In a (filter has_identity (t_columns t))) by (apply filter_In; split; [exact Ha|unfold has_identity; destruct (c_identity a); congruence]).
    assert (Fb : In b (filter has_identity (t_columns t))) by (apply filter_In; split; [exact Hb|unfold has_identity; destruct (c_identity b); congruence]).
    destruct (filter has_identity (t_columns t)) as [|x [|y r]]; [destruct Fa| |cbn [length] in E3; lia]. destruct Fa as [<-|[]], Fb as [<-|[]]. reflexivity.
  - destruct (t_policies t); [reflexivity|discriminate].
Qed.

Lemma filter_none_forall {A} (f : A -> bool) l : filter f l = [] -> Forall (fun x => f x = false) l.
Proof.
  intros H. apply Forall_forall. intros x Hx. destruct (f x) eqn:E; [|reflexivity]. assert (X : In x (filter f l)) by (apply filter_In; auto). rewrite H in X. destruct X.
Qed.
Lemma filter_one {A} (f : A -> bool) l x : filter f l = [x] -> exists a b, l = a ++ x :: b /\ f x = true /\ Forall (fun y => f y = false) a.
Proof.
  induction l as [|y l IH]; [discriminate|]. cbn [filter]. destruct (f y) eqn:E; intros H.
  - injection H as -> _. exists [], l. repeat split; auto.
  - destruct (IH H) as (a & b & -> & H1 & H2). exists (y :: a), b. repeat split; auto.
Qed.
Lemma primary_or_inline t i : In i (t_indexes t) <-> In i (filter i_primary (t_indexes t)) \/ In i (inline_indexes t).
Proof.
  unfold inline_indexes. rewrite !filter_In. destruct (i_primary i); cbn [negb]; split; intuition congruence.
Qed.

Lemma created_declared t : ms_accepted t -> declares_pk t (created_key t).
Proof.
  intros A. pose proof (ma_one _ A) as H. unfold created_key, key_declarations in *. unfold declares_pk. cbv zeta.
  change (filter (fun c => match c_key c with KeyPrimary => true | _ => false end) (t_columns t)) with (filter (fun c => is_key_primary (c_key c)) (t_columns t)).
  destruct (filter (fun c => is_key_primary (c_key c)) (t_columns t)) as [|x [|y r]]; cbn [map app length] in *.
  - destruct (filter i_primary (t_indexes t)) as [|i [|j r]] eqn:E; [| |cbn [length] in H; lia].
    + right. split; [now apply filter_none_forall|left; auto].
    + left. destruct (filter_one _ _ _ E) as (a & b & E1 & E2 & E3). exists a, i, b. auto.
  - destruct (filter i_primary (t_indexes t)) as [|i r] eqn:E; [|cbn [length] in H; lia]. right. split; [now apply filter_none_forall|]. right. split; [discriminate|reflexivity].
  - lia.
Qed.

Lemma primary_key_created t : ms_accepted t -> primary_key t = created_key t.
Proof. intros A. eapply declares_pk_fun; [apply primary_key_declared|now apply created_declared]. Qed.

Lemma created_key_cases t : ms_accepted t ->
  (created_key t = None /\ filter i_primary (t_indexes t) = [] /\ (forall c, In c (t_columns t) -> c_key c <> KeyPrimary)) \/
  (exists i, created_key t = Some i /\ filter i_primary (t_indexes t) = [i] /\ (forall c, In c (t_columns t) -> c_key c <> KeyPrimary)) \/
  (exists c, created_key t = Some (inline_key (c_name c)) /\ filter i_primary (t_indexes t) = [] /\ In c (t_columns t) /\ c_key c = KeyPrimary /\
     find (fun c => is_key_primary (c_key c)) (t_columns t) = Some c /\ forall c', In c' (t_columns t) -> c_key c' = KeyPrimary -> c' = c).
Proof.
  intros A. pose proof (ma_one _ A) as H. unfold created_key, key_declarations in *. set (F := filter (fun c => is_key_primary (c_key c)) (t_columns t)) in *.
  assert (HF : forall c, In c (t_columns t) -> c_key c = KeyPrimary -> In c F) by (intros c Hc E; apply filter_In; split; [exact Hc|now rewrite E]).
  destruct F as [|x [|y r]] eqn:EF; cbn [map app length] in *.
  - assert (Hn : forall c, In c (t_columns t) -> c_key c <> KeyPrimary) by (intros c Hc E; destruct (HF c Hc E)).
    destruct (filter i_primary (t_indexes t)) as [|i [|j r]]; [left; auto|right; left; exists i; auto|cbn [length] in H; lia].
  - destruct (filter i_primary (t_indexes t)) as [|i r]; [|cbn [length] in H; lia]. right. right. exists x.
    assert (Hx : In x F) by (rewrite EF; now left). unfold F in Hx. apply filter_In in Hx as [Hx Kx]. assert (Ex : c_key x = KeyPrimary) by (destruct (c_key x); try discriminate; reflexivity).
    repeat split; auto.
    + unfold F in EF. clear -EF. induction (t_columns t) as [|c r IH]; [discriminate|]. cbn [filter find] in *. destruct (is_key_primary (c_key c)); [now injection EF as ->|auto].
    + intros c' Hc E. destruct (HF c' Hc E) as [->|[]]. reflexivity.
  - lia.
Qed.

Lemma in_primary_created t c : ms_accepted t -> In c (t_columns t) ->
  (in_primary_key t c <-> exists i, created_key t = Some i /\ In (c_name c) (SpecMysql.key_columns i)).
Proof.
  intros A Hc. assert (Hin : forall P : index -> index_column -> Prop, (exists i ic, In i (t_indexes t) /\ i_primary i = true /\ P i ic) <-> exists i ic, In i (filter i_primary (t_indexes t)) /\ P i ic).
  { intros P. split; intros (i & ic & H); exists i, ic; [rewrite filter_In|rewrite filter_In in H]; tauto. }
  unfold in_primary_key. rewrite Hin. clear Hin. destruct (created_key_cases t A) as [(E & Ei & Hn)|[(i & E & Ei & Hn)|(x & E & Ei & Hx & Kx & _ & Hu)]]; rewrite E, Ei.
  - split; [intros [H|(i & ic & [] & _)]; now apply Hn in H|intros (i & H & _); discriminate].
  - split.
    + intros [H|(j & ic & [<-|[]] & H1 & H2)]; [now apply Hn in H|]. exists i. split; [reflexivity|]. unfold SpecMysql.key_columns. rewrite <- H2. now apply in_map.
    + intros (j & H & Hin). injection H as <-. right. unfold SpecMysql.key_columns in Hin. apply in_map_iff in Hin as (ic & H1 & H2). exists i, ic. repeat split; auto. now left.
  - split.
    + intros [H|(j & ic & [] & _)]. rewrite (Hu c Hc H). exists (inline_key (c_name x)). split; [reflexivity|]. now left.
    + intros (j & H & Hin). injection H as <-. left. destruct Hin as [Hin|[]]. cbn [ic_column] in Hin.
      assert (c = x) as ->; [|exact Kx]. pose proof (named_self c_name _ c (ma_names _ A) Hc) as A1. pose proof (named_self c_name _ x (ma_names _ A) Hx) as A2. congruence.
Qed.

Lemma created_sound t : ms_accepted t -> ms_sound (created_tab_ms t).
Proof.
  intros A. constructor; cbn [created_tab_ms m_columns m_key m_indexes m_fks].
  - unfold m_names. cbn [created_tab_ms m_columns]. rewrite !map_map. erewrite map_ext; [apply (ma_names _ A)|]. intros c. rewrite require_name. reflexivity.
  - rewrite map_app, map_map. pose proof (ma_indexes _ A) as X. destruct (created_key t); exact X.
  - rewrite map_map. apply (ma_fks _ A).
  - intros c d Hc. rewrite map_map in Hc. apply in_map_iff in Hc as (x & <- & Hx). assert (c_default (require (created_need t) (ms_recorded w (default_name w (t_name t) x) (check_constraint_name w (t_name t) x) x)) =
      c_default (ms_recorded w (default_name w (t_name t) x) (check_constraint_name w (t_name t) x) x)) as -> by (unfold require; destruct (mem _ _); reflexivity).
    apply (recorded_sound (default_name w (t_name t) x) (check_constraint_name w (t_name t) x) x); [now apply (ma_valid _ A)|]. unfold default_name. apply or_given_some.
  - intros c Hc. rewrite map_map in Hc. apply in_map_iff in Hc as (x & <- & Hx).
    pose proof (recorded_sound (default_name w (t_name t) x) (check_constraint_name w (t_name t) x) x (ma_valid _ A x Hx)) as (_ & B); [unfold default_name; apply or_given_some|].
    unfold require. destruct (mem _ _); exact B.
  - intros k H. destruct (created_key t) as [i|] eqn:E; [|discriminate]. cbn [option_map] in H. injection H as <-. split; [reflexivity|]. cbn [ms_key i_columns].
    assert (Hi : In i (key_declarations t)) by (unfold created_key in E; destruct (key_declarations t); [discriminate|injection E as ->; now left]).
    pose proof (ma_key _ A i Hi) as X. unfold ms_key_valid in X. rewrite !andb_true_iff, !negb_true_iff in X. destruct X as [[[_ X] _] _]. destruct (i_columns i); [discriminate|discriminate].
  - intros k Hk. apply in_map_iff in Hk as (i & <- & Hi). destruct (index_valid_parts _ _ (ma_index _ A i Hi)) as (_ & _ & X & _).
    split; [reflexivity|]. cbn [ms_index i_columns]. destruct (i_columns i); [congruence|discriminate].
  - intros f Hf. apply in_map_iff in Hf as (x & <- & Hx). pose proof (ma_fk _ A x Hx) as X. unfold ms_fk_valid in X. rewrite !andb_true_iff, !negb_true_iff, !String.eqb_neq in X. apply X.
Qed.
End Alter.
