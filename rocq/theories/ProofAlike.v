(** Databases alike have reached the same schemas. *)
From Coq Require Import String List ZArith Bool.
From Verif Require Import GoStr Ast Generator SpecPlan SpecMysql SpecDatabase SpecPostgres SpecMssql SpecConverge SpecConvergePg SpecConvergeMs Runner SpecRunner SpecTwoRuns.
Import ListNotations.
Local Open Scope string_scope.
Local Open Scope list_scope.

Lemma column_alike_sym a b : index_column_matches a b -> index_column_matches b a.
Proof. unfold index_column_matches. intuition. Qed.
Lemma column_alike_trans a b c : index_column_matches a b -> index_column_matches b c -> index_column_matches a c.
Proof.
  unfold index_column_matches. intros (E & D) (E' & D'). split; [now rewrite E|]. clear E E'.
  destruct D as [D|[(D1 & D2)|(D1 & D2)]].
  - now rewrite D.
  - rewrite D1. destruct D' as [F|[(F1 & F2)|(F1 & F2)]]; [rewrite <- F; auto|rewrite F2; auto|rewrite F2; auto].
  - rewrite D1. destruct D' as [F|[(F1 & F2)|(F1 & F2)]]; [rewrite <- F; auto|rewrite F2; auto|rewrite F2; auto].
Qed.
Lemma columns_trans a : forall b c, Forall2 index_column_matches a b -> Forall2 index_column_matches b c -> Forall2 index_column_matches a c.
Proof.
  induction a as [|x a IH]; intros b c F G.
  - inversion F; subst. inversion G. constructor.
  - inversion F as [|? y ? b' R F']; subst. inversion G as [|? z ? c' R' G']; subst. constructor; [exact (column_alike_trans _ _ _ R R')|eauto].
Qed.
Lemma columns_sym a b : Forall2 index_column_matches a b -> Forall2 index_column_matches b a.
Proof. induction 1; constructor; [now apply column_alike_sym|assumption]. Qed.
Lemma columns_named a b : Forall2 index_column_matches a b -> map ic_column a = map ic_column b.
Proof. induction 1 as [|x y a b R F IH]; [reflexivity|]. simpl. rewrite IH. f_equal. apply R. Qed.

Lemma forall2_left {A B} (R : A -> B -> Prop) a b : Forall2 R a b -> forall x, In x a -> exists y, In y b /\ R x y.
Proof.
  induction 1 as [|x y a b H F IH]; intros z I; [destruct I|]. destruct I as [<-|I]; [exists y; split; [now left|exact H]|].
  destruct (IH z I) as (u & U & V). exists u. split; [now right|exact V].
Qed.
Lemma forall2_right {A B} (R : A -> B -> Prop) a b : Forall2 R a b -> forall y, In y b -> exists x, In x a /\ R x y.
Proof.
  induction 1 as [|x y a b H F IH]; intros z I; [destruct I|]. destruct I as [<-|I]; [exists x; split; [now left|exact H]|].
  destruct (IH z I) as (u & U & V). exists u. split; [now right|exact V].
Qed.
Lemma forall2_map {A} {B} (R : A -> A -> Prop) (f : A -> B) a b : (forall x y, R x y -> f x = f y) -> Forall2 R a b -> map f a = map f b.
Proof. intros H. induction 1 as [|x y a b X F IH]; [reflexivity|]. simpl. now rewrite IH, (H _ _ X). Qed.

Lemma matches_alike k k' i : index_alike k k' -> index_matches k i -> index_matches k' i.
Proof.
  intros (N & U & P & W & I & O & F) (U' & P' & F' & W' & I' & O'). unfold index_matches. rewrite <- U, <- P, <- W, <- I, <- O.
  repeat split; auto. exact (columns_trans _ _ _ (columns_sym _ _ F) F').
Qed.

Lemma my_tolerated_alike t k k' : index_alike k k' -> key_tolerated t k -> key_tolerated t k'.
Proof.
  intros (N & U & P & _ & _ & _ & F) (A & B). split; [congruence|]. destruct B as [B|(B & c & ic & rest & C & D & E & G)]; [left; now rewrite <- N|].
  right. split; [congruence|]. rewrite E in F. inversion F as [|? y ? r R F']; subst. exists c, y, r. repeat split; auto. rewrite G. apply R.
Qed.

Lemma my_table_alike l t a b : table_alike a b -> table_reached l t a -> table_reached l t b.
Proof.
  intros (_ & C & K & _ & F) [R1 R2 R3 R4 R5]. split; rewrite <- ?C, <- ?K; auto.
  - intros i I. destruct (R2 i I) as (k & J & N & M). destruct (forall2_left _ _ _ F k J) as (k' & J' & A). exists k'.
    split; [exact J'|]. split; [rewrite <- N; symmetry; apply A|exact (matches_alike _ _ _ A M)].
  - intros k' J'. destruct (forall2_right _ _ _ F k' J') as (k & J & A). destruct (R3 k J) as [N|N]; [left|right].
    + now rewrite <- (proj1 A).
    + exact (my_tolerated_alike _ _ _ A N).
Qed.

Lemma my_reached_alike l a b : catalogue_alike a b -> reached l a -> reached l b.
Proof.
  intros (F & V & T) [R1 R2 R3 R4 R5 R6]. assert (N := forall2_map table_alike t_name _ _ (fun x y H => proj1 H) F). split; rewrite <- ?V, <- ?T, <- ?N; auto.
  intros t I. destruct (R2 t I) as (s & J & E & H). destruct (forall2_left _ _ _ F s J) as (s' & J' & A). exists s'.
  split; [exact J'|]. split; [rewrite <- E; symmetry; apply A|exact (my_table_alike _ _ _ _ A H)].
Qed.

Lemma pg_tolerated_alike l t k k' : index_alike k k' -> pg_tolerated l t k -> pg_tolerated l t k'.
Proof.
  intros (N & U & P & _ & _ & _ & F) [B|(B & c & ic & rest & C & D & E & G)]; [left; now rewrite <- N|].
  right. split; [now rewrite <- U|]. rewrite E in F. inversion F as [|? y ? r R F']; subst. exists c, y, r. repeat split; auto. rewrite G. apply R.
Qed.

Lemma pg_table_alike l t a b : pg_alike a b -> pg_reached l t a -> pg_reached l t b.
Proof.
  intros (_ & C & K & O & X & L & F) [R1 R2 R3 R4 R5 R6 R7 R8 R9 R10 R11]. split; rewrite <- ?C, <- ?K, <- ?X, <- ?L; auto.
  - intros i I. destruct (R4 i I) as (k & J & N & M). destruct (forall2_left _ _ _ F k J) as (k' & J' & A). exists k'.
    split; [exact J'|]. split; [rewrite <- N; symmetry; apply A|exact (matches_alike _ _ _ A M)].
  - intros k' J'. destruct (forall2_right _ _ _ F k' J') as (k & J & A). destruct (R5 k J) as [N|N]; [left|right].
    + now rewrite <- (proj1 A).
    + exact (pg_tolerated_alike _ _ _ _ A N).
  - intros c I U. destruct (R6 c I U) as (k & J & J1 & J2 & J3). destruct (forall2_left _ _ _ F k J) as (k' & J' & A). exists k'.
    destruct A as (N & U1 & _ & _ & I1 & _ & G). unfold unique_on. rewrite <- O, <- N, <- U1. repeat split; auto.
    rewrite <- J3. unfold index_columns, key_columns. now rewrite (columns_named _ _ G), I1.
Qed.

Lemma pg_reached_alike l a b : database_alike pg_alike a b -> db_reached l a -> db_reached l b.
Proof.
  intros (F & V & T) [R1 R2 R3 R4]. assert (N := forall2_map pg_alike g_name _ _ (fun x y H => proj1 H) F). split; rewrite <- ?V, <- ?N; auto.
  intros t I. destruct (R2 t I) as (s & J & E & H). destruct (forall2_left _ _ _ F s J) as (s' & J' & A). exists s'.
  split; [exact J'|]. split; [rewrite <- E; symmetry; apply A|exact (pg_table_alike _ _ _ _ A H)].
Qed.

Lemma ms_table_alike l t a b : ms_alike a b -> ms_reached l t a -> ms_reached l t b.
Proof.
  intros (_ & C & X & K & F) [R1 R2 R3 R4 R5 R6 R7]. split; rewrite <- ?C, <- ?X; auto.
  - intros k D. specialize (R3 k D). unfold ms_key_reached in *. now rewrite <- K.
  - intros i I. destruct (R4 i I) as (k & J & N & M). destruct (forall2_left _ _ _ F k J) as (k' & J' & A). exists k'.
    split; [exact J'|]. split; [rewrite <- N; symmetry; apply A|exact (matches_alike _ _ _ A M)].
  - intros k' J'. destruct (forall2_right _ _ _ F k' J') as (k & J & A). rewrite <- (proj1 A). exact (R5 k J).
Qed.

Lemma ms_reached_alike l a b : database_alike ms_alike a b -> ms_db_reached l a -> ms_db_reached l b.
Proof.
  intros (F & V & T) [R1 R2 R3 R4 R5 R6]. assert (N := forall2_map ms_alike m_name _ _ (fun x y H => proj1 H) F). split; rewrite <- ?V, <- ?N, <- ?T; auto.
  intros t I. destruct (R2 t I) as (s & J & E & H). destruct (forall2_left _ _ _ F s J) as (s' & J' & A). exists s'.
  split; [exact J'|]. split; [rewrite <- E; symmetry; apply A|exact (ms_table_alike _ _ _ _ A H)].
Qed.
