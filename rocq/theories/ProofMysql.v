(** The ideal MySQL of [SpecMysql]: one statement at a time. *)
From Coq Require Import String Ascii List ZArith Bool Lia Permutation.
From Verif Require Import GoStr GoStrFacts Ast Generator SpecPlan SpecColumns SpecOrder SpecMysql ProofPlan ProofSteps
  ProofTables ProofCompare ProofExact ProofObjects ProofColumns ProofOrder.
Import ListNotations.
Local Open Scope string_scope.
Local Open Scope list_scope.

(** ** Lookups *)
Section Named.
Context {A : Type}.
Variable f : A -> string.

Lemma named_app n (a b : list A) : named f n (a ++ b) = match named f n a with Some x => Some x | None => named f n b end.
Proof. unfold named. induction a as [|x a IH]; [reflexivity|]. simpl. destruct (String.eqb (f x) n); auto. Qed.

Lemma named_cons n x (l : list A) : named f n (x :: l) = if String.eqb (f x) n then Some x else named f n l.
Proof. reflexivity. Qed.

Lemma named_some n l x : named f n l = Some x -> In x l /\ f x = n.
Proof. intros H. apply find_some in H as [H E]. now apply String.eqb_eq in E. Qed.

Lemma named_none n l : named f n l = None <-> ~ In n (map f l).
Proof.
  split.
  - intros H Hi. apply in_map_iff in Hi as (x & E & Hx). apply (find_none _ _ H) in Hx. simpl in Hx.
    apply String.eqb_neq in Hx. congruence.
  - intros H. destruct (named f n l) as [x|] eqn:E; [|reflexivity]. apply named_some in E as [Hx <-]. exfalso. apply H. now apply in_map.
Qed.

Lemma named_in n l : In n (map f l) -> exists x, named f n l = Some x.
Proof. intros H. destruct (named f n l) eqn:E; [eauto|]. apply named_none in E. tauto. Qed.

Lemma named_self l x : NoDup (map f l) -> In x l -> named f (f x) l = Some x.
Proof.
  induction l as [|y l IH]; cbn [map In]; intros Hn Hx; [tauto|]. inversion Hn as [|? ? Hy Hl]; subst. rewrite named_cons.
  destruct Hx as [->|Hx]; [now rewrite String.eqb_refl|].
  destruct (String.eqb_spec (f y) (f x)) as [E|_]; [|auto]. exfalso. apply Hy. rewrite E. now apply in_map.
Qed.

Lemma named_remove n k l : named f n (remove_named f k l) = if String.eqb n k then None else named f n l.
Proof.
  unfold remove_named. induction l as [|x l IH]; cbn [filter]; [now destruct (String.eqb n k)|].
  destruct (String.eqb_spec (f x) k) as [E|E]; cbn [negb].
  - rewrite IH. destruct (String.eqb_spec n k) as [->|N]; [reflexivity|]. rewrite named_cons.
    destruct (String.eqb_spec (f x) n); congruence.
  - rewrite !named_cons, IH. destruct (String.eqb_spec (f x) n) as [E'|E']; [|reflexivity].
    destruct (String.eqb_spec n k); congruence.
Qed.

Lemma named_map n (g : A -> A) l : (forall x, f (g x) = f x) -> named f n (map g l) = match named f n l with Some x => Some (g x) | None => None end.
Proof.
  intros H. induction l as [|x l IH]; [reflexivity|]. cbn [map]. rewrite !named_cons, H, IH. now destruct (String.eqb (f x) n).
Qed.

Lemma nodup_remove k l : NoDup (map f l) -> NoDup (map f (remove_named f k l)).
Proof.
  unfold remove_named. induction l as [|x l IH]; intros H; [constructor|]. inversion H as [|? ? Hx Hl]; subst. simpl.
  destruct (negb _); [|auto]. simpl. constructor; [|auto]. intros Hi. apply Hx. apply in_map_iff in Hi as (y & E & Hy).
  apply filter_In in Hy as [Hy _]. rewrite <- E. now apply in_map.
Qed.

Lemma names_remove k l : map f (remove_named f k l) = take_out k (map f l).
Proof.
  unfold remove_named, take_out. induction l as [|x l IH]; [reflexivity|]. simpl.
  destruct (negb (String.eqb (f x) k)); simpl; now rewrite IH.
Qed.
End Named.

Lemma nodup_snoc {A} (l : list A) x : NoDup l -> ~ In x l -> NoDup (l ++ [x]).
Proof. intros Hl Hx. apply (NoDup_Add (a := x) (l := l)); [|tauto]. pose proof (Add_app x l []) as H. now rewrite app_nil_r in H. Qed.

Lemma put_after_names p c l : match put_column_after p c l with Some r => put_after p (c_name c) (map c_name l) = Some (map c_name r)
  | None => put_after p (c_name c) (map c_name l) = None end.
Proof.
  induction l as [|y l IH]; [reflexivity|]. cbn [put_column_after map put_after]. destruct (String.eqb (c_name y) p); [reflexivity|].
  destruct (put_column_after p c l); rewrite IH; reflexivity.
Qed.

Lemma put_names c p l : put (c_name c) p (map c_name l) = match put_column c p l with Some r => Some (map c_name r) | None => None end.
Proof.
  destruct p; cbn [put put_column].
  - now rewrite map_app.
  - reflexivity.
  - pose proof (put_after_names c0 c l) as H. now destruct (put_column_after c0 c l).
Qed.

Lemma put_column_split c p l r : put_column c p l = Some r -> exists a b, l = a ++ b /\ r = a ++ c :: b.
Proof.
  destruct p as [| |y]; cbn [put_column]; intros H.
  - injection H as <-. exists l, []. now rewrite app_nil_r.
  - injection H as <-. exists [], l. auto.
  - revert r H. induction l as [|x l IH]; intros r H; [discriminate|]. cbn [put_column_after] in H.
    destruct (String.eqb (c_name x) y).
    + injection H as <-. exists [x], l. auto.
    + destruct (put_column_after y c l) as [r'|]; [|discriminate]. injection H as <-.
      destruct (IH r' eq_refl) as (a & b & -> & ->). exists (x :: a), b. auto.
Qed.

Lemma named_put c p l r x : put_column c p l = Some r -> ~ In (c_name c) (map c_name l) ->
  named c_name x r = if String.eqb x (c_name c) then Some c else named c_name x l.
Proof.
  intros H Hn. apply put_column_split in H as (a & b & -> & ->). rewrite !named_app, named_cons.
  destruct (String.eqb_spec x (c_name c)) as [->|N].
  - rewrite String.eqb_refl. assert (named c_name (c_name c) a = None) as ->; [|reflexivity].
    apply named_none. intros Hi. apply Hn. rewrite map_app. apply in_or_app. now left.
  - destruct (String.eqb_spec (c_name c) x); [congruence|reflexivity].
Qed.

(** ** Good tables: integrity, in terms of lookups *)
Definition column_of (t : table) (x : string) : option column := named c_name x (t_columns t).
Definition key_of (t : table) (x : string) : option index := named i_name x (t_indexes t).
Definition fk_of (t : table) (x : string) : option foreign_key := named fk_constraint x (t_fks t).

Definition begins (k : index) (x : string) : Prop := exists r, key_columns k = x :: r.

Record good (t : table) : Prop := {
  good_names : NoDup (names t);
  good_keys : NoDup (map i_name (t_indexes t));
  good_fks : NoDup (map fk_constraint (t_fks t));
  good_key_columns : forall y k x, key_of t y = Some k -> In x (key_columns k) -> In x (names t);
  good_fk_columns : forall y f x, fk_of t y = Some f -> In x (fk_index_columns f) -> In x (names t);
  good_auto : forall x c, column_of t x = Some c -> c_autoinc c = true -> exists y k, key_of t y = Some k /\ begins k x;
  good_one : forall x c y d, column_of t x = Some c -> column_of t y = Some d -> c_autoinc c = true -> c_autoinc d = true -> x = y }.

Lemma good_integrity t : good t -> integrity t = true.
Proof.
  intros [Hn Hk Hf Hkc Hfc Ha Ho]. unfold integrity. rewrite !andb_true_iff. repeat split.
  - apply forallb_forall. intros k Hi. apply forallb_forall. intros x Hx. apply mem_in.
    apply (Hkc (i_name k) k x); [|exact Hx]. now apply named_self.
  - apply forallb_forall. intros f Hi. apply forallb_forall. intros x Hx. apply mem_in.
    apply (Hfc (fk_constraint f) f x); [|exact Hx]. now apply named_self.
  - apply forallb_forall. intros c Hc. destruct (c_autoinc c) eqn:E; [|reflexivity]. simpl.
    destruct (Ha (c_name c) c) as (y & k & Hy & (r & Hr)); [now apply named_self|exact E|].
    unfold keyed. apply existsb_exists. exists k. split; [apply (named_some i_name y), Hy|]. rewrite Hr. apply String.eqb_refl.
  - apply Nat.leb_le. unfold column_of in Ho.
    assert (H : forall l, NoDup (map c_name l) -> (forall c, In c l -> In c (t_columns t)) -> length (filter c_autoinc l) <= 1); [|now apply H].
    induction l as [|c l IH]; intros Hl Hin; [simpl; lia|]. inversion Hl as [|? ? Hc Hl']; subst. simpl.
    destruct (c_autoinc c) eqn:E; [|apply IH; auto; intros; apply Hin; now right].
    assert (filter c_autoinc l = []) as ->; [|simpl; lia].
    destruct (filter c_autoinc l) as [|d r] eqn:Ef; [reflexivity|].
    assert (Hd : In d l /\ c_autoinc d = true) by (apply filter_In; rewrite Ef; now left). destruct Hd as [Hd Ed].
    exfalso. apply Hc. rewrite (Ho (c_name c) c (c_name d) d); [now apply in_map| | |exact E|exact Ed].
    + apply named_self; [exact Hn|apply Hin; now left].
    + apply named_self; [exact Hn|apply Hin; now right].
Qed.

Lemma integrity_good t : NoDup (names t) -> NoDup (map i_name (t_indexes t)) -> NoDup (map fk_constraint (t_fks t)) ->
  integrity t = true -> good t.
Proof.
  intros Hn Hk Hf H. unfold integrity in H. rewrite !andb_true_iff in H. destruct H as [[[H1 H2] H3] H4]. constructor; auto.
  - intros y k x Hy Hx. apply named_some in Hy as [Hy _]. rewrite forallb_forall in H1. specialize (H1 k Hy). rewrite forallb_forall in H1.
    apply mem_in. now apply H1.
  - intros y k x Hy Hx. apply named_some in Hy as [Hy _]. rewrite forallb_forall in H2. specialize (H2 k Hy). rewrite forallb_forall in H2.
    apply mem_in. now apply H2.
  - intros x c Hc Ha. apply named_some in Hc as [Hc <-]. rewrite forallb_forall in H3. specialize (H3 c Hc). rewrite Ha in H3. simpl in H3.
    unfold keyed in H3. apply existsb_exists in H3 as (k & Hi & E). exists (i_name k), k. split; [now apply named_self|].
    unfold begins. destruct (key_columns k) as [|z r]; [discriminate|]. apply String.eqb_eq in E. subst. eauto.
  - intros x c y d Hc Hd Ec Ed. apply named_some in Hc as [Hc <-]. apply named_some in Hd as [Hd <-].
    apply Nat.leb_le in H4. clear - H4 Hc Hd Ec Ed.
    assert (Hc' : In c (filter c_autoinc (t_columns t))) by (apply filter_In; auto).
    assert (Hd' : In d (filter c_autoinc (t_columns t))) by (apply filter_In; auto).
    destruct (filter c_autoinc (t_columns t)) as [|a [|b r]]; simpl in *; [tauto| |lia].
    destruct Hc' as [<-|[]]. destruct Hd' as [<-|[]]. reflexivity.
Qed.

(** ** Running statements on one table *)
Definition exec1 (e : effect) (t : table) : option table :=
  match alter_table e t with
  | Some t' => if integrity t' then Some t' else None
  | None => None
  end.
Fixpoint exec (out : list stmt) (t : table) : option table :=
  match out with
  | [] => Some t
  | s :: out' => match exec1 (s_eff s) t with Some t' => exec out' t' | None => None end
  end.

Lemma exec_app a b t : exec (a ++ b) t = match exec a t with Some t' => exec b t' | None => None end.
Proof. revert t; induction a as [|s a IH]; intros t; [reflexivity|]. simpl. destruct (exec1 _ _); auto. Qed.
Lemma exec_then a b t t' : exec a t = Some t' -> exec (a ++ b) t = exec b t'.
Proof. intros H. now rewrite exec_app, H. Qed.
Lemma exec_one s t t' : alter_table (s_eff s) t = Some t' -> good t' -> exec [s] t = Some t'.
Proof. intros H Hg. cbn [exec]. unfold exec1. now rewrite H, (good_integrity _ Hg). Qed.

(** What stays. *)
Definition same_frame (s s' : table) : Prop := t_name s' = t_name s /\ t_policies s' = t_policies s.
Lemma frame_refl s : same_frame s s.
Proof. split; reflexivity. Qed.
Lemma frame_trans a b c : same_frame a b -> same_frame b c -> same_frame a c.
Proof. unfold same_frame. intuition congruence. Qed.

Lemma mem_false_none {A} (f : A -> string) n l : mem n (map f l) = false <-> named f n l = None.
Proof. rewrite mem_not_in, named_none. tauto. Qed.
Lemma mem_true_some {A} (f : A -> string) n l : mem n (map f l) = true <-> exists x, named f n l = Some x.
Proof. rewrite mem_in. split; [apply named_in|]. intros (x & H). apply named_some in H as [H <-]. now apply in_map. Qed.

(** Adding a key that is not primary. *)
Lemma do_add_key i s : good s -> key_of s (i_name i) = None -> i_primary i = false ->
  (forall x, In x (key_columns i) -> In x (names s)) ->
  exists s', add_key i s = Some s' /\ good s' /\ same_frame s s' /\ t_columns s' = t_columns s /\ t_fks s' = t_fks s /\
    (forall y, key_of s' y = if String.eqb y (i_name i) then Some i else key_of s y).
Proof.
  intros Hg Hk Hp Hc. unfold add_key. rewrite (proj2 (mem_false_none i_name _ _) Hk), Hp. eexists. split; [reflexivity|].
  assert (Hl : forall y, named i_name y (t_indexes s ++ [i]) = if String.eqb y (i_name i) then Some i else key_of s y).
  { intros y. rewrite named_app, named_cons. fold (key_of s y). destruct (String.eqb_spec y (i_name i)) as [->|N].
    - rewrite Hk, String.eqb_refl. reflexivity.
    - destruct (key_of s y); [reflexivity|]. destruct (String.eqb_spec (i_name i) y); [congruence|reflexivity]. }
  split; [|repeat split; auto].
  destruct Hg as [G1 G2 G3 G4 G5 G6 G7]. constructor; simpl; auto.
  - rewrite map_app. simpl. apply nodup_snoc; [exact G2|]. now apply (named_none i_name).
  - intros y k x Hy Hx. unfold key_of in Hy. simpl in Hy. rewrite Hl in Hy. destruct (String.eqb y (i_name i)).
    + injection Hy as <-. now apply Hc.
    + now apply (G4 y k x).
  - intros x c Hx Ha. destruct (G6 x c Hx Ha) as (y & k & Hy & Hb). exists y, k. split; [|exact Hb].
    unfold key_of. simpl. rewrite Hl. destruct (String.eqb_spec y (i_name i)); [congruence|exact Hy].
Qed.

(** Adding a primary key. *)
Lemma do_add_pk i s : good s -> key_of s (i_name i) = None -> i_primary i = true ->
  (forall x, In x (key_columns i) -> In x (names s)) ->
  exists s', add_key i s = Some s' /\ good s' /\ same_frame s s' /\ names s' = names s /\ t_fks s' = t_fks s /\
    (forall x, column_of s' x = match column_of s x with
                                | Some c => Some (if mem x (key_columns i) then set_notnull (Some true) c else c)
                                | None => None end) /\
    (forall y, key_of s' y = if String.eqb y (i_name i) then Some i else key_of s y).
Proof.
  intros Hg Hk Hp Hc. unfold add_key. rewrite (proj2 (mem_false_none i_name _ _) Hk), Hp. eexists. split; [reflexivity|].
  assert (Hl : forall y, named i_name y (t_indexes s ++ [i]) = if String.eqb y (i_name i) then Some i else key_of s y).
  { intros y. rewrite named_app, named_cons. fold (key_of s y). destruct (String.eqb_spec y (i_name i)) as [->|N].
    - rewrite Hk, String.eqb_refl. reflexivity.
    - destruct (key_of s y); [reflexivity|]. destruct (String.eqb_spec (i_name i) y); [congruence|reflexivity]. }
  set (g := fun c => if mem (c_name c) (key_columns i) then set_notnull (Some true) c else c).
  assert (Hname : forall c, c_name (g c) = c_name c) by (intros c; unfold g; destruct (mem _ _); reflexivity).
  assert (Hauto : forall c, c_autoinc (g c) = c_autoinc c) by (intros c; unfold g; destruct (mem _ _); reflexivity).
  assert (Hnames : map c_name (map g (t_columns s)) = names s).
  { rewrite map_map. apply map_ext. exact Hname. }
  assert (Hcol : forall x, named c_name x (map g (t_columns s)) = match column_of s x with
                                | Some c => Some (if mem x (key_columns i) then set_notnull (Some true) c else c)
                                | None => None end).
  { intros x. rewrite (named_map c_name x g) by exact Hname. fold (column_of s x). destruct (column_of s x) as [c|] eqn:E; [|reflexivity].
    apply named_some in E as [_ E]. unfold g. now rewrite E. }
  split; [|repeat split; auto].
  destruct Hg as [G1 G2 G3 G4 G5 G6 G7]. constructor; unfold column_of, key_of, fk_of, names in *; simpl; auto.
  - now rewrite Hnames.
  - rewrite map_app. simpl. apply nodup_snoc; [exact G2|]. now apply (named_none i_name).
  - intros y k x Hy Hx. rewrite Hnames. rewrite Hl in Hy. destruct (String.eqb y (i_name i)).
    + injection Hy as <-. now apply Hc.
    + now apply (G4 y k x).
  - intros y f x Hy Hx. rewrite Hnames. eauto.
  - intros x c Hx Ha. rewrite Hcol in Hx. destruct (named c_name x (t_columns s)) as [c0|] eqn:E; [|discriminate].
    assert (Ha0 : c_autoinc c0 = true) by (injection Hx as <-; destruct (mem _ _); exact Ha).
    destruct (G6 x c0 E Ha0) as (y & k & Hy & Hb). exists y, k. split; [|exact Hb].
    rewrite Hl. destruct (String.eqb_spec y (i_name i)) as [->|]; [|exact Hy]. unfold key_of in Hk. congruence.
  - intros x c y d Hx Hy Ha Hb. rewrite Hcol in Hx, Hy.
    destruct (named c_name x (t_columns s)) as [c0|] eqn:E; [|discriminate]. destruct (named c_name y (t_columns s)) as [d0|] eqn:E'; [|discriminate].
    apply (G7 x c0 y d0); auto.
    + injection Hx as <-. destruct (mem x _); exact Ha.
    + injection Hy as <-. destruct (mem y _); exact Hb.
Qed.

Lemma do_drop_key n s k : good s -> key_of s n = Some k ->
  (forall x c, column_of s x = Some c -> c_autoinc c = true -> exists y k', y <> n /\ key_of s y = Some k' /\ begins k' x) ->
  exists s', drop_key n s = Some s' /\ good s' /\ same_frame s s' /\ t_columns s' = t_columns s /\ t_fks s' = t_fks s /\
    (forall y, key_of s' y = if String.eqb y n then None else key_of s y).
Proof.
  intros Hg Hk Ha. unfold drop_key. rewrite (proj2 (mem_true_some i_name n (t_indexes s)) (ex_intro _ k Hk)). eexists. split; [reflexivity|].
  assert (Hl : forall y, named i_name y (remove_named i_name n (t_indexes s)) = if String.eqb y n then None else key_of s y) by (intros y; apply named_remove).
  split; [|repeat split; auto].
  destruct Hg as [G1 G2 G3 G4 G5 G6 G7]. constructor; simpl; auto.
  - now apply nodup_remove.
  - intros y k' x Hy Hx. unfold key_of in Hy. simpl in Hy. rewrite Hl in Hy. destruct (String.eqb y n); [discriminate|]. eauto.
  - intros x c Hx Hc. destruct (Ha x c Hx Hc) as (y & k' & Hn & Hy & Hb). exists y, k'. split; [|exact Hb].
    unfold key_of. simpl. rewrite Hl. destruct (String.eqb_spec y n); [congruence|exact Hy].
Qed.

Lemma do_add_fk tbl f s : good s -> fk_of s (fk_constraint f) = None -> (forall x, In x (fk_index_columns f) -> In x (names s)) ->
  exists s', alter_table (EffAddForeignKey tbl f) s = Some s' /\ good s' /\ same_frame s s' /\ t_columns s' = t_columns s /\
    t_indexes s' = t_indexes s /\ (forall y, fk_of s' y = if String.eqb y (fk_constraint f) then Some f else fk_of s y).
Proof.
  intros Hg Hk Hc. cbn [alter_table]. rewrite (proj2 (mem_false_none fk_constraint _ _) Hk). eexists. split; [reflexivity|].
  assert (Hl : forall y, named fk_constraint y (t_fks s ++ [f]) = if String.eqb y (fk_constraint f) then Some f else fk_of s y).
  { intros y. rewrite named_app, named_cons. fold (fk_of s y). destruct (String.eqb_spec y (fk_constraint f)) as [->|N].
    - rewrite Hk, String.eqb_refl. reflexivity.
    - destruct (fk_of s y); [reflexivity|]. destruct (String.eqb_spec (fk_constraint f) y); [congruence|reflexivity]. }
  split; [|repeat split; auto].
  destruct Hg as [G1 G2 G3 G4 G5 G6 G7]. constructor; simpl; auto.
  - rewrite map_app. simpl. apply nodup_snoc; [exact G3|]. now apply (named_none fk_constraint).
  - intros y k x Hy Hx. unfold fk_of in Hy. simpl in Hy. rewrite Hl in Hy. destruct (String.eqb y (fk_constraint f)).
    + injection Hy as <-. now apply Hc.
    + now apply (G5 y k x).
Qed.

Lemma do_drop_fk tbl n s f : good s -> fk_of s n = Some f ->
  exists s', alter_table (EffDropForeignKey tbl n) s = Some s' /\ good s' /\ same_frame s s' /\ t_columns s' = t_columns s /\
    t_indexes s' = t_indexes s /\ (forall y, fk_of s' y = if String.eqb y n then None else fk_of s y).
Proof.
  intros Hg Hk. cbn [alter_table]. rewrite (proj2 (mem_true_some fk_constraint n (t_fks s)) (ex_intro _ f Hk)). eexists. split; [reflexivity|].
  assert (Hl : forall y, named fk_constraint y (remove_named fk_constraint n (t_fks s)) = if String.eqb y n then None else fk_of s y) by (intros y; apply named_remove).
  split; [|repeat split; auto].
  destruct Hg as [G1 G2 G3 G4 G5 G6 G7]. constructor; simpl; auto.
  - now apply nodup_remove.
  - intros y k' x Hy Hx. unfold fk_of in Hy. simpl in Hy. rewrite Hl in Hy. destruct (String.eqb y n); [discriminate|]. eauto.
Qed.

Lemma do_drop_column tbl x s : good s -> In x (names s) ->
  (forall y k, key_of s y = Some k -> ~ In x (key_columns k)) -> (forall y f, fk_of s y = Some f -> ~ In x (fk_index_columns f)) ->
  exists s', alter_table (EffDropColumn tbl x) s = Some s' /\ good s' /\ same_frame s s' /\ t_indexes s' = t_indexes s /\ t_fks s' = t_fks s /\
    names s' = take_out x (names s) /\
    (forall y, column_of s' y = if String.eqb y x then None else column_of s y).
Proof.
  intros Hg Hx Hk Hf. cbn [alter_table]. rewrite (proj2 (mem_in _ _) Hx). eexists. split; [reflexivity|].
  assert (Hl : forall y, named c_name y (remove_named c_name x (t_columns s)) = if String.eqb y x then None else column_of s y) by (intros y; apply named_remove).
  assert (Hn : map c_name (remove_named c_name x (t_columns s)) = take_out x (names s)) by (apply names_remove).
  split; [|repeat split; auto].
  destruct Hg as [G1 G2 G3 G4 G5 G6 G7]. constructor; unfold names, column_of, key_of, fk_of in *; simpl; auto.
  - now apply nodup_remove.
  - intros y k z Hy Hz. rewrite Hn. apply take_out_in. split; [now apply (G4 y k z)|]. intros ->. exact (Hk y k Hy Hz).
  - intros y k z Hy Hz. rewrite Hn. apply take_out_in. split; [now apply (G5 y k z)|]. intros ->. exact (Hf y k Hy Hz).
  - intros z c Hz Ha. rewrite Hl in Hz. destruct (String.eqb z x); [discriminate|]. eauto.
  - intros z c y d Hz Hy. rewrite Hl in Hz, Hy. destruct (String.eqb z x); [discriminate|]. destruct (String.eqb y x); [discriminate|]. eauto.
Qed.

(** Putting a column in: its keys, and those of the others, are already fine. *)
Lemma do_put c p s l0 l : good s -> c_autoinc c = false -> put_column c p l0 = Some l -> ~ In (c_name c) (map c_name l0) ->
  (forall x, In x (map c_name l0) \/ x = c_name c <-> In x (names s) \/ x = c_name c) -> NoDup (map c_name l0) ->
  (forall x, x <> c_name c -> named c_name x l0 = column_of s x) ->
  good (with_columns l s) /\ (forall x, column_of (with_columns l s) x = if String.eqb x (c_name c) then Some c else column_of s x) /\
  (forall x, In x (names (with_columns l s)) <-> In x (names s) \/ x = c_name c).
Proof.
  intros Hg Hc Hp Hn Hin Hnd Hl0.
  assert (Hl : forall x, named c_name x l = if String.eqb x (c_name c) then Some c else column_of s x).
  { intros x. rewrite (named_put c p l0 l x Hp Hn). destruct (String.eqb_spec x (c_name c)); [reflexivity|auto]. }
  assert (Hnames : forall x, In x (map c_name l) <-> In x (names s) \/ x = c_name c).
  { intros x. rewrite <- Hin. apply put_column_split in Hp as (a & b & -> & ->). rewrite !map_app, !in_app_iff. simpl. intuition congruence. }
  split; [|split; auto]. destruct Hg as [G1 G2 G3 G4 G5 G6 G7]. constructor; unfold names, column_of, key_of, fk_of in *; simpl; auto.
  - apply put_column_split in Hp as (a & b & -> & ->). rewrite map_app in *. simpl.
    apply (NoDup_Add (a := c_name c) (l := map c_name a ++ map c_name b)); [apply Add_app|]. auto.
  - intros y k x Hy Hx. apply Hnames. left. eauto.
  - intros y k x Hy Hx. apply Hnames. left. eauto.
  - intros x d Hx Ha. rewrite Hl in Hx. destruct (String.eqb x (c_name c)); [injection Hx as <-; congruence|]. eauto.
  - intros x d y e Hx Hy Ha Hb. rewrite Hl in Hx, Hy.
    destruct (String.eqb x (c_name c)); [injection Hx as <-; congruence|]. destruct (String.eqb y (c_name c)); [injection Hy as <-; congruence|]. eauto.
Qed.
