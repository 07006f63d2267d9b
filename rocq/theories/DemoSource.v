(** Schemas used by the examples of PropsSource. *)
From Coq Require Import String Ascii List ZArith Bool.
From Verif Require Import GoStr Ast Generator SpecPlan SpecColumns SpecMysql SpecShown SpecShownMysql SpecWordsMysql SpecSource SpecNoticed
  DemoPlan DemoConverge DemoWordsMysql ProofDemo.
Import ListNotations.
Local Open Scope string_scope.
Local Open Scope list_scope.

Definition sized (z : Z) (c : column) : column := with_length z "" c.
Definition users_like (unique : bool) (n : Z) : table := mkTable "users" [not_null_col (col "id" 0 "bigint"); sized n (col "name" 1 "varchar")] [idx "by_name" unique ["name"]] [] [].
Definition new_users_table : table := users_like true 80.
Definition old_users_table : table := users_like false 40.
Definition changed_users : list ddl := [CreateTable "" new_users_table].
Definition old_users : list ddl := [CreateTable "" old_users_table].
Lemma users_example :
  NoDup (created changed_users) /\ NoDup (created old_users) /\ (exists out, plan Mysql changed_users old_users = Ok out) /\
  In new_users_table (tables_in changed_users) /\ In old_users_table (schema old_users) /\
  In (idx "by_name" true ["name"]) (t_indexes new_users_table) /\
  named i_name "by_name" (t_indexes old_users_table) = Some (idx "by_name" false ["name"]) /\ ~ index_matches (idx "by_name" false ["name"]) (idx "by_name" true ["name"]) /\
  named c_name "name" (t_columns new_users_table) = Some (sized 80 (col "name" 1 "varchar")) /\
  named c_name "name" (t_columns old_users_table) = Some (sized 40 (col "name" 1 "varchar")) /\
  differs Mysql old_users_table (sized 40 (col "name" 1 "varchar")) (sized 80 (col "name" 1 "varchar")).
Proof.
  split; [apply distinct_NoDup; reflexivity|]. split; [apply distinct_NoDup; reflexivity|]. split; [eexists; vm_compute; reflexivity|].
  split; [now left|]. split; [now left|]. split; [now left|]. split; [reflexivity|]. split; [intros (U & _); discriminate|].
  split; [reflexivity|]. split; [reflexivity|]. left. intros ((_ & _ & L & _) & _). specialize (L _ _ eq_refl eq_refl). discriminate.
Qed.

Lemma shop_denied :
  ~ asked_for shop_desired (dump shop) (EffAddColumn "users" (col "wages" 0 "int") PosNone) /\
  ~ asked_for shop_desired (dump shop) (EffAddIndex "users" (idx "by_wages" false ["wages"])) /\
  ~ asked_for shop_desired (dump shop) (EffVerbatim (CreateTable "CREATE TABLE wages (a int)" (mkTable "wages" [] [] [] []))).
Proof.
  split; [|split].
  - intros (_ & c & I & N & _). vm_compute in I. repeat (destruct I as [<-|I]; [discriminate N|]). destruct I.
  - intros I. vm_compute in I. repeat (destruct I as [I|I]; [discriminate I|]). destruct I.
  - intros I. vm_compute in I. repeat (destruct I as [I|I]; [discriminate I|]). destruct I.
Qed.

Definition name_added : stmt := nth 1 club_out (mkStmt "" (EffDropTable "")).
Definition friend_added : stmt := nth 11 club_out (mkStmt "" (EffDropTable "")).
Lemma club_sayable : sayable_columns "club" [declared club].
Proof.
  intros c I. assert (S : forallb sayable_column (my_columns club) = true) by (vm_compute; reflexivity).
  unfold columns_of, inline, tables_in, declared in I. cbn [flat_map app t_name my_ideal_table with_columns] in I. 
  assert (K : forall l n, In c (SpecMysql.number n (map my_ideal_column l)) -> forallb sayable_column l = true -> exists mc k, sayable_column mc = true /\ c = set_position k (my_ideal_column mc)).
  { clear. induction l as [|x l IH]; intros n I S; [destruct I|]. cbn in I. cbn [forallb] in S. apply andb_true_iff in S as [Sx S].
    destruct I as [<-|I]; [eauto|]. now apply (IH _ I). }
  apply (K (first_column :: other_columns) 0%Z); [|vm_compute; reflexivity]. vm_compute in I. vm_compute. exact I.
Qed.
Lemma name_example :
  plan Mysql [declared club] [declared club_before] = Ok club_out /\ In name_added club_out /\
  (exists c, s_eff name_added = EffAddColumn "club" c (PosAfter "id") /\ c_name c = "name") /\
  my_name "club" = true /\ sayable_columns "club" [declared club] /\
  (forall mc k, In (set_position k (my_ideal_column mc)) (columns_of "club" [declared club]) -> mc_name mc = "name" -> mc_default mc = Some (MyText "no name")) /\
  s_text name_added = "ALTER TABLE `club` ADD COLUMN `name` varchar(40) CHARACTER SET utf8mb4 COLLATE utf8mb4_bin NOT NULL DEFAULT 'no name' AFTER `id`".
Proof.
  split; [vm_compute; reflexivity|]. split; [vm_compute; tauto|]. split; [eexists; split; vm_compute; reflexivity|].
  split; [reflexivity|]. split; [exact club_sayable|]. split; [|vm_compute; reflexivity].
  intros mc k I N.
  assert (E : forall c, In c (columns_of "club" [declared club]) -> c_name c = "name" -> c_default c = Some (mkDefault (Some (ideal_default (MyText "no name"))) "")).
  { clear. intros c I. vm_compute in I. repeat (destruct I as [<-|I]; [intros N; first [discriminate N|reflexivity]|]). destruct I. }
  assert (C : c_name (set_position k (my_ideal_column mc)) = mc_name mc /\
    c_default (set_position k (my_ideal_column mc)) = option_map (fun d => mkDefault (Some (ideal_default d)) "") (mc_default mc)) by (unfold my_ideal_column; destruct (mc_type mc); now split).
  destruct C as [C1 C2]. specialize (E _ I). rewrite C1, C2 in E. specialize (E N). destruct (mc_default mc) as [[| | |p|]|]; cbn in E; try discriminate E.
  injection E as E _. now rewrite E.
Qed.
Lemma friend_example :
  plan Mysql [declared club] [declared club_before] = Ok club_out /\ In friend_added club_out /\
  (exists f, s_eff friend_added = EffAddForeignKey "club" f /\ fk_constraint f = "friend_of") /\ my_name "club" = true /\
  (forall f0, In f0 (table_fks_of "club" [declared club]) -> exists mf, my_fk_ok mf = true /\ f0 = my_ideal_fk mf).
Proof.
  split; [vm_compute; reflexivity|]. split; [vm_compute; tauto|]. split; [eexists; split; vm_compute; reflexivity|].
  split; [reflexivity|]. intros f I. vm_compute in I. destruct I as [<-|[]]. exists (nth 0 some_fks (mkMyFk "" "" [] "" "" [] None None)). split; vm_compute; reflexivity.
Qed.
