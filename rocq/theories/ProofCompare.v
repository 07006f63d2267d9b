(** The planner's comparisons decide the relations of [SpecPlan]. *)
From Coq Require Import String Ascii List ZArith Bool Lia.
From Verif Require Import GoStr GoStrFacts Ast Generator SpecPlan.
Import ListNotations.
Local Open Scope string_scope.
Local Open Scope list_scope.

Lemma take_length_prefix b : forall a, (String.length b < String.length a)%nat ->
  take (String.length b) a = b <-> exists s, a = (b ++ s)%string.
Proof.
  induction b as [|c b IH]; intros a H; simpl.
  - split; [exists a; reflexivity|reflexivity].
  - destruct a as [|d a]; simpl in H; [lia|]. split.
    + intros E. injection E as -> E. apply IH in E as [s ->]; [|lia]. now exists s.
    + intros [s E]. simpl in E. injection E as -> E. f_equal. apply IH; [lia|]. now exists s.
Qed.

Lemma value_type_eqb_spec a b : value_type_eqb a b = true <-> a = b.
Proof. destruct a, b; simpl; split; intro; congruence || auto. Qed.

Lemma length_app_s a b : String.length (a ++ b)%string = (String.length a + String.length b)%nat.
Proof. induction a; simpl; auto. Qed.

Lemma are_same_value_spec a b : are_same_value a b = true <-> value_matches a b.
Proof.
  destruct a as [a|], b as [b|]; simpl; try (split; [discriminate|tauto] || tauto).
  destruct (value_type_eqb (v_type b) VFloat) eqn:Ef; simpl.
  - apply value_type_eqb_spec in Ef. destruct (Nat.ltb_spec (String.length (v_raw b)) (String.length (v_raw a))).
    + rewrite String.eqb_eq, take_length_prefix by assumption. split; [tauto|].
      intros [E|[_ E]]; [exfalso; rewrite E in H; lia|assumption].
    + rewrite String.eqb_eq. split; [tauto|]. intros [E|[_ [s E]]]; [assumption|].
      rewrite E in H |- *. rewrite length_app_s in H. destruct s; [apply sapp_nil_r|simpl in H; lia].
  - rewrite String.eqb_eq. split; [tauto|]. intros [E|[E _]]; [assumption|].
    rewrite E in Ef. discriminate.
Qed.

Lemma direction_spec a b : String.eqb (direction_or_asc a) (direction_or_asc b) = true <->
  a = b \/ (a = "" /\ b = "asc") \/ (a = "asc" /\ b = "").
Proof.
  unfold direction_or_asc. rewrite String.eqb_eq.
  destruct (String.eqb_spec a "") as [Ea|Ea], (String.eqb_spec b "") as [Eb|Eb]; subst; split; intros H;
    try tauto; try (now left); try (subst; tauto);
    destruct H as [H|[[H H']|[H H']]]; subst; congruence.
Qed.

Lemma same_index_columns_spec a : forall b, same_index_columns a b = true <-> Forall2 index_column_matches a b.
Proof.
  induction a as [|x a IH]; destruct b as [|y b]; simpl; split; intros H; try discriminate; try constructor;
    try (inversion H; fail).
  - apply andb_prop in H as [H _]. apply andb_prop in H as [H1 H2]. split; [now apply String.eqb_eq|now apply direction_spec].
  - apply andb_prop in H as [_ H]. now apply IH.
  - inversion H as [|? ? ? ? [H1 H2] H3]; subst. apply andb_true_intro. split; [apply andb_true_intro; split|now apply IH].
    + now apply String.eqb_eq.
    + now apply direction_spec.
Qed.

Lemma are_same_indexes_spec a b : are_same_indexes a b = true <-> index_matches a b.
Proof.
  unfold are_same_indexes, index_matches. rewrite !andb_true_iff, !eqb_true_iff, same_index_columns_spec, String.eqb_eq, strings_eqb_eq, forallb_forall.
  split.
  - intros (((((H1 & H2) & H3) & H4) & H5) & H6). repeat split; auto. intros o Ho. specialize (H6 o Ho).
    unfold named. unfold find_option in H6. destruct (find _ _) as [o'|]; [|discriminate]. exists o'.
    split; [reflexivity|]. now apply are_same_value_spec.
  - intros (H1 & H2 & H3 & H4 & H5 & H6). repeat split; auto. intros o Ho. destruct (H6 o Ho) as (o' & E & Hv).
    unfold find_option. unfold named in E. rewrite E. now apply are_same_value_spec.
Qed.

Lemma are_same_indexes_false a b : are_same_indexes a b = false <-> ~ index_matches a b.
Proof. rewrite <- are_same_indexes_spec. destruct (are_same_indexes a b); split; intros H; (congruence || (exfalso; now apply H) || auto). Qed.

Lemma action_spec m a b : String.eqb (normalize_action m a) (normalize_action m b) = true <-> action_matches m a b.
Proof.
  rewrite String.eqb_eq. unfold action_matches, normalize_action.
  destruct m; try (split; [tauto|intros [H|[[H|H] _]]; congruence]);
  (destruct (String.eqb_spec a "") as [Ea|Ea], (String.eqb_spec b "") as [Eb|Eb]; subst; split; intros H;
    try tauto; try (now left);
    try (right; split; [tauto|]; subst; tauto);
    destruct H as [H|[_ [[H H']|[H H']]]]; subst; congruence).
Qed.

Lemma are_same_foreign_keys_spec m a b : are_same_foreign_keys m a b = true <-> fk_matches m a b.
Proof.
  unfold are_same_foreign_keys, fk_matches. rewrite !andb_true_iff, !action_spec, eqb_true_iff. tauto.
Qed.

Lemma are_same_foreign_keys_false m a b : are_same_foreign_keys m a b = false <-> ~ fk_matches m a b.
Proof. rewrite <- are_same_foreign_keys_spec. destruct (are_same_foreign_keys m a b); split; intros H; (congruence || (exfalso; now apply H) || auto). Qed.

Lemma are_same_identity_spec a b : are_same_identity a b = true <-> a = b.
Proof.
  destruct a as [[x1 x2]|], b as [[y1 y2]|]; simpl; try (split; [discriminate|discriminate] || tauto).
  rewrite andb_true_iff, String.eqb_eq, eqb_true_iff. split; [intros [-> ->]; reflexivity|].
  intros H. injection H. auto.
Qed.

Lemma are_same_identity_false a b : are_same_identity a b = false <-> a <> b.
Proof. rewrite <- are_same_identity_spec. destruct (are_same_identity a b); split; intros H; (congruence || (exfalso; now apply H) || auto). Qed.

Lemma strings_map_spec {A} (f g : A -> string) a : forall b,
  strings_eqb (map f a) (map g b) = true <-> Forall2 (fun x y => f x = g y) a b.
Proof.
  induction a as [|x a IH]; destruct b as [|y b]; simpl; split; intros H; try discriminate; try constructor;
    try (inversion H; fail).
  - apply andb_prop in H as [H _]. now apply String.eqb_eq.
  - apply andb_prop in H as [_ H]. now apply IH.
  - inversion H; subst. apply andb_true_intro. split; [now apply String.eqb_eq|now apply IH].
Qed.

Lemma are_same_trigger_spec a b : are_same_trigger a b = true <-> trigger_matches a b.
Proof.
  unfold are_same_trigger, trigger_matches. rewrite !andb_true_iff, !String.eqb_eq, strings_map_spec. unfold same_letters, squash. tauto.
Qed.

Lemma are_same_trigger_false a b : are_same_trigger a b = false <-> ~ trigger_matches a b.
Proof. rewrite <- are_same_trigger_spec. destruct (are_same_trigger a b); split; intros H; (congruence || (exfalso; now apply H) || auto). Qed.

Lemma are_same_policies_spec a b : are_same_policies a b = true <-> policy_matches a b.
Proof.
  unfold are_same_policies, policy_matches, in_parentheses, same_letters.
  destruct (String.eqb_spec (to_lower (p_scope a)) (to_lower (p_scope b))); cbn [negb]; [|split; [discriminate|tauto]].
  destruct (String.eqb_spec (to_lower (p_permissive a)) (to_lower (p_permissive b))); cbn [negb]; [|split; [discriminate|tauto]].
  destruct (String.eqb_spec (to_lower (p_using a)) (to_lower (p_using b))); cbn [negb].
  2:{ rewrite String.eqb_eq. split; [intros H; symmetry in H|intros H; symmetry]; tauto. }
  destruct (String.eqb_spec (to_lower (p_with_check a)) (to_lower (p_with_check b))); cbn [negb].
  2:{ rewrite String.eqb_eq. split; [intros H; symmetry in H|intros H; symmetry]; tauto. }
  rewrite strings_map_spec. tauto.
Qed.

Lemma are_same_policies_false a b : are_same_policies a b = false <-> ~ policy_matches a b.
Proof. rewrite <- are_same_policies_spec. destruct (are_same_policies a b); split; intros H; (congruence || (exfalso; now apply H) || auto). Qed.
