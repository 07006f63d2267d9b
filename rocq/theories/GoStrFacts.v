(** Facts about the string functions of [GoStr]. *)
From Coq Require Import String Ascii List ZArith Bool Lia Decimal DecimalString DecimalZ.
From Verif Require Import GoStr.
Import ListNotations.
Local Open Scope string_scope.

Lemma sapp_nil_r s : s ++ "" = s.
Proof. induction s; simpl; congruence. Qed.

Lemma sapp_assoc a b c : (a ++ b) ++ c = a ++ b ++ c.
Proof. induction a; simpl; congruence. Qed.

Lemma sapp_length a b : String.length (a ++ b) = (String.length a + String.length b)%nat.
Proof. induction a; simpl; congruence. Qed.

Lemma sapp_inj_l a b c : a ++ b = a ++ c -> b = c.
Proof. induction a; simpl; [auto|]. intros H. injection H as H. auto. Qed.

Fixpoint has_char (c : ascii) (s : string) : bool :=
  match s with
  | EmptyString => false
  | String a s' => Ascii.eqb a c || has_char c s'
  end.

Lemma has_char_app c a b : has_char c (a ++ b) = has_char c a || has_char c b.
Proof. induction a; simpl; [reflexivity|]. now rewrite IHa, orb_assoc. Qed.

Fixpoint all_chars (f : ascii -> bool) (s : string) : bool :=
  match s with
  | EmptyString => true
  | String a s' => f a && all_chars f s'
  end.

Lemma all_chars_app f a b : all_chars f (a ++ b) = all_chars f a && all_chars f b.
Proof. induction a; simpl; [reflexivity|]. now rewrite IHa, andb_assoc. Qed.

Lemma has_prefix_refl s : has_prefix s s = true.
Proof. induction s; simpl; [reflexivity|]. now rewrite Ascii.eqb_refl. Qed.

Lemma has_prefix_app p r : has_prefix (p ++ r) p = true.
Proof. induction p; simpl; [now destruct r|]. now rewrite Ascii.eqb_refl. Qed.

Lemma has_prefix_spec s p : has_prefix s p = true <-> exists r, s = p ++ r.
Proof.
  split.
  - revert s; induction p as [|a p IH]; intros s H; [now exists s|].
    destruct s as [|b s]; [discriminate|]. simpl in H.
    destruct (Ascii.eqb a b) eqn:E; [|discriminate]. apply Ascii.eqb_eq in E. subst b.
    destruct (IH s H) as [r ->]. now exists r.
  - intros [r ->]. apply has_prefix_app.
Qed.

Lemma contains_spec s sub : contains s sub = true <-> exists a b, s = a ++ sub ++ b.
Proof.
  split.
  - induction s as [|c s IH]; cbn [contains]; rewrite ?orb_false_r; intros H.
    + apply has_prefix_spec in H. destruct H as [r H]. now exists "", r.
    + apply orb_true_iff in H. destruct H as [H|H].
      * apply has_prefix_spec in H. destruct H as [r H]. now exists "", r.
      * destruct (IH H) as [a [b ->]]. now exists (String c a), b.
  - intros [a [b ->]]. induction a as [|c a IH]; simpl.
    + pose proof (has_prefix_app sub b) as H. destruct (sub ++ b); cbn [contains]; rewrite H; reflexivity.
    + rewrite IH. apply orb_true_r.
Qed.

Lemma contains_app_l a b sub : contains a sub = true -> contains (a ++ b) sub = true.
Proof. rewrite !contains_spec. intros [x [y ->]]. exists x, (y ++ b). now rewrite !sapp_assoc. Qed.

Lemma contains_app_r a b sub : contains b sub = true -> contains (a ++ b) sub = true.
Proof. rewrite !contains_spec. intros [x [y ->]]. exists (a ++ x), y. now rewrite !sapp_assoc. Qed.

(** ** Splitting *)
Lemma split_char_nonempty c s : split_char c s <> [].
Proof. destruct s; simpl; [discriminate|]. destruct (Ascii.eqb a c); [discriminate|]. now destruct (split_char c s). Qed.

Lemma split_char_none c s : has_char c s = false -> split_char c s = [s].
Proof.
  induction s as [|a s IH]; simpl; [reflexivity|]. intros H. apply orb_false_iff in H. destruct H as [Ha Hs].
  rewrite Ha, (IH Hs). reflexivity.
Qed.

Lemma split_char_app c a b : has_char c a = false -> split_char c (a ++ String c b) = a :: split_char c b.
Proof.
  induction a as [|x a IH]; simpl; intros H.
  - now rewrite Ascii.eqb_refl.
  - apply orb_false_iff in H. destruct H as [Hx Ha]. now rewrite Hx, (IH Ha).
Qed.

Lemma split_first_spec c a b : has_char c a = false -> split_first c (a ++ String c b) = Some (a, b).
Proof.
  induction a as [|x a IH]; simpl; intros H.
  - now rewrite Ascii.eqb_refl.
  - apply orb_false_iff in H. destruct H as [Hx Ha]. now rewrite Hx, (IH Ha).
Qed.

Lemma split_first_none c a : has_char c a = false -> split_first c a = None.
Proof.
  induction a as [|x a IH]; simpl; intros H; [reflexivity|].
  apply orb_false_iff in H. destruct H as [Hx Ha]. now rewrite Hx, (IH Ha).
Qed.

Lemma split_first_inv c s a b : split_first c s = Some (a, b) -> s = a ++ String c b /\ has_char c a = false.
Proof.
  revert a b; induction s as [|x s IH]; simpl; intros a b H; [discriminate|].
  destruct (Ascii.eqb x c) eqn:E.
  - injection H as <- <-. apply Ascii.eqb_eq in E. subst x. now split.
  - destruct (split_first c s) as [[u v]|]; [|discriminate]. injection H as <- <-.
    destruct (IH u v eq_refl) as [-> Hu]. split; [reflexivity|]. simpl. now rewrite E.
Qed.

(** ** Trimming *)
Lemma trim_left_space w s : all_chars is_space w = true -> trim_left (w ++ s) = trim_left s.
Proof.
  induction w as [|a w IH]; simpl; [reflexivity|]. intros H. apply andb_true_iff in H. destruct H as [Ha Hw].
  now rewrite Ha, IH.
Qed.

Definition first_char (s : string) : option ascii := match s with EmptyString => None | String a _ => Some a end.
Fixpoint last_char (s : string) : option ascii :=
  match s with
  | EmptyString => None
  | String a EmptyString => Some a
  | String _ s' => last_char s'
  end.

Lemma trim_left_id s a : first_char s = Some a -> is_space a = false -> trim_left s = s.
Proof. destruct s; simpl; [discriminate|]. intros H Ha. injection H as ->. now rewrite Ha. Qed.

Lemma trim_right_space w : all_chars is_space w = true -> trim_right w = "".
Proof.
  induction w as [|a w IH]; simpl; [reflexivity|]. intros H. apply andb_true_iff in H. destruct H as [Ha Hw].
  now rewrite (IH Hw), Ha.
Qed.

Lemma trim_right_app s w a :
  last_char s = Some a -> is_space a = false -> all_chars is_space w = true -> trim_right (s ++ w) = s.
Proof.
  induction s as [|x s IH]; simpl; [discriminate|]. intros Hl Ha Hw.
  destruct s as [|y s].
  - injection Hl as ->. simpl. now rewrite (trim_right_space w Hw), Ha.
  - specialize (IH Hl Ha Hw). rewrite IH. reflexivity.
Qed.

Lemma trim_space_pad w s w' a b :
  all_chars is_space w = true -> all_chars is_space w' = true ->
  first_char s = Some a -> is_space a = false -> last_char s = Some b -> is_space b = false ->
  trim_space (w ++ s ++ w') = s.
Proof.
  intros Hw Hw' Hf Ha Hl Hb. unfold trim_space.
  assert (H : trim_right (w ++ s ++ w') = w ++ s).
  { rewrite <- sapp_assoc. apply (trim_right_app _ _ b); auto.
    clear -Hl Hw. induction w as [|x w IH]; simpl; [assumption|].
    simpl in Hw. apply andb_true_iff in Hw. destruct Hw as [_ Hw]. rewrite (IH Hw).
    destruct (w ++ s) eqn:E; [|reflexivity]. destruct w; [|discriminate]. simpl in E. subst s. discriminate. }
  rewrite H, trim_left_space by assumption. now apply (trim_left_id _ a).
Qed.

Lemma trim_space_blank w : all_chars is_space w = true -> trim_space w = "".
Proof. intros H. unfold trim_space. now rewrite trim_right_space. Qed.

Lemma trim_suffix_space_snoc s : trim_suffix_space (s ++ " ") = s.
Proof.
  induction s as [|a s IH]; simpl; [reflexivity|]. rewrite IH.
  destruct (s ++ " ") eqn:E; [|reflexivity]. destruct s; discriminate.
Qed.

(** ** Equality tests *)
Lemma strings_eqb_eq a b : strings_eqb a b = true <-> a = b.
Proof.
  revert b; induction a as [|x a IH]; intros [|y b]; simpl; split; try discriminate; auto.
  - intros H. apply andb_true_iff in H. destruct H as [H1 H2]. apply String.eqb_eq in H1. apply IH in H2. congruence.
  - intros H. injection H as -> ->. rewrite String.eqb_refl. now apply IH.
Qed.

Lemma strings_eqb_refl a : strings_eqb a a = true.
Proof. now apply strings_eqb_eq. Qed.

Lemma contains_string_spec l s : contains_string l s = true <-> In s l.
Proof.
  induction l as [|x l IH]; simpl; [split; [discriminate|tauto]|].
  destruct (String.eqb x s) eqn:E.
  - apply String.eqb_eq in E. tauto.
  - rewrite IH. apply String.eqb_neq in E. tauto.
Qed.

Lemma contains_string_false l s : contains_string l s = false <-> ~ In s l.
Proof.
  rewrite <- contains_string_spec. destruct (contains_string l s); intuition congruence.
Qed.
