(** Corollaries of the exact plans about changes that are applied or missed. *)
From Coq Require Import String Ascii List ZArith Bool Lia.
From Verif Require Import GoStr Ast Generator SpecPlan SpecColumns ProofPlan ProofSteps
  ProofTables ProofCompare ProofExact ProofObjects ProofRules.
Import ListNotations.
Local Open Scope string_scope.
Local Open Scope list_scope.

Lemma contrib_in {A B} (R : A -> list B -> Prop) l out x : contrib R l out -> In x l ->
  exists o a b, R x o /\ out = a ++ o ++ b.
Proof.
  intros H. induction H as [|y o l out Hy H IH]; [intros []|]. intros [->|Hx].
  - exists o, [], out. auto.
  - destruct (IH Hx) as (o' & a & b & Ho & ->). exists o', (o ++ a), b. now rewrite <- app_assoc.
Qed.

Lemma contrib_out {A B} (R : A -> list B -> Prop) l out y : contrib R l out -> In y out ->
  exists x o, In x l /\ R x o /\ In y o.
Proof.
  intros H. induction H as [|x o l out Hx H IH]; [intros []|]. rewrite in_app_iff. intros [Hy|Hy].
  - exists x, o. simpl. auto.
  - destruct (IH Hy) as (x' & o' & Hi & Hr & Ho). exists x', o'. simpl. auto.
Qed.

Theorem changed_fk_is_recreated m desired current out t ct f cf : m <> SQLite3 ->
  NoDup (created desired) -> NoDup (created current) -> plan m desired current = Ok out ->
  In t (tables_in desired) -> In ct (schema current) -> t_name ct = t_name t ->
  In f (t_fks t) -> named fk_constraint (fk_constraint f) (t_fks ct) = Some cf -> ~ fk_matches m cf f ->
  exists a b, effects (fk_ops (t_name t)) out = a ++ [Drop (fk_constraint f); Add f] ++ b.
Proof.
  intros Hm H1 H2 H3 H4 H5 H6 Hf Hn Hd.
  destruct (fk_ops_exact m desired current out H1 H2 H3 t ct H4 H5 H6) as (i & c & Hi & _ & ->).
  destruct (contrib_in _ _ _ _ Hi Hf) as (o & a & b & Ho & ->). unfold desired_fk in Ho. rewrite Hn in Ho.
  destruct Ho as [[Ho _]|[_ ->]]; [contradiction|]. exists a, (b ++ c). destruct m; try contradiction; now rewrite <- !app_assoc.
Qed.

Theorem obsolete_trigger_stays m desired current out n :
  NoDup (created desired) -> plan m desired current = Ok out ->
  ~ In n (map tr_name (triggers_in desired)) -> ~ In (TriggerDrop n) (effects trigger_ops out).
Proof.
  intros H1 H2 Hn Hi. pose proof (trigger_ops_exact m desired current out H1 H2) as H.
  destruct (contrib_out _ _ _ _ H Hi) as (t & o & Ht & Ho & Hy). apply Hn.
  enough (tr_name t = n) as <- by now apply in_map. clear -Ho Hy. unfold desired_trigger in Ho.
  destruct m; try (subst o; now destruct Hy); destruct (named _ _ _);
    repeat match goal with H : _ \/ _ |- _ => destruct H | H : _ /\ _ |- _ => destruct H end; subst o; simpl in Hy;
    repeat match goal with H : _ \/ _ |- _ => destruct H end; try contradiction; try discriminate; congruence.
Qed.

Lemma Forall2_map_eq {A B} (f : A -> B) l l' : Forall2 (fun a b => f a = f b) l l' -> map f l = map f l'.
Proof. induction 1; simpl; congruence. Qed.

Theorem changed_policy_is_recreated m desired current out t ct s p cp :
  NoDup (created desired) -> NoDup (created current) -> plan m desired current = Ok out ->
  In t (tables_in desired) -> In ct (schema current) -> t_name ct = t_name t ->
  In (AddPolicy s (t_name t) p) desired -> named p_name (p_name p) (t_policies ct) = Some cp ->
  p_using p <> ("(" ++ p_using cp ++ ")")%string -> p_with_check p <> ("(" ++ p_with_check cp ++ ")")%string ->
  to_lower (p_scope cp) <> to_lower (p_scope p) \/
  to_lower (p_permissive cp) <> to_lower (p_permissive p) \/
  to_lower (p_using cp) <> to_lower (p_using p) \/
  to_lower (p_with_check cp) <> to_lower (p_with_check p) \/
  map to_lower (sort_strings (p_roles cp)) <> map to_lower (sort_strings (p_roles p)) ->
  exists a b, effects (policy_ops (t_name t)) out = a ++ [Drop (p_name p); Add p] ++ b.
Proof.
  intros H1 H2 H3 H4 H5 H6 Hp Hn Hu Hw Hd.
  destruct (policy_ops_exact m desired current out H1 H2 H3 t ct H4 H5 H6) as (i & Hi & ->).
  assert (Hin : In p (policies_on (t_name t) desired)).
  { unfold policies_on. apply in_flat_map. eexists. split; [exact Hp|]. simpl. rewrite String.eqb_refl. simpl. auto. }
  destruct (contrib_in _ _ _ _ Hi Hin) as (o & a & b & Ho & ->). unfold desired_policy in Ho. rewrite Hn in Ho.
  destruct Ho as [[Ho _]|[_ ->]].
  - exfalso. destruct Ho as (A & B & [[_ C]|(C & [[_ D]|(D & E)])]); [exact (Hu C)|exact (Hw D)|].
    unfold same_letters in *. apply Forall2_map_eq in E. tauto.
  - exists a. eexists. rewrite <- !app_assoc. reflexivity.
Qed.

Theorem identity_removal desired current out t ct c cc :
  NoDup (created desired) -> NoDup (created current) -> plan Mssql desired current = Ok out ->
  In t (tables_in desired) -> In ct (schema current) -> t_name ct = t_name t ->
  NoDup (map c_name (t_columns t)) -> In c (t_columns t) ->
  named c_name (c_name c) (t_columns ct) = Some cc -> c_identity cc <> None -> c_identity c = None ->
  In (c_name c) (effects (dropped_columns (t_name t)) out) /\
  forall c' p, In (c', p) (effects (added_columns (t_name t)) out) -> c_name c' <> c_name c.
Proof.
  intros H1 H2 H3 H4 H5 H6 Hnd Hc Hn Hi Hi'.
  assert (Hid : identity_differs Mssql ct c cc). { split; [reflexivity|]. split; [exact Hn|]. now rewrite Hi'. }
  split.
  - destruct (dropped_columns_exact Mssql desired current out H1 H2 H3 t ct H4 H5 H6) as (d & Hd & ->).
    destruct (contrib_in _ _ _ _ Hd Hc) as (o & a & b & Ho & ->).
    destruct Ho as [(cc' & _ & _ & ->)|(Ho & _)]; [rewrite !in_app_iff; simpl; auto|].
    now specialize (Ho cc Hid).
  - intros c' p Ha E. pose proof (added_columns_exact Mssql desired current out H1 H2 H3 t ct H4 H5 H6) as H.
    destruct (contrib_out _ _ _ _ H Ha) as ([prev c0] & o & Hx & Ho & Hy).
    assert (Hc0 : In c0 (t_columns t)).
    { clear -Hx. revert Hx. generalize (@None string). induction (t_columns t) as [|y l IH]; intros pr Hx; [destruct Hx|].
      simpl in Hx. destruct Hx as [Hx|Hx]; [injection Hx as _ <-; left; reflexivity|right; eauto]. }
    assert (Hc' : c_name c' = c_name c0).
    { destruct Ho as [(_ & ->)|[(k & b & _ & _ & ->)|(_ & _ & ->)]]; try (now destruct Hy); destruct Hy as [Hy|[]]; injection Hy as <- _; reflexivity. }
    assert (c0 = c) as ->.
    { clear -Hnd Hc Hc0 E Hc'. assert (E' : c_name c0 = c_name c) by congruence. clear Hc'. clear E. revert Hnd Hc Hc0. induction (t_columns t) as [|y l IH]; simpl; [tauto|].
      intros Hn Hc Hc0. inversion Hn as [|? ? Hni Hn']; subst.
      destruct Hc as [<-|Hc], Hc0 as [<-|Hc0]; auto; destruct Hni; [rewrite <- E'|rewrite E']; now apply in_map. }
    destruct Ho as [(Hb & _)|[(k & b & _ & Hk & _)|(_ & _ & ->)]]; [congruence|congruence|destruct Hy].
Qed.
