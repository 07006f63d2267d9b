(** Changed indexes and columns are planned. *)
From Coq Require Import String Ascii List ZArith Bool Lia.
From Verif Require Import GoStr Ast Generator SpecPlan SpecColumns SpecNoticed ProofPlan ProofSteps
  ProofTables ProofCompare ProofExact ProofColumns ProofGaps ProofMysql.
Import ListNotations.
Local Open Scope string_scope.
Local Open Scope list_scope.

Theorem changed_index_is_recreated m desired current out t ct i ci :
  NoDup (created desired) -> NoDup (created current) -> plan m desired current = Ok out ->
  In t (tables_in desired) -> In ct (schema current) -> t_name ct = t_name t ->
  (In i (t_indexes t) /\ i_primary i = false) \/ In i (indexes_on (t_name t) desired) ->
  named i_name (i_name i) (t_indexes ct) = Some ci -> ~ index_matches ci i ->
  exists a b, effects (index_ops (t_name t)) out = a ++ drop_index_op m (i_name i) ++ [Add i] ++ b.
Proof.
  intros H1 H2 H3 H4 H5 H6 Hi Hn Hd.
  destruct (index_ops_exact m desired current out H1 H2 H3 t ct H4 H5 H6) as (x & y & z & X & Y & _ & ->).
  assert (K : forall o, desired_index m ct i o -> o = drop_index_op m (i_name i) ++ [Add i]).
  { intros o. unfold desired_index. rewrite Hn. intros [[M _]|[_ E]]; [contradiction|exact E]. }
  destruct Hi as [[Hi Hp]|Hi].
  - destruct (contrib_in _ _ _ _ X Hi) as (o & a & b & Ho & ->). unfold desired_inline_index in Ho. rewrite Hp in Ho. apply K in Ho. subst o.
    exists a, (b ++ y ++ z). now rewrite <- !app_assoc.
  - destruct (contrib_in _ _ _ _ Y Hi) as (o & a & b & Ho & ->). apply K in Ho. subst o. exists (x ++ a), (b ++ z). now rewrite <- !app_assoc.
Qed.

Lemma in_with_previous l : forall prev (c : column), In c l -> exists p, In (p, c) (with_previous prev l).
Proof.
  induction l as [|x l IH]; intros prev c; [intros []|]. cbn [with_previous]. intros [->|I].
  - exists prev. now left.
  - destruct (IH (Some (c_name x)) c I) as (p & P). exists p. now right.
Qed.
Ltac holds E tac := destruct E as [[_ E]|[E _]]; [|exfalso; apply E; tac].
Lemma required_dec c : {required c} + {~ required c}.
Proof.
  unfold required. destruct (c_notnull c) as [[]|]; [left; now left|right; intros [H|[H _]]; discriminate|].
  destruct (string_dec (c_type c) "serial") as [->|A]; [left; auto|]. destruct (string_dec (c_type c) "bigserial") as [->|B]; [left; auto|].
  right. intros [H|[_ [H|H]]]; [discriminate|contradiction|contradiction].
Qed.
Lemma no_default_matches cc c : c_default cc = None -> c_default c = None -> default_matches cc c.
Proof. unfold default_matches. intros -> ->. exact I. Qed.

Theorem changed_column_is_noticed m desired current out t ct c cc :
  NoDup (created desired) -> NoDup (created current) -> plan m desired current = Ok out ->
  In t (tables_in desired) -> In ct (schema current) -> t_name ct = t_name t ->
  named c_name (c_name c) (t_columns t) = Some c -> named c_name (c_name c) (t_columns ct) = Some cc -> differs m ct cc c ->
  exists o, In (c_name c, o) (effects (column_ops (t_name t)) out).
Proof.
  intros H1 H2 H3 H4 H5 H6 Hc Hcc Hd.
  assert (Nc : c_name cc = c_name c) by (apply named_some in Hcc; tauto).
  assert (Ic : In c (t_columns t)) by (apply named_some in Hc; tauto).
  assert (Icc : In cc (t_columns ct)) by (apply named_some in Hcc; tauto).
  destruct (column_ops_exact m desired current out H1 H2 H3 t ct H4 H5 H6) as (ch & rm & ad & C & R & A & ->).
  destruct (in_with_previous _ None c Ic) as (p & Ip).
  destruct (contrib_in _ _ _ _ C Ip) as (o & a & b & Ho & Ech). cbn [desired_column] in Ho. rewrite Hcc in Ho. destruct Ho as (ops & -> & Ho).
  assert (K : forall x, In x ops -> exists o, In (c_name c, o) (ch ++ rm ++ ad ++
    flat_map (fun c0 => column_cleanup m ct (c_name c0)) (without c_name c_name (t_columns t) (t_columns ct)))).
  { intros x X. exists x. rewrite Ech, !in_app_iff. left. right. left. now apply in_map. }
  destruct m; cbn [differs] in Hd.
  - destruct Ho as (q & chg & uq & -> & _ & E & _).
    destruct Hd as [Hd|[Hd|Hd]].
    + holds E ltac:(now left). apply (K (ColChange (first_version cc c) q)). rewrite E. now left.
    + holds E ltac:(now right; left). apply (K (ColChange (first_version cc c) q)). rewrite E. now left.
    + destruct (c_autoinc cc) eqn:Acc; destruct (c_autoinc c) eqn:Ac; try congruence.
      * destruct (contrib_in _ _ _ _ R Icc) as (o & a' & b' & Ho & ->). destruct Ho as [[_ Ho]|[Ho _]]; [|exfalso; apply Ho].
        -- exists (ColChange (set_autoinc false cc) PosNone). subst o. rewrite !in_app_iff, <- Nc. right. left. right. left. now left.
        -- split; [reflexivity|]. split; [exact Acc|]. intros c' Hc'. rewrite Nc, Hc in Hc'. congruence.
      * destruct (contrib_in _ _ _ _ A Ic) as (o & a' & b' & Ho & ->). destruct Ho as [[_ Ho]|[Ho _]]; [|exfalso; apply Ho].
        -- exists (ColChange c PosNone). subst o. rewrite !in_app_iff. right. right. left. right. left. now left.
        -- split; [reflexivity|]. split; [exact Ac|]. intros c' Hc'. rewrite Hcc in Hc'. congruence.
  - destruct Ho as (ty & dn & sn & id & df & ck & -> & Ety & Edn & Esn & Eid & Edf & Eck).
    destruct Hd as [Hd|[[Hp Hd]|[Hd|[Hd|[Hd Hs]]]]].
    + holds Ety ltac:(exact Hd). apply (K (ColType (first_version cc c))). rewrite Ety. now left.
    + destruct (required_dec cc) as [Rc|Rc]; destruct (required_dec c) as [Rd|Rd]; try (exfalso; tauto).
      * holds Edn ltac:(tauto). apply (K ColDropNotNull). rewrite Edn, !in_app_iff. right. left. now left.
      * holds Esn ltac:(tauto). apply (K ColSetNotNull). rewrite Esn, !in_app_iff. right. right. left. now left.
    + unfold postgres_identity in Eid. destruct (c_identity cc) as [i|] eqn:Ei; destruct (c_identity c) as [j|] eqn:Ej; try contradiction.
      * holds Eid ltac:(congruence). apply (K (ColSetIdentity j)). rewrite Eid, !in_app_iff. right. right. right. left. now left.
      * holds Eid ltac:(exact I). apply (K ColDropIdentity). rewrite Eid, !in_app_iff. right. right. right. left. now left.
      * holds Eid ltac:(exact I). apply (K (ColAddIdentity j (c_sequence c))). rewrite Eid, !in_app_iff. right. right. right. left. now left.
    + holds Edf ltac:(exact Hd). destruct (c_default c) as [d|] eqn:Ed.
      * apply (K (ColSetDefault d)). rewrite Edf, !in_app_iff. do 4 right. left. now left.
      * apply (K ColDropDefault). rewrite Edf, !in_app_iff. do 4 right. left. now left.
    + unfold postgres_check in Eck. holds Eck ltac:(exact Hd). destruct (c_check cc) as [k|] eqn:Ek; [|destruct (c_check c) as [k'|] eqn:Ek'].
      * eapply K. rewrite Eck, !in_app_iff. do 5 right. left. now left.
      * eapply K. rewrite Eck, !in_app_iff. do 5 right. right. now left.
      * exfalso. destruct Hs; congruence.
  - destruct Hd.
  - destruct Ho as (ck & df & -> & Eck & Edf). destruct Hd as [Hd|[Hd Hs]].
    + holds Edf ltac:(exact Hd). destruct (c_default cc) as [k|] eqn:Ek; [|destruct (c_default c) as [k'|] eqn:Ek'].
      * eapply K. rewrite Edf, !in_app_iff. right. left. now left.
      * eapply K. rewrite Edf, !in_app_iff. right. right. now left.
      * exfalso. apply Hd. now apply no_default_matches.
    + holds Eck ltac:(exact Hd). destruct (c_check cc) as [k|] eqn:Ek; [|destruct (c_check c) as [k'|] eqn:Ek'].
      * eapply K. rewrite Eck, !in_app_iff. left. left. now left.
      * eapply K. rewrite Eck, !in_app_iff. left. right. now left.
      * exfalso. destruct Hs; congruence.
Qed.
