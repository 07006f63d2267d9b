From Coq Require Import String Ascii List ZArith Bool Lia Relation_Operators.
From Verif Require Import GoStr Ast Generator SpecPlan SpecColumns SpecSql SpecTypes ProofColumns ProofRules ProofSql.
Import ListNotations.
Local Open Scope string_scope.
Local Open Scope list_scope.

Lemma same_type_serial m a b : same_type m a b -> (a = "serial" <-> b = "serial") /\ (a = "bigserial" <-> b = "bigserial").
Proof.
  induction 1 as [x y A|x|x y _ IH|x y z _ IH1 _ IH2].
  - destruct A; split; split; discriminate.
  - tauto.
  - tauto.
  - tauto.
Qed.

Lemma named_respelled m l l' : Forall2 (respelled m) l l' -> NoDup (map c_name l) ->
  forall c, In c l' -> exists cc, In cc l /\ named c_name (c_name c) l = Some cc /\ respelled m cc c.
Proof.
  intros F. induction F as [|x y l l' R F IH]; intros N c I; [easy|]. cbn in N. inversion N as [|? ? N1 N2]; subst.
  destruct I as [->|I].
  - exists x. destruct R as (ty & -> & S). cbn. rewrite String.eqb_refl. split; [now left|]. split; [reflexivity|]. now exists ty.
  - destruct (IH N2 c I) as (cc & A & B & C). exists cc. split; [now right|]. split; [|exact C]. unfold named in *. cbn [find].
    destruct (String.eqb_spec (c_name x) (c_name c)) as [E|E]; [|exact B]. exfalso. apply N1.
    rewrite E. destruct C as (ty & -> & _). cbn [c_name set_type]. now apply in_map.
Qed.

Lemma named_respelled' m l l' : Forall2 (respelled m) l l' -> NoDup (map c_name l) ->
  forall cc, In cc l -> exists c, named c_name (c_name cc) l' = Some c /\ respelled m cc c.
Proof.
  intros F. induction F as [|x y l l' R F IH]; intros N c I; [easy|]. cbn in N. inversion N as [|? ? N1 N2]; subst.
  unfold named. cbn [find]. destruct I as [->|I].
  - exists y. destruct R as (ty & -> & S). cbn. rewrite String.eqb_refl. split; [reflexivity|]. now exists ty.
  - destruct (IH N2 c I) as (d & A & B). exists d. split; [|exact B].
    destruct (String.eqb_spec (c_name y) (c_name c)) as [E|E]; [|exact A]. exfalso. apply N1.
    destruct R as (ty & -> & _). cbn in E. rewrite E. now apply in_map.
Qed.

Lemma contrib_empty {A B} (R : A -> list B -> Prop) l out : (forall x o, In x l -> R x o -> o = []) -> contrib R l out -> out = [].
Proof.
  intros H C. induction C as [|x o l out X C IH]; [reflexivity|]. rewrite (H x o (or_introl eq_refl) X), IH; [reflexivity|].
  intros y p I. apply H. now right.
Qed.

Lemma emit_not {A} (P : Prop) (x o : list A) : emit P x o -> ~ P -> o = [].
Proof. intros [[H _]|[_ H]] N; tauto. Qed.

Lemma in_previous l : forall p q c, In (q, c) (with_previous p l) -> In c l.
Proof. induction l as [|x l IH]; intros p q c I; [easy|]. destruct I as [[= <- <-]|I]; [now left|right; eauto]. Qed.

Lemma respelled_type m cc c : respelled m cc c -> data_type_matches m cc c.
Proof. intros (ty & -> & S). repeat split; cbn; auto. intros a b -> [= ->]. reflexivity. Qed.

Lemma identity_same i (o : list col_op) cc c : c_identity cc = i -> c_identity c = i -> postgres_identity cc c o -> o = [].
Proof.
  unfold postgres_identity. intros -> ->. destruct i as [i|]; intros H; eapply emit_not; eauto.
Qed.

Lemma respelled_nothing m desired current out t ct :
  NoDup (created desired) -> NoDup (created current) -> plan m desired current = Ok out ->
  In t (tables_in desired) -> In ct (schema current) -> t_name ct = t_name t ->
  NoDup (map c_name (t_columns ct)) -> Forall (steady m) (t_columns ct) ->
  Forall2 (respelled m) (t_columns ct) (t_columns t) ->
  effects (column_ops (t_name t)) out = [].
Proof.
  intros H1 H2 H3 H4 H5 H6 N S F.
  destruct (column_ops_exact m desired current out H1 H2 H3 t ct H4 H5 H6) as (ch & rm & ad & C & R & A & ->).
  assert (L : length (t_columns ct) = length (t_columns t)) by (clear -F; induction F; cbn; congruence).
  assert (ch = []) as ->.
  { eapply contrib_empty; [|exact C]. intros [p c] o I D. apply in_previous in I. cbn in D.
    destruct (named_respelled m _ _ F N c I) as (cc & Icc & E & Q). rewrite E in D. destruct D as (ops & -> & D).
    pose proof (proj1 (Forall_forall _ _) S cc Icc) as (S1 & S2). pose proof (respelled_type m cc c Q) as T.
    enough (ops = []) as -> by reflexivity.
    destruct Q as (ty & -> & Q). destruct (same_type_serial m _ _ Q) as [S5 S6].
    destruct m.
    - destruct D as (q & x & y & -> & _ & E1 & E2).
      assert (M : ~ moves ct t cc (set_type ty cc)) by (unfold moves; cbn; lia).
      rewrite (emit_not _ _ _ E1), (emit_not _ _ _ E2); [reflexivity| |].
      + cbn. intros (U & V & _). congruence.
      + intros [G|[G|G]]; [|apply G; exact S1|tauto]. apply G. destruct (S2 eq_refl) as (_ & Z). split; [exact T|]. exact Z.
    - assert (S1' : default_matches cc (set_type ty cc)) by exact S1.
      destruct D as (a & b & d & e & f & g & -> & E1 & E2 & E3 & E4 & E5 & E6).
      rewrite (emit_not _ _ _ E1), (emit_not _ _ _ E2), (emit_not _ _ _ E3), (emit_not _ _ _ E5); try tauto.
      + rewrite (identity_same (c_identity cc) _ _ _ eq_refl eq_refl E4). cbn. eapply emit_not; [exact E6|].
        intros G. apply G. unfold check_matches. cbn. split; [|reflexivity]. destruct (c_check cc); auto.
      + unfold required. cbn. tauto.
      + unfold required. cbn. tauto.
    - exact D.
    - destruct D as (a & b & -> & E1 & E2). rewrite (emit_not _ _ _ E1), (emit_not _ _ _ E2); [reflexivity| |].
      + intros G. apply G. exact S1.
      + intros G. apply G. unfold check_matches. cbn. split; [|reflexivity]. destruct (c_check cc); auto. }
  assert (rm = []) as ->.
  { eapply contrib_empty; [|exact R]. intros cc o I D. eapply emit_not; [exact D|]. intros (_ & X & Y).
    destruct (named_respelled' m _ _ F N cc I) as (c & E & ty & -> & _). specialize (Y _ E). cbn in Y. congruence. }
  assert (ad = []) as ->.
  { eapply contrib_empty; [|exact A]. intros c o I D. eapply emit_not; [exact D|]. intros (_ & X & Y).
    destruct (named_respelled m _ _ F N c I) as (cc & _ & E & ty & -> & _). specialize (Y _ E). cbn in X. congruence. }
  replace (without c_name c_name (t_columns t) (t_columns ct)) with (@nil column); [reflexivity|]. symmetry.
  unfold without.
  assert (E : map c_name (t_columns t) = map c_name (t_columns ct)).
  { clear -F. induction F as [|x y l l' (ty & -> & _) F IH]; cbn; [reflexivity|]. now rewrite IH. }
  rewrite E.
  assert (G : forall l, (forall x, In x l -> In x (t_columns ct)) ->
     filter (fun x => negb (mem (c_name x) (map c_name (t_columns ct)))) l = []).
  { induction l as [|x l IH]; intros I; [reflexivity|]. cbn.
    replace (mem (c_name x) (map c_name (t_columns ct))) with true.
    - cbn. apply IH. intros y J. apply I. now right.
    - symmetry. apply existsb_exists. exists (c_name x). split; [apply in_map, I; now left|apply String.eqb_refl]. }
  apply G. auto.
Qed.

(** ** C35 *)
Lemma full_type_text c : full_type c = type_text c <-> c_timezone c = false.
Proof.
  unfold full_type, type_text, sentence, when. set (a := (c_type c ++ _)%string).
  assert (L : forall x y : string, String.length (x ++ y) = String.length x + String.length y).
  { induction x as [|k x IH]; intros y; [reflexivity|]. cbn. now rewrite IH. }
  destruct (c_timezone c).
  - split; [|discriminate]. intros H. exfalso. apply (f_equal String.length) in H.
    cbn [join app] in H. rewrite !L in H. unfold a in H. rewrite !L in H. cbn in H. lia.
  - split; [reflexivity|]. intros _. cbn [join app]. unfold a.
    assert (Q : forall x y z : string, ((x ++ y) ++ z)%string = (x ++ y ++ z)%string).
    { induction x as [|k x IH]; intros y z; [reflexivity|]. cbn. now rewrite IH. }
    now rewrite Q.
Qed.

Lemma in_effects {B} (f : effect -> list B) out x : In x (effects f out) -> exists st, In st out /\ In x (f (s_eff st)).
Proof. unfold effects. intros I. apply in_flat_map in I. exact I. Qed.

Lemma contrib_in {A B} (R : A -> list B -> Prop) l out x : contrib R l out -> In x l -> exists o, R x o /\ (forall y, In y o -> In y out).
Proof.
  intros C I. induction C as [|y o l out Y C IH]; [easy|]. destruct I as [->|I].
  - exists o. split; [exact Y|]. intros z J. apply in_or_app. now left.
  - destruct (IH I) as (p & P & Q). exists p. split; [exact P|]. intros z J. apply in_or_app. right. auto.
Qed.

Lemma previous_in l c : In c l -> forall p, exists q, In (q, c) (with_previous p l).
Proof.
  induction l as [|x l IH]; intros I p; [easy|]. destruct I as [->|I]; [exists p; now left|].
  destruct (IH I (Some (c_name x))) as [q Q]. exists q. now right.
Qed.

Lemma type_change desired current out t ct c cc :
  NoDup (created desired) -> NoDup (created current) -> plan Postgres desired current = Ok out ->
  In t (tables_in desired) -> In ct (schema current) -> t_name ct = t_name t ->
  In c (t_columns t) -> named c_name (c_name c) (t_columns ct) = Some cc -> ~ data_type_matches Postgres cc c ->
  exists st, In st out /\ s_eff st = EffAlterType (t_name t) (c_name c) (first_version cc c) /\
    (s_text st = sentence ["ALTER TABLE"; table_ref Postgres (t_name t); "ALTER COLUMN"; quoted Postgres (c_name c);
                           "TYPE"; full_type c] <-> c_timezone c = false).
Proof.
  intros H1 H2 H3 H4 H5 H6 I E D.
  destruct (column_ops_exact Postgres desired current out H1 H2 H3 t ct H4 H5 H6) as (ch & rm & ad & C & _ & _ & EQ).
  destruct (previous_in _ c I None) as [q Q]. destruct (contrib_in _ _ _ _ C Q) as (o & O & J).
  cbn in O. rewrite E in O. destruct O as (ops & -> & O). destruct O as (a & b & x & y & z & w & -> & E1 & _).
  destruct E1 as [[_ ->]|[G _]]; [|contradiction].
  assert (K : In (c_name c, ColType (first_version cc c)) (effects (column_ops (t_name t)) out)).
  { rewrite EQ. apply in_or_app. left. apply J. cbn. now left. }
  apply in_effects in K. destruct K as (st & S & K).
  assert (F : s_eff st = EffAlterType (t_name t) (c_name c) (first_version cc c)).
  { clear -K. destruct (s_eff st); cbn in K; try easy; destruct (String.eqb_spec t0 (t_name t)) as [->|]; cbn in K;
      try easy; destruct K as [K|[]]; try discriminate; congruence. }
  exists st. split; [exact S|]. split; [exact F|].
  assert (P : sql_of Postgres (s_eff st) = Some (s_text st))
    by exact (proj1 (Forall_forall _ _) (plan_says Postgres desired current out H3) st S).
  rewrite F in P. cbn [sql_of] in P.
  assert (T : type_text (first_version cc c) = type_text c) by (unfold first_version; now destruct (c_autoinc cc)).
  injection P as P. rewrite T in P. rewrite <- P. rewrite <- full_type_text. split; [|intros ->; reflexivity].
  intros G. symmetry.
  assert (CA : forall u v v0 : string, (u ++ v = u ++ v0)%string -> v = v0).
  { induction u as [|k u IH]; intros v v0 X; [exact X|]. injection X as X. eauto. }
  cbn in G. repeat match goal with H : String _ _ = String _ _ |- _ => injection H as H end.
  repeat match goal with H : (?u ++ _ = ?u ++ _)%string |- _ => apply CA in H;
     repeat match goal with H : String _ _ = String _ _ |- _ => injection H as H end end.
  exact G.
Qed.
