(** Corollaries used by the property files. *)
From Coq Require Import String Ascii List ZArith Bool Lia.
From Verif Require Import GoStr Ast Generator SpecPlan SpecColumns ProofPlan ProofSteps
  ProofTables ProofExact ProofObjects ProofFrame ProofTotal ProofSelf ProofColumns.
Import ListNotations.
Local Open Scope string_scope.
Local Open Scope list_scope.

Theorem dropped_columns_not_mssql m desired current out t ct : m <> Mssql ->
  NoDup (created desired) -> NoDup (created current) -> plan m desired current = Ok out ->
  In t (tables_in desired) -> In ct (schema current) -> t_name ct = t_name t ->
  effects (dropped_columns (t_name t)) out = map c_name (without c_name c_name (t_columns t) (t_columns ct)).
Proof.
  intros Hm H1 H2 H3 H4 H5 H6.
  destruct (dropped_columns_exact m desired current out H1 H2 H3 t ct H4 H5 H6) as (d & Hd & ->).
  apply contrib_silent in Hd; [now subst|]. intros c o _ [(cc & (E & _) & _)|[_ Ho]]; [contradiction|exact Ho].
Qed.

Lemma contrib_names {A} (R : A -> list (column * col_pos) -> Prop) (nm : A -> string) (f : A -> bool) l o :
  (forall x o, R x o -> map (fun y => c_name (fst y)) o = if f x then [nm x] else []) ->
  contrib R l o -> map (fun y => c_name (fst y)) o = map nm (filter f l).
Proof.
  intros H Hc. induction Hc as [|x o l out Hx Hc IH]; [reflexivity|]. rewrite map_app, IH, (H x o Hx). simpl. destruct (f x); reflexivity.
Qed.

Lemma with_previous_filter (p : column -> bool) l : forall prev,
  map (fun pc => c_name (snd pc)) (filter (fun pc => p (snd pc)) (with_previous prev l)) = map c_name (filter p l).
Proof. induction l as [|c l IH]; intros prev; simpl; [reflexivity|]. destruct (p c); simpl; now rewrite IH. Qed.

Theorem added_columns_not_mssql m desired current out t ct : m <> Mssql ->
  NoDup (created desired) -> NoDup (created current) -> plan m desired current = Ok out ->
  In t (tables_in desired) -> In ct (schema current) -> t_name ct = t_name t ->
  map (fun x => c_name (fst x)) (effects (added_columns (t_name t)) out) =
    map c_name (without c_name c_name (t_columns ct) (t_columns t)).
Proof.
  intros Hm H1 H2 H3 H4 H5 H6.
  pose proof (added_columns_exact m desired current out H1 H2 H3 t ct H4 H5 H6) as H.
  apply (contrib_names _ (fun pc => c_name (snd pc)) (fun pc => negb (mem (c_name (snd pc)) (map c_name (t_columns ct))))) in H.
  - rewrite H. unfold without. apply (with_previous_filter (fun c => negb (mem (c_name c) (map c_name (t_columns ct))))).
  - intros [prev c] o Ho. simpl. destruct Ho as [(Hn & ->)|[(cc & b & (E & _) & _)|((cc & Hn) & _ & ->)]].
    + assert (mem (c_name c) (map c_name (t_columns ct)) = false) as ->; [|reflexivity]. apply mem_false. intros Hi.
      apply in_map_iff in Hi as (x & Ex & Hx). pose proof (find_none _ _ Hn x Hx) as Hf. cbv beta in Hf.
      rewrite Ex, String.eqb_refl in Hf. discriminate.
    + contradiction.
    + assert (mem (c_name c) (map c_name (t_columns ct)) = true) as ->; [|reflexivity]. apply mem_spec.
      apply find_some in Hn as [Hi He]. apply String.eqb_eq in He. rewrite <- He. now apply in_map.
Qed.

Theorem new_part_texts m desired current out n :
  NoDup (created desired) -> NoDup (created current) -> plan m desired current = Ok out ->
  In n (created desired) -> ~ In n (created current) ->
  map s_text (table_part n out) =
    map ddl_statement (filter (fun d => match d with AddForeignKey _ _ _ => false | _ => true end) (statements_on n desired)).
Proof. intros H1 H2 H3 H4 H5. rewrite (new_part m desired current out H1 H2 H3 n H4 H5), map_map. reflexivity. Qed.

Theorem plan_rejected m desired current : NoDup (created desired) ->
  (well_formed desired = false \/
   exists s t f, In (CreateTable s t) desired /\ In f (t_fks t) /\ fk_constraint f = "" /\ In (t_name t) (created current)) ->
  forall out, plan m desired current <> Ok out.
Proof.
  intros Hn [Hw|(s & t & f & Hd & Hf & He & Hc)] out; [now apply plan_ill_formed|]. intros Hp.
  destruct (plan_ok_inv m desired current out Hn Hp) as (Hw & ts & a & b & Hts & Ha & _).
  assert (Hin : forall x, In x desired -> exists o, local m ts (views_in current) (triggers_in current) x = Ok o).
  { clear -Ha. revert a Ha. induction desired as [|d l IH]; intros a Ha x Hx; [destruct Hx|]. cbn [concat_map] in Ha.
    bind_inv Ha. bind_inv Ha. destruct Hx as [<-|Hx]; eauto. }
  destruct (Hin _ Hd) as [o Ho]. cbn [local] in Ho.
  destruct (find_table ts (t_name t)) as [ct|] eqn:Ef.
  - unfold ddls_for_create_table in Ho. do 6 bind_inv Ho. clear -E4 Hf He.
    match goal with H : concat_map (ddls_fk _ _ _) _ = Ok ?x |- _ => revert x H end.
    induction (t_fks t) as [|g l IH]; intros x Hx; [destruct Hf|]. cbn [concat_map] in Hx. bind_inv Hx. bind_inv Hx.
    destruct Hf as [->|Hf]; [|eauto]. unfold ddls_fk in E. rewrite He in E. discriminate.
  - apply find_table_none in Ef. rewrite (convert_names _ _ Hts) in Ef. contradiction.
Qed.

Theorem plan_rejected_err m desired current :
  (forall d, In d desired -> sane_ddl m d) -> (forall d, In d current -> sane_ddl m d) ->
  NoDup (created desired) -> NoDup (created current) ->
  (well_formed desired = false \/
   exists s t f, In (CreateTable s t) desired /\ In f (t_fks t) /\ fk_constraint f = "" /\ In (t_name t) (created current)) ->
  exists e, plan m desired current = Err e.
Proof.
  intros Hd Hc Hn1 Hn2 Hw. pose proof (plan_returns m desired current Hd Hc Hn2) as Hr.
  pose proof (plan_rejected m desired current Hn1 Hw) as Hp.
  destruct (plan m desired current) as [r|e| |]; simpl in Hr; try tauto.
  - now destruct (Hp r).
  - exists e. reflexivity.
Qed.
