(** One run of the command from the answers of the catalogue to the state it leaves, and the next. *)
From Coq Require Import String List ZArith Bool Lia.
From Verif Require Import GoStr Ast Generator SchemaText Runner SpecRunner ProofRunner Planner SpecTwoRuns.
Import ListNotations.
Local Open Scope list_scope.

Lemma untouched_app a b : untouched a -> untouched b -> untouched (a ++ b).
Proof. unfold untouched. intros A B. now rewrite db_trace_app, A, B. Qed.

Lemma tables_answered w names tables : Forall2 (fun n t => forall h, untouched h -> w_dump_table w h n = Some t) names tables ->
  forall h, untouched h -> snd (dump_tables w h names) = Some tables /\ untouched (fst (dump_tables w h names)).
Proof.
  induction 1 as [|n t names tables A F IH]; intros h U; simpl; [now split|].
  rewrite (A h U). assert (V : untouched (h ++ [QDumpTable n])) by (apply untouched_app; [exact U|reflexivity]).
  destruct (IH _ V) as (B & C). destruct (dump_tables w (h ++ [QDumpTable n]) names) as [t' o]. simpl in *. subst o. now split.
Qed.

Lemma answered w file desired current : answers w file desired current ->
  snd (dump_ddls w []) = Some current /\ w_read_file w (fst (dump_ddls w [])) file = Some desired.
Proof.
  intros (names & tables & views & triggers & A & F & E). unfold dump_ddls.
  destruct (A [] eq_refl) as (-> & _).
  destruct (tables_answered w names tables F ([] ++ [QTableNames]) eq_refl) as (B & C).
  destruct (dump_tables w ([] ++ [QTableNames]) names) as [t o]. simpl in B, C. subst o. simpl.
  destruct (A (QTableNames :: t)) as (_ & -> & _); [exact C|].
  destruct (A (QTableNames :: t ++ [QViews])) as (_ & _ & -> & _); [apply (untouched_app t [QViews]); [exact C|reflexivity]|].
  simpl. rewrite E. split; [reflexivity|]. apply A. apply (untouched_app (t ++ [QViews]) [QTriggers]); [apply (untouched_app t [QViews]); [exact C|reflexivity]|reflexivity].
Qed.

Lemma planned_answered w file desired current m parse1 : answers w file desired current ->
  planned w parse1 m (just_apply file) = generate_idempotent_ddls (parse_ddls parse1) m desired current.
Proof. intros A. destruct (answered _ _ _ _ A) as (B & C). unfold planned. rewrite B. simpl. now rewrite C. Qed.

Section Server.
Context {S : Type} (step : string -> S -> option S).

Fixpoint steps (l : list string) (s : S) : option S :=
  match l with [] => Some s | t :: r => match step t s with Some s' => steps r s' | None => None end end.

Lemma state_app s a b : state_after step s (a ++ b) = state_after step (state_after step s a) b.
Proof. apply fold_left_app. Qed.

Lemma state_db t : forall s, state_after step s t = state_after step s (db_trace t).
Proof.
  induction t as [|e t IH]; intros s; [reflexivity|]. unfold state_after in *. simpl. rewrite IH.
  now destruct e.
Qed.

Lemma loop_runs w s0 : serves step w s0 -> forall l h s', steps l (state_after step s0 h) = Some s' ->
  let '(t, ok) := apply_loop w h false l in
  ok = true /\ db_trace t = map (fun t => Exec t true) l ++ [Commit true] /\ exit_codes t = [] /\ state_after step s0 (h ++ t) = s'.
Proof.
  intros (_ & C & X). induction l as [|d l IH]; intros h s' E; simpl in *.
  - rewrite C. injection E as E. repeat split. rewrite state_app. exact E.
  - destruct (step d (state_after step s0 h)) as [s1|] eqn:D; [|discriminate].
    assert (Y : w_exec w (h ++ [shown false d]) d = true).
    { apply X. exists s1. rewrite state_app. exact D. }
    rewrite Y.
    assert (Z : state_after step s0 ((h ++ [shown false d]) ++ [Exec d true]) = s1).
    { rewrite !state_app. unfold state_after at 1 2. simpl. now rewrite D. }
    specialize (IH ((h ++ [shown false d]) ++ [Exec d true]) s'). rewrite Z in IH. specialize (IH E).
    destruct (apply_loop w ((h ++ [shown false d]) ++ [Exec d true]) false l) as [t ok].
    destruct IH as (-> & T & N & F). split; [reflexivity|]. split; [|split].
    + unfold shown. simpl. unfold db_trace in *. simpl. now rewrite T.
    + unfold shown. simpl. exact N.
    + rewrite <- F, <- !app_assoc. reflexivity.
Qed.

Lemma run_applies w s0 parse1 m file desired current texts s' :
  answers w file desired current -> serves step w s0 ->
  generate_idempotent_ddls (parse_ddls parse1) m desired current = Ok texts -> steps texts s0 = Some s' ->
  applied step (run w parse1 m (just_apply file)) s0 s' /\ sent (run w parse1 m (just_apply file)) = texts.
Proof.
  intros A V G E. pose proof (planned_answered w file desired current m parse1 A) as P. rewrite G in P.
  destruct texts as [|d ddls].
  - injection E as <-. destruct (run_nothing w parse1 m (just_apply file)) as (D & N & _); [rewrite P; discriminate|reflexivity|].
    destruct (N P) as (_ & X). unfold applied. rewrite state_db, sent_db, D. repeat split; [exact X|now left].
  - rewrite (run_apply w parse1 m (just_apply file) d ddls eq_refl eq_refl P). cbv zeta.
    pose proof (dump_ddls_silent w []) as Q. destruct (dump_ddls w []) as [t dump]. simpl fst in *. simpl opt_file. simpl opt_skip_drop.
    assert (Hf := silent_filter t Q). assert (Hx := silent_exits t Q).
    set (t1 := t ++ [ReadFile file]). assert (U : db_trace t1 = []) by (unfold t1; now rewrite db_trace_app, Hf).
    assert (W : exit_codes t1 = []) by (unfold t1; now rewrite exits_app, Hx).
    clearbody t1. unfold run_ddls. rewrite (proj1 V t1).
    set (pre := [Begin true; Out ("-- Apply --" ++ nl)%string]).
    pose proof (loop_runs w s0 V (d :: ddls) (t1 ++ pre) s') as L.
    assert (Z : state_after step s0 (t1 ++ pre) = s0) by (rewrite state_db, db_trace_app, U; reflexivity).
    rewrite Z in L. specialize (L E).
    destruct (apply_loop w (t1 ++ pre) false (d :: ddls)) as [t2 ok]. destruct L as (-> & T & N & F). 
    change (applied step (t1 ++ (pre ++ t2) ++ [Exit 0]) s0 s' /\ sent (t1 ++ (pre ++ t2) ++ [Exit 0]) = d :: ddls).
    assert (DB : db_trace (t1 ++ (pre ++ t2) ++ [Exit 0]) = Begin true :: map (fun t => Exec t true) (d :: ddls) ++ [Commit true]).
    { rewrite !db_trace_app, U, T. unfold pre. simpl. now rewrite app_nil_r. }
    split.
    + split; [|split].
      * rewrite !exits_app, W, N. reflexivity.
      * rewrite state_db, DB. rewrite state_db, db_trace_app, db_trace_app, U, T in F. exact F.
      * right. now exists (d :: ddls).
    + rewrite sent_db, DB. unfold sent. simpl. f_equal. clear. induction ddls as [|x r IH]; simpl; [reflexivity|]. now rewrite IH.
Qed.

Lemma run_refuses w parse1 m file desired current :
  answers w file desired current -> (forall texts, generate_idempotent_ddls (parse_ddls parse1) m desired current <> Ok texts) ->
  refused (run w parse1 m (just_apply file)).
Proof.
  intros A G. pose proof (planned_answered w file desired current m parse1 A) as P.
  destruct (run_nothing w parse1 m (just_apply file)) as (D & _ & N & _); [intros d l; rewrite P; apply G|reflexivity|].
  destruct N as (O & X); [rewrite P; apply G|]. now split.
Qed.

Lemma run_idle w parse1 m file desired current :
  answers w file desired current -> generate_idempotent_ddls (parse_ddls parse1) m desired current = Ok [] ->
  idle (run w parse1 m (just_apply file)).
Proof.
  intros A G. pose proof (planned_answered w file desired current m parse1 A) as P. rewrite G in P.
  destruct (run_nothing w parse1 m (just_apply file)) as (D & N & _); [rewrite P; discriminate|reflexivity|].
  destruct (N P) as (O & X). now split.
Qed.

(** What the run does, decided by what the plan is. *)
Lemma run_decided w s0 parse1 m file desired current (Q : S -> Prop) :
  answers w file desired current -> serves step w s0 ->
  (forall texts, generate_idempotent_ddls (parse_ddls parse1) m desired current = Ok texts -> exists s, steps texts s0 = Some s /\ Q s) ->
  (exists s, applied step (run w parse1 m (just_apply file)) s0 s /\ Q s) \/ refused (run w parse1 m (just_apply file)).
Proof.
  intros A V G. destruct (generate_idempotent_ddls (parse_ddls parse1) m desired current) as [texts| | |] eqn:E;
    try (right; apply (run_refuses w parse1 m file desired current A); rewrite E; discriminate).
  left. destruct (G texts eq_refl) as (s & T & H). exists s. split; [|exact H].
  exact (proj1 (run_applies w s0 parse1 m file desired current texts s A V E T)).
Qed.

Lemma steps_rel (eff : stmt -> S -> S -> Prop) (all : list stmt -> S -> S -> Prop)
  (Cons : forall s out a b c, eff s a b -> all out b c -> all (s :: out) a c) (Nil : forall a, all [] a a)
  (Inv : forall s out a c, all (s :: out) a c -> exists b, eff s a b /\ all out b c) out :
  allows step eff out ->
  forall s0, (forall pre st post m1, out = pre ++ st :: post -> all pre s0 m1 -> exists m2, eff st m1 m2) ->
  exists s', steps (map s_text out) s0 = Some s' /\ all out s0 s'.
Proof.
  induction out as [|st out IH]; intros W s0 H; [exists s0; now split|].
  destruct (H [] st out s0 eq_refl (Nil _)) as (m2 & M).
  destruct (W st (or_introl eq_refl) s0) as (W1 & W2). destruct (W2 (ex_intro _ m2 M)) as (s1 & E).
  destruct (IH (fun x I => W x (or_intror I)) s1) as (s' & T & R).
  { intros pre x post m1 -> P. apply (H (st :: pre) x post m1 eq_refl). exact (Cons _ _ _ _ _ (W1 _ E) P). }
  exists s'. simpl. rewrite E. split; [exact T|]. exact (Cons _ _ _ _ _ (W1 _ E) R).
Qed.
End Server.
