(** From the parser's run to what [parseDDL] gives. *)
From Coq Require Import String Ascii List ZArith Bool Lia.
From Verif Require Import GoStr Ast Generator Keywords Lexer SqlAst SchemaParse ParserTables ParserValues ParserActions Parser
  SpecGrammar ParserCert ProofGrammar ProofActions ProofTokens ProofParser.
Import ListNotations.
Local Open Scope Z_scope.
Local Open Scope list_scope.

(** ** Statements whose end is skipped are refused *)
Definition refused (st : statement) : Prop :=
  match st with SOther => True | SDdl d => In (dd_action d) ["alter"; "drop"]%string end.
Lemma refused_err m text st : refused st -> exists e, parse_statement m text st = Err e.
Proof.
  destruct st as [d|]; cbn [refused parse_statement]; [|eauto].
  intros [H|[H|[]]]; rewrite <- H; cbn; eauto.
Qed.

Definition skippers : list string := ["force_eof"; "ddl_force_eof"]%string.
Definition tainted : list string :=
  ["create_statement"; "alter_statement"; "drop_statement"; "show_statement"; "other_statement"; "command"; "any_command"]%string.
Definition named (l : list string) (x : symbol) : bool :=
  match x with Nonterminal name => existsb (String.eqb name) l | Terminal _ => false end.

(** Productions with a symbol that may hide the end. *)
Definition hiding : list Z :=
  [66; 67; 335; 339; 340; 344; 345; 374; 375; 381; 382; 383; 384; 385; 386; 387; 388; 389; 390; 391; 392; 393; 394; 396; 403;
   425; 426; 427; 428; 429].
Definition passing : list Z := [10; 11; 13; 16; 21].
Definition concealing (x : symbol) (v : yval) : Prop :=
  named skippers x = true \/ (named ("$accept" :: tainted)%string x = true /\ exists st, as_stmt v = Some st /\ refused st).

Fixpoint memberb (i : Z) (l : list Z) : bool := match l with [] => false | x :: l' => (i =? x) || memberb i l' end.
Lemma memberb_in i l : memberb i l = true -> In i l.
Proof.
  induction l as [|x l IH]; cbn; [discriminate|]. intros H. apply orb_true_iff in H. destruct H as [H|H]; [|auto].
  apply Z.eqb_eq in H. auto.
Qed.
Definition hides (x : Z * (string * list symbol)) : bool :=
  let '(i, (name, xs)) := x in
  (negb (existsb (named skippers) xs) || memberb i hiding) &&
  (negb (existsb (named ("$accept" :: tainted)%string) xs) || memberb i (0 :: 1 :: passing)).
Lemma hides_checked : forallb hides (numbered 0 productions) = true.
Proof. vm_compute. reflexivity. Qed.
Lemma production_in i p : production i = Some p -> In (i, p) (numbered 0 productions).
Proof.
  unfold production. destruct (i <? 0) eqn:E; [discriminate|]. apply Z.ltb_ge in E. intros H.
  replace i with (0 + Z.of_nat (Z.to_nat i)) by lia. now apply numbered_nth.
Qed.

Ltac open_get H :=
  repeat match type of H with
  | context [match ?x with _ => _ end] => destruct x; try discriminate H
  end.
Ltac hiding_case P A :=
  let Px := fresh "Px" in
  right; match type of P with ?a = _ => assert (Px : a = a) by reflexivity; rewrite P in Px at 1; cbv in Px; injection Px as -> ->; clear P end;
  cbv beta iota zeta delta [act statements definitions column_options column_types keys_and_options other_statements
    Z.leb Z.compare Pos.compare Pos.compare_cont Z.to_pos get] in A;
  open_get A; injection A as <-; split; [reflexivity|]; eexists; split; [reflexivity|]; cbn; auto.

Lemma hiding_refused i name xs args v : In i hiding -> production i = Some (name, xs) -> act i args = Value v ->
  concealing (Nonterminal name) v.
Proof.
  intros H P A. unfold hiding in H. cbn [In] in H.
  repeat (destruct H as [<-|H]; [hiding_case P A|]). destruct H.
Qed.

Lemma passing_refused i name xs args v j x w : In i (0 :: 1 :: passing) -> production i = Some (name, xs) -> act i args = Value v ->
  nth_error xs j = Some x -> nth_error args j = Some w -> named ("$accept" :: tainted)%string x = true ->
  (exists st, as_stmt w = Some st /\ refused st) -> concealing (Nonterminal name) v.
Proof.
  intros H P A X W N (st & S & R). cbn [In passing] in H.
  assert (J : j = 0%nat).
  { repeat (destruct H as [<-|H]; [
      match type of P with ?a = _ => assert (Px : a = a) by reflexivity; rewrite P in Px at 1; cbv in Px; injection Px as -> ->; clear P end;
      destruct j as [|[|[|j]]]; cbn in X; try discriminate X; [reflexivity|injection X as <-; discriminate N]|]).
    all: try (destruct H as [<-|H]; [
      match type of P with ?a = _ => assert (Px : a = a) by reflexivity; rewrite P in Px at 1; cbv in Px; injection Px as -> ->; clear P end;
      destruct j as [|[|j]]; cbn in X; try discriminate X; reflexivity|]).
    all: repeat (destruct H as [<-|H]; [
      match type of P with ?a = _ => assert (Px : a = a) by reflexivity; rewrite P in Px at 1; cbv in Px; injection Px as -> ->; clear P end;
      destruct j as [|[|j]]; cbn in X; try discriminate X; reflexivity|]).
    all: destruct H. }
  subst j. destruct args as [|a args]; [discriminate|]. injection W as ->.
  right.
  repeat (destruct H as [<-|H]; [
    match type of P with ?a = _ => assert (Px : a = a) by reflexivity; rewrite P in Px at 1; cbv in Px; injection Px as -> ->; clear P end;
    cbv beta iota zeta delta [act statements Z.leb Z.compare Pos.compare Pos.compare_cont Z.to_pos get nth_error first_value] in A;
    (split; [reflexivity|]); [try rewrite S in A; injection A as <-; exists st; cbn [as_stmt]; auto]|]).
  destruct H.
Qed.

Lemma conceals x l ps v : derives x l ps v -> skipping ps -> concealing x v.
Proof.
  intros D. induction D using derives_mut with
    (P0 := fun xs l ps vs _ => skipping ps -> exists j x v, nth_error xs j = Some x /\ nth_error vs j = Some v /\ concealing x v).
  - intros (i & [] & _).
  - intros (j & I & S). apply in_app_or in I. destruct I as [I|[<-|[]]].
    + destruct IHD as (k & x & w & X & W & C); [now exists j|].
      pose proof hides_checked as H. rewrite forallb_forall in H. specialize (H _ (production_in _ _ e)). cbn [hides] in H.
      apply andb_true_iff in H. destruct H as [H1 H2]. destruct C as [C|[C1 C2]].
      * rewrite (proj2 (existsb_exists _ _)) in H1 by (exists x; split; [eapply nth_error_In, X|exact C]).
        cbn [negb orb] in H1. eapply hiding_refused; [apply memberb_in, H1|exact e|exact e0].
      * rewrite (proj2 (existsb_exists _ _)) in H2 by (exists x; split; [eapply nth_error_In, X|exact C1]).
        cbn [negb orb] in H2. eapply passing_refused; [apply memberb_in, H2|exact e|exact e0|exact X|exact W|exact C1|exact C2].
    + left. unfold skips in S.
      assert (J : i = 995 \/ i = 996 \/ i = 997 \/ i = 998) by lia.
      destruct J as [J|[J|[J|J]]]; subst i; cbv in e; injection e as <- _; reflexivity.
  - intros (i & [] & _).
  - intros (j & I & S). apply in_app_or in I. destruct I as [I|I].
    + exists 0%nat, x, v. split; [reflexivity|]. split; [reflexivity|]. apply IHD. now exists j.
    + destruct IHD0 as (k & y & w & H); [now exists j|]. exists (Datatypes.S k), y, w. exact H.
Qed.

(** ** Results *)
Lemma any_command_type : type_of (Nonterminal "any_command") = TStmt.
Proof. vm_compute. reflexivity. Qed.

Lemma strict_ddl_cases m sql :
  match parse_strict_ddl m sql with
  | Ok st => exists l ps, derives (Nonterminal "any_command") l ps (YStmt st) /\ whole (tokens m sql) l ps
  | Err e => e = EParse "found syntax error when parsing DDL"
  | Panic => crashed (tokens m sql)
  | Fatal => False
  end.
Proof.
  unfold parse_strict_ddl. pose proof (parse_ends m sql) as H. destruct (yy_parse m sql) as [|[st|]| | |]; auto.
  - destruct H as (l & ps & v & D & T & [x X] & W). subst v. injection T as ->. eauto.
  - destruct H as (l & ps & v & D & T & [x X] & W). subst v. discriminate.
Qed.

Lemma parsed_ddl m sql d : parse_ddl parse_strict_ddl m sql = Ok d -> exists l l' ps st,
  tokens m sql = Tokens l /\ filter (fun x => negb (is_comment (fst x))) l' = l /\
  derives (Nonterminal "any_command") l' ps (YStmt st) /\ parse_statement m sql st = Ok d.
Proof.
  unfold parse_ddl. pose proof (strict_ddl_cases m sql) as H. destruct (parse_strict_ddl m sql) as [st| | |]; cbn [bind]; try discriminate.
  destruct H as (l & ps & D & W). intros E. destruct W as [W|[S _]].
  - exists (words_of l), l, ps, st. auto.
  - destruct (conceals _ _ _ _ D S) as [C|[_ (st' & A & R)]]; [discriminate|]. injection A as <-.
    destruct (refused_err m sql st R) as [e X]. congruence.
Qed.

Lemma rounds_more n p : (forall p', rounds n p <> Next p') -> rounds (S n) p = rounds n p.
Proof. intros H. cbn [rounds]. destruct (rounds n p) as [p'| | | |] eqn:E; auto. now destruct (H p'). Qed.
Lemma rounds_enough m sql n : (String.length sql + 20 <= n)%nat -> rounds n (new_parser m sql) = yy_parse m sql.
Proof.
  intros L. assert (E : exists k, (n = k + (String.length sql + 20))%nat) by (exists (n - (String.length sql + 20))%nat; lia).
  destruct E as [k ->]. clear L. induction k as [|k IH]; [reflexivity|].
  change (S k + (String.length sql + 20))%nat with (S (k + (String.length sql + 20))). rewrite rounds_more; [exact IH|].
  rewrite IH. intros p' E. pose proof (parse_ends m sql) as H. now rewrite E in H.
Qed.

Lemma parser_halts m sql : exists r, (forall p, r <> Next p) /\ r <> Stuck /\
  forall n, (String.length sql + 20 <= n)%nat -> rounds n (new_parser m sql) = r.
Proof.
  exists (yy_parse m sql). pose proof (parse_ends m sql) as H.
  split; [intros p E; now rewrite E in H|]. split; [intros E; now rewrite E in H|]. intros n L. now apply rounds_enough.
Qed.
Lemma parser_crashes m sql : parse_strict_ddl m sql = Panic ->
  tokens m sql = StreamPanic \/
  exists l1 l l2 v1 v2 v3 ps ty, derives (Nonterminal "column_definition_type") l ps (YType ty) /\ ct_identity ty = None /\
    tokens m sql = Tokens (l1 ++ words_of l ++ [(KTok "NOT", v1); (KTok "FOR", v2); (KTok "REPLICATION", v3)] ++ l2).
Proof.
  intros E. pose proof (strict_ddl_cases m sql) as H. rewrite E in H.
  destruct H as [H|(l1 & l & l2 & v1 & v2 & v3 & ps & ty & r & D & I & H)]; [now left|].
  destruct r as [r| |]; [right|now left|].
  - exists (words_of l1), l, (words_of l2 ++ r), v1, v2, v3, ps, ty. split; [exact D|]. split; [exact I|]. rewrite H. cbn [before].
    f_equal. rewrite !words_app, <- !app_assoc. reflexivity.
  - exfalso. revert H. apply tokens_total.
Qed.
