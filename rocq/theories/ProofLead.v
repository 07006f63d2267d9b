(** Runs of the token-driven parser, composed. *)
From Coq Require Import String Ascii List ZArith Bool Lia.
From Verif Require Import GoStr Ast Generator Lexer SqlAst SchemaParse ParserTables ParserValues ParserActions Parser SpecLayout ProofRun.
Import ListNotations.
Local Open Scope Z_scope.
Local Open Scope list_scope.

(** ** Composition

    From [s] the parser gets to [s'], or to a parser that behaves as [s'] does. *)
Definition leads (s s' : tparser) : Prop := exists n, forall m, tsteps (n + S m) s = tsteps (S m) s'.

Lemma leads_refl s : leads s s.
Proof. exists O. reflexivity. Qed.
Lemma leads_trans a b c : leads a b -> leads b c -> leads a c.
Proof.
  intros [n H] [k G]. exists (n + k)%nat. intros m. replace (n + k + S m)%nat with (n + S (k + m))%nat by lia.
  rewrite H. replace (S (k + m))%nat with (k + S m)%nat by lia. apply G.
Qed.
Lemma leads_steps n s s' : tsteps n s = TNext s' -> leads s s'.
Proof. intros H. exists n. intros m. now rewrite tsteps_add, H. Qed.
(** Reading a word ahead changes nothing in a state that needs one. *)
Definition asks (q : Z) : bool := match at_index yy_pact q with Some n => negb (n <=? yy_flag) | None => false end.
Lemma leads_look q v st t r z tr : asks q = true ->
  leads (mkT ((q, v) :: st) None (t :: r) z tr) (mkT ((q, v) :: st) (Some t) r z tr).
Proof.
  intros H. exists O. intros m. cbn [plus tsteps].
  assert (E : tstep (mkT ((q, v) :: st) None (t :: r) z tr) = tstep (mkT ((q, v) :: st) (Some t) r z tr)).
  { unfold tstep. cbn [t_stack]. unfold asks in H. destruct (at_index yy_pact q) as [n|]; [|discriminate].
    destruct (n <=? yy_flag); [discriminate|]. unfold t_with_look. cbn [t_look t_rest]. now destruct t. }
  now rewrite E.
Qed.
Lemma leads_unlook q v st t r z tr : asks q = true ->
  leads (mkT ((q, v) :: st) (Some t) r z tr) (mkT ((q, v) :: st) None (t :: r) z tr).
Proof.
  intros H. exists O. intros m. cbn [plus tsteps].
  assert (E : tstep (mkT ((q, v) :: st) None (t :: r) z tr) = tstep (mkT ((q, v) :: st) (Some t) r z tr)).
  { unfold tstep. cbn [t_stack]. unfold asks in H. destruct (at_index yy_pact q) as [n|]; [|discriminate].
    destruct (n <=? yy_flag); [discriminate|]. unfold t_with_look. cbn [t_look t_rest]. now destruct t. }
  now rewrite E.
Qed.

Lemma leads_accept m sql w s st : says m sql w -> leads (tstart w) s -> tstep s = TAccept (Some st) ->
  parse_strict_ddl m sql = Ok st.
Proof.
  intros H [n L] A. specialize (L O). cbn [tsteps] in L. rewrite A in L.
  rewrite (text_result m sql w (n + 1) H); rewrite L; [reflexivity|intros; discriminate].
Qed.

(** ** Running a segment: up to the shift of the word after the next [c] words *)
Definition shifts (s : tparser) : bool :=
  match t_stack s with
  | [] => false
  | (state, _) :: _ =>
      match at_index yy_pact state with
      | None => false
      | Some n =>
          if n <=? yy_flag then false
          else
            let token := match t_look s with
                         | Some (k, _) => token_code k
                         | None => match t_rest s with [] => token_code KEnd | (k, _) :: _ => token_code k end
                         end in
            let i := n + token in
            if (i <? 0) || (yy_last <=? i) then false
            else match at_index yy_act i with
                 | Some a => match at_index yy_chk a with Some c => c =? token | None => false end
                 | None => false
                 end
      end
  end.
(** The next word read ahead. *)
Definition peek (s : tparser) : tparser :=
  match t_look s, t_rest s with
  | None, t :: r => mkT (t_stack s) (Some t) r (t_nesting s) (t_tree s)
  | _, _ => s
  end.
Fixpoint advance (fuel c : nat) (s : tparser) : option tparser :=
  match fuel with
  | O => None
  | S f =>
      if shifts s then
        match c with
        | O => Some (peek s)
        | S d => match tstep s with TNext s' => advance f d s' | _ => None end
        end
      else match tstep s with TNext s' => advance f c s' | _ => None end
  end.

Lemma shifts_asks s : shifts s = true -> exists q v st, t_stack s = (q, v) :: st /\ asks q = true.
Proof.
  unfold shifts, asks. destruct (t_stack s) as [|[q v] st]; [discriminate|]. intros H. exists q, v, st. split; [reflexivity|].
  destruct (at_index yy_pact q) as [n|]; [|discriminate]. now destruct (n <=? yy_flag).
Qed.
Lemma peek_leads s : shifts s = true -> leads s (peek s).
Proof.
  intros H. destruct (shifts_asks s H) as (q & v & st & E & A). unfold peek. destruct s as [stk look rest z tr]. cbn in *.
  destruct look; [apply leads_refl|]. destruct rest; [apply leads_refl|]. subst stk. now apply leads_look.
Qed.
Lemma step_leads s s' : tstep s = TNext s' -> leads s s'.
Proof. intros H. apply (leads_steps 1). cbn [tsteps]. now rewrite H. Qed.
Lemma advance_leads fuel : forall c s s', advance fuel c s = Some s' -> leads s s'.
Proof.
  induction fuel as [|f IH]; intros c s s' H; [discriminate|]. cbn [advance] in H. destruct (shifts s) eqn:Sh.
  - destruct c as [|d]; [injection H as <-; now apply peek_leads|]. destruct (tstep s) as [s1| | | |] eqn:E; try discriminate.
    eapply leads_trans; [apply step_leads, E|]. eapply IH, H.
  - destruct (tstep s) as [s1| | | |] eqn:E; try discriminate. eapply leads_trans; [apply step_leads, E|]. eapply IH, H.
Qed.

(** ** Parentheses: productions 993 and 994 count them *)
Lemma open_leads q q' x v st r z tr : goto q 207 = Some q' -> z + 1 <> 200 ->
  leads (mkT ((50, x) :: (q, v) :: st) None r z tr) (mkT ((q', YNone) :: (q, v) :: st) None r (z + 1) tr).
Proof.
  intros G Z. apply step_leads. unfold tstep. cbn [t_stack].
  replace (at_index yy_pact 50) with (Some (-1000)) by (vm_compute; reflexivity).
  change (-1000 <=? yy_flag) with true. cbv iota. unfold t_default.
  replace (at_index yy_def 50) with (Some 993) by (vm_compute; reflexivity).
  change (993 =? -2) with false. change (993 =? 0) with false. cbv iota. unfold t_reduce.
  replace (at_index yy_r2 993) with (Some 1) by (vm_compute; reflexivity).
  replace (at_index yy_r1 993) with (Some 207) by (vm_compute; reflexivity).
  change (Z.to_nat 1) with 1%nat. cbn [t_stack skipn firstn map rev app]. rewrite G. unfold t_act_on.
  change (993 =? 1) with false. change (993 =? 993) with true. cbn [t_nesting].
  apply Z.eqb_neq in Z. rewrite Z. replace (act 993 [snd (50, x)]) with (Value YNone) by reflexivity. reflexivity.
Qed.
Lemma close_leads q q' x v st r z tr : goto q 208 = Some q' ->
  leads (mkT ((510, x) :: (q, v) :: st) None r z tr) (mkT ((q', YNone) :: (q, v) :: st) None r (z - 1) tr).
Proof.
  intros G. apply step_leads. unfold tstep. cbn [t_stack].
  replace (at_index yy_pact 510) with (Some (-1000)) by (vm_compute; reflexivity).
  change (-1000 <=? yy_flag) with true. cbv iota. unfold t_default.
  replace (at_index yy_def 510) with (Some 994) by (vm_compute; reflexivity).
  change (994 =? -2) with false. change (994 =? 0) with false. cbv iota. unfold t_reduce.
  replace (at_index yy_r2 994) with (Some 1) by (vm_compute; reflexivity).
  replace (at_index yy_r1 994) with (Some 208) by (vm_compute; reflexivity).
  change (Z.to_nat 1) with 1%nat. cbn [t_stack skipn firstn map rev app]. rewrite G. unfold t_act_on.
  change (994 =? 1) with false. change (994 =? 993) with false. change (994 =? 994) with true. cbn [t_nesting].
  replace (act 994 [snd (510, x)]) with (Value YNone) by reflexivity. reflexivity.
Qed.

(** ** Running a segment up to a state *)
Fixpoint reach (fuel : nat) (q : Z) (s : tparser) : option tparser :=
  match fuel with
  | O => None
  | S f =>
      match tstep s with
      | TNext s' =>
          match t_stack s' with
          | (q', _) :: _ => if q' =? q then if asks q then Some (peek s') else Some s' else reach f q s'
          | [] => None
          end
      | _ => None
      end
  end.
Lemma peek_asks q v st look r z tr : asks q = true -> leads (mkT ((q, v) :: st) look r z tr) (peek (mkT ((q, v) :: st) look r z tr)).
Proof. intros A. unfold peek. cbn. destruct look; [apply leads_refl|]. destruct r; [apply leads_refl|]. now apply leads_look. Qed.
Lemma reach_leads fuel : forall q s s', reach fuel q s = Some s' -> leads s s'.
Proof.
  induction fuel as [|f IH]; intros q s s' H; [discriminate|]. cbn [reach] in H. destruct (tstep s) as [s1| | | |] eqn:E; try discriminate.
  eapply leads_trans; [apply step_leads, E|]. destruct s1 as [stk look r z tr]. cbn [t_stack] in H. destruct stk as [|[q' v] st]; [discriminate|].
  destruct (Z.eqb_spec q' q) as [->|N]; [|eapply IH, H]. destruct (asks q) eqn:A; injection H as <-; [|apply leads_refl]. now apply peek_asks.
Qed.

(** ** The same with nothing read ahead *)
Definition unpeek (s : tparser) : tparser :=
  match t_look s with
  | Some t => mkT (t_stack s) None (t :: t_rest s) (t_nesting s) (t_tree s)
  | None => s
  end.
Fixpoint until (fuel : nat) (q : Z) (s : tparser) : option tparser :=
  match fuel with
  | O => None
  | S f =>
      match tstep s with
      | TNext s' =>
          match t_stack s' with
          | (q', _) :: _ => if q' =? q then if asks q then Some (unpeek s') else Some s' else until f q s'
          | [] => None
          end
      | _ => None
      end
  end.
Lemma until_leads fuel : forall q s s', until fuel q s = Some s' -> leads s s'.
Proof.
  induction fuel as [|f IH]; intros q s s' H; [discriminate|]. cbn [until] in H. destruct (tstep s) as [s1| | | |] eqn:E; try discriminate.
  eapply leads_trans; [apply step_leads, E|]. destruct s1 as [stk look r z tr]. cbn [t_stack] in H. destruct stk as [|[q' v] st]; [discriminate|].
  destruct (Z.eqb_spec q' q) as [->|N]; [|eapply IH, H]. destruct (asks q) eqn:A; injection H as <-; [|apply leads_refl].
  unfold unpeek. cbn. destruct look; [now apply leads_unlook|apply leads_refl].
Qed.
