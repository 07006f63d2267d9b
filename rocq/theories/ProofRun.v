(** The parser as a function of the tokens: [trun].  It stands for the parser on every text
    with these tokens. *)
From Coq Require Import String Ascii List ZArith Bool Lia.
From Verif Require Import GoStr Ast Generator Keywords Lexer SpecLexer SpecLayout SqlAst SchemaParse GoStrFacts ParserTables ParserValues ParserActions Parser
  SpecGrammar ParserCert ProofGrammar ProofActions ProofLexer ProofScan ProofTokens ProofParser ProofParse.
Import ListNotations.
Local Open Scope Z_scope.
Local Open Scope list_scope.

Record tparser := mkT {
  t_stack : list (Z * yval);
  t_look : option (kind * string);
  t_rest : list (kind * string);
  t_nesting : Z;
  t_tree : option statement }.

Inductive tstepped := TNext (s : tparser) | TAccept (tree : option statement) | TReject | TCrash | TStuck.

Definition t_with_look (s : tparser) (k : Z -> string -> tparser -> tstepped) : tstepped :=
  match t_look s with
  | Some (kd, v) => k (token_code kd) v s
  | None =>
      match t_rest s with
      | [] => k (token_code KEnd) EmptyString (mkT (t_stack s) (Some (KEnd, EmptyString)) [] (t_nesting s) (t_tree s))
      | (kd, v) :: r => k (token_code kd) v (mkT (t_stack s) (Some (kd, v)) r (t_nesting s) (t_tree s))
      end
  end.

Definition t_act_on (n : Z) (args : list yval) (s : tparser) : option tparser :=
  let set r z t := mkT (t_stack s) (t_look s) r z t in
  if n =? 1 then Some (set (t_rest s) (t_nesting s) match args with v :: _ => as_stmt v | [] => None end)
  else if n =? 993 then
    if t_nesting s + 1 =? 200 then None else Some (set (t_rest s) (t_nesting s + 1) (t_tree s))
  else if n =? 994 then Some (set (t_rest s) (t_nesting s - 1) (t_tree s))
  else if (995 <=? n) && (n <=? 998) then Some (set [] (t_nesting s) (t_tree s))
  else Some s.

Definition t_reduce (n : Z) (s : tparser) : tstepped :=
  match at_index yy_r2 n, at_index yy_r1 n with
  | Some len, Some nt =>
      let k := Z.to_nat len in
      let args := rev (map snd (firstn k (t_stack s))) in
      match skipn k (t_stack s) with
      | [] => TStuck
      | (state, v0) :: below =>
          match goto state nt with
          | None => TStuck
          | Some st =>
              match t_act_on n args s with
              | None => TReject
              | Some s' =>
                  match act n args with
                  | Value v => TNext (mkT ((st, v) :: (state, v0) :: below) (t_look s') (t_rest s') (t_nesting s') (t_tree s'))
                  | ReturnOne => TReject
                  | NilDereference => TCrash
                  | IllTyped => TStuck
                  end
              end
          end
      end
  | _, _ => TStuck
  end.

Definition t_default (state : Z) (s : tparser) : tstepped :=
  match at_index yy_def state with
  | None => TStuck
  | Some n =>
      if n =? -2 then
        t_with_look s (fun token _ s' =>
          match exception state token exca_list with
          | None => TStuck
          | Some a => if a <? 0 then TAccept (t_tree s') else if a =? 0 then TReject else t_reduce a s'
          end)
      else if n =? 0 then TReject else t_reduce n s
  end.

Definition tstep (s : tparser) : tstepped :=
  match t_stack s with
  | [] => TStuck
  | (state, _) :: _ =>
      match at_index yy_pact state with
      | None => TStuck
      | Some n =>
          if n <=? yy_flag then t_default state s
          else
            t_with_look s (fun token v s' =>
              let i := n + token in
              if (i <? 0) || (yy_last <=? i) then t_default state s'
              else
                match at_index yy_act i with
                | None => TStuck
                | Some a =>
                    match at_index yy_chk a with
                    | None => TStuck
                    | Some c =>
                        if c =? token then
                          TNext (mkT ((a, YStr v) :: t_stack s') None (t_rest s') (t_nesting s') (t_tree s'))
                        else t_default state s'
                    end
                end)
      end
  end.

Fixpoint tsteps (n : nat) (s : tparser) : tstepped :=
  match n with
  | O => TNext s
  | S m => match tstep s with TNext s' => tsteps m s' | r => r end
  end.

Definition tstart (l : list (kind * string)) : tparser := mkT [(0, YNone)] None l 0 None.

(** ** The tokenizer gives these tokens *)
Definition follows (t : tokenizer) (l : list (kind * string)) : Prop :=
  tk_special t = None /\
  ((tk_force_eof t = true /\ l = []) \/
   (tk_force_eof t = false /\ tk_multi t = false /\ scans (tk_mode t) (tk_posvar t) (tk_input t) l)).

Lemma scan_follows t l : follows t l ->
  match l with
  | [] => exists t', scan_token t = Token KEnd EmptyString t' /\ follows t' []
  | (k, v) :: l' => k <> KEnd /\ k <> KChar c_nul /\ exists t', scan_token t = Token k v t' /\ follows t' l'
  end.
Proof.
  intros (Hs & H). unfold scan_token. cbn [scan]. rewrite Hs. destruct H as [[Hf ->]|(Hf & Hm & H)].
  - unfold scan_outer. rewrite Hf. eexists. split; [reflexivity|]. split; [exact Hs|]. left. now split.
  - remember (tk_input t) as i eqn:Ei. remember (tk_posvar t) as n eqn:En. destruct H as [n g Hg|n g text r k v l Hg Hl H]; subst n.
    + eexists. split; [apply (scan_outer_end _ t g); auto|]. split; [exact Hs|]. right. cbn. split; [exact Hf|]. split; [exact Hm|].
      apply sc_end. apply gap_blanks. intros c [].
    + destruct (lexeme_kind _ _ _ _ _ _ Hl) as [K1 K2]. split; [exact K1|]. split; [eapply lexeme_nul, Hl|].
      destruct (after_fields t text r) as (A1 & A2 & A3 & A4 & A5 & A6).
      exists (after t text r). split; [apply (scan_outer_lexeme _ t g); auto|]. split; [now rewrite A1|]. right.
      rewrite A2, A3, A4, A5, A6. auto.
Qed.

Lemma lex_follows allow t l : follows t l -> comment_free l \/ allow = false ->
  match without_comments l with
  | [] => exists t', lex allow t = Token KEnd EmptyString t' /\ follows t' []
  | (k, v) :: w => k <> KEnd /\ k <> KChar c_nul /\ exists t' l', lex allow t = Token k v t' /\ follows t' l' /\
      without_comments l' = w /\ (comment_free l -> comment_free l')
  end.
Proof.
  revert t. induction l as [|[k v] l IH]; intros t F C.
  - destruct (scan_follows _ _ F) as (t' & E & F'). cbn [without_comments filter]. exists t'. split; [|exact F'].
    rewrite lex_unfold, E. reflexivity.
  - destruct (scan_follows _ _ F) as (K1 & K2 & t' & E & F'). rewrite (lex_unfold allow t), E.
    unfold without_comments. cbn [filter fst]. destruct (is_comment k) eqn:Ck; cbn [negb andb].
    + destruct C as [C|C]; [specialize (C _ (or_introl eq_refl)); cbn [fst] in C; congruence|]. subst allow. cbn [negb].
      specialize (IH t' F' (or_intror eq_refl)). fold (without_comments l). destruct (without_comments l) as [|[k' v'] w]; [exact IH|].
      destruct IH as (I1 & I2 & u & l' & I3 & I4 & I5 & I6). split; [exact I1|]. split; [exact I2|]. exists u, l'.
      do 3 (split; [assumption|]). intros Cf. specialize (Cf _ (or_introl eq_refl)). cbn [fst] in Cf. congruence.
    + split; [exact K1|]. split; [exact K2|]. exists t', l. do 2 (split; [auto|]). split; [reflexivity|].
      intros Cf x Hx. apply Cf. now right.
Qed.

(** ** Where comments are allowed *)
Definition opening_states : list Z := [23; 24; 25; 26; 27; 28; 257].
Lemma openings_checked : forallb (fun s => match defaults s with
    | Some l => negb (existsb (Z.eqb 430) l) || existsb (Z.eqb s) opening_states | None => true end) states = true.
Proof. vm_compute. reflexivity. Qed.
Definition inner_states : list Z := [1446; 1518; 1575].
Lemma before_openings_checked : forallb (fun t => forallb (fun s => negb (edge t s) || (t =? 0) || existsb (Z.eqb t) inner_states)
    [24; 25; 26; 27; 28]) states = true.
Proof. vm_compute. reflexivity. Qed.

Definition has_kind (k : kind) (l : list (kind * string)) : Prop := In k (map fst l).
Definition words_kind (l : list (kind * string)) : Prop :=
  has_kind (KTok "SELECT") l \/ has_kind (KTok "TRIGGER") l \/ exists k v l', l = (k, v) :: l' /\ In k manipulation.

Lemma derive_has xs l ps vs k : derive xs l ps vs -> In (Terminal k) xs -> has_kind k l.
Proof.
  intros D. induction D as [|x xs l l' ps ps' v vs H D IH]; intros [].
  - subst x. apply derives_token_inv in H. destruct H as (s & -> & _). left. reflexivity.
  - unfold has_kind. rewrite map_app. apply in_or_app. right. now apply IH.
Qed.

Lemma opened s v rest l ps : stacked ((s, v) :: rest) l ps -> In s opening_states -> words_kind l.
Proof.
  intros St I.
  assert (T : forall t u below l1 ps1, stacked ((t, u) :: below) l1 ps1 -> In t inner_states -> has_kind (KTok "TRIGGER") l1).
  { clear. intros t u below l ps St I.
    assert (H : exists i d, 1 <= i <= 998 /\ item i (Z.of_nat d) t = true /\ In (code (Terminal (KTok "TRIGGER"))) (firstn d (rhs_of i))).
    { destruct I as [<-|[<-|[<-|[]]]]; [exists 70, 8%nat|exists 70, 9%nat|exists 69, 10%nat];
        (split; [lia|]; split; [vm_compute; reflexivity|]; vm_compute; auto 20). }
    destruct H as (i & d & Hi & It & Hc).
    destruct (popped d t u below l ps i St ltac:(lia) It) as
      (t1 & u1 & b1 & l1 & l2 & ps1 & ps2 & ys & E1 & E2 & E3 & E4 & E5 & E6 & E7 & _).
    rewrite <- E6 in Hc. apply in_map_iff in Hc. destruct Hc as (x & Cx & Hx).
    assert (x = Terminal (KTok "TRIGGER")).
    { assert ([x] = [Terminal (KTok "TRIGGER")]) as [= ->]; [|reflexivity]. apply same_symbols.
      - cbn [map]. now rewrite Cx.
      - intros y [<-|[]]. now apply E7.
      - intros y [<-|[]]. vm_compute. reflexivity. }
    subst x l. unfold has_kind. rewrite map_app. apply in_or_app. right. eapply derive_has; eassumption. }
  inversion St as [v0 E1|t u rest' s0 v0 x l1 ps1 l' ps' St' Lk D Ty E1]; subst; [cbn in I; intuition discriminate|].
  destruct Lk as (Ls & L0 & La & Le & Lf & Lg).
  assert (Q : forall y, decode (code y) = Some y -> access s = code y -> x = y).
  { intros y Dy Ay. assert ([x] = [y]) as [= ->]; [|reflexivity]. apply same_symbols.
    - cbn [map]. congruence.
    - intros z [<-|[]]. exact Lf.
    - intros z [<-|[]]. exact Dy. }
  assert (S : forall k w, derives (Terminal k) l' ps' w -> exists z, l' = [(k, z)]).
  { intros k w H. apply derives_token_inv in H. destruct H as (z & -> & _). eauto. }
  assert (F : forall k z, In k manipulation -> l' = [(k, z)] -> In s [24; 25; 26; 27; 28] -> words_kind (l1 ++ l')).
  { intros k z Hk -> Hs. pose proof before_openings_checked as B. rewrite forallb_forall in B.
    specialize (B t (states_in _ (stacked_top _ _ _ _ _ St'))). rewrite forallb_forall in B. specialize (B s Hs). rewrite Le in B. cbn [negb orb] in B.
    apply orb_true_iff in B. destruct B as [B|B].
    - apply Z.eqb_eq in B. subst t. right. right. inversion St'; subst.
      + exists k, z, []. auto.
      + exfalso. match goal with L : linked _ 0 _ |- _ => destruct L as (_ & N & _); now apply N end.
    - right. left. unfold has_kind. rewrite map_app. apply in_or_app. left. eapply T; [exact St'|].
      apply existsb_exists in B. destruct B as (y & Y & E). apply Z.eqb_eq in E. now subst. }
  cbn [opening_states In] in I.
  destruct I as [I|[I|[I|[I|[I|[I|[I|[]]]]]]]]; subst s.
  - rewrite (Q (Terminal (KTok "SELECT"))) in D by (vm_compute; reflexivity). destruct (S _ _ D) as [z ->]. left.
    unfold has_kind. rewrite map_app. apply in_or_app. right. now left.
  - rewrite (Q (Terminal (KTok "STREAM"))) in D by (vm_compute; reflexivity). destruct (S _ _ D) as [z E]. eapply F; [|exact E|]; cbn; auto 10.
  - rewrite (Q (Nonterminal "insert_or_replace")) in D by (vm_compute; reflexivity). inversion D as [|i name rhs l0 ps0 args w P Ds A]; subst.
    assert (X : exists k z, In k manipulation /\ l' = [(k, z)]).
    { assert (H : forallb (fun p => match p with (nm, xs) => negb (String.eqb nm "insert_or_replace") ||
          match xs with [Terminal k] => existsb (kind_eqb k) manipulation | _ => false end end) productions = true) by (vm_compute; reflexivity).
      rewrite forallb_forall in H. specialize (H ("insert_or_replace"%string, rhs)). apply production_in in P.
      assert (In ("insert_or_replace"%string, rhs) productions).
      { clear -P. revert P. generalize 0. induction productions as [|p l IH]; intros z; cbn [numbered]; [intros []|].
        intros [E|E]; [left; congruence|right; eapply IH, E]. }
      specialize (H H0). cbn [String.eqb Ascii.eqb Bool.eqb negb orb] in H.
      destruct rhs as [|[k|] [|]]; try discriminate. apply existsb_exists in H. destruct H as (k' & Hk & E). apply kind_eqb_eq in E. subst k'.
      apply derive_cons_inv in Ds. destruct Ds as (la & lb & pa & pb & v1 & vs & -> & -> & -> & D1 & D2).
      apply derive_nil_inv in D2. destruct D2 as (-> & -> & ->). apply derives_token_inv in D1. destruct D1 as (z & -> & _). exists k, z. now rewrite app_nil_r. }
    destruct X as (k & z & Hk & E). apply (F k z Hk E). cbn; auto 10.
  - rewrite (Q (Terminal (KTok "UPDATE"))) in D by (vm_compute; reflexivity). destruct (S _ _ D) as [z E]. eapply F; [|exact E|]; cbn; auto 10.
  - rewrite (Q (Terminal (KTok "DELETE"))) in D by (vm_compute; reflexivity). destruct (S _ _ D) as [z E]. eapply F; [|exact E|]; cbn; auto 10.
  - rewrite (Q (Terminal (KTok "SET"))) in D by (vm_compute; reflexivity). destruct (S _ _ D) as [z E]. eapply F; [|exact E|]; cbn; auto 10.
  - rewrite (Q (Terminal (KTok "SELECT"))) in D by (vm_compute; reflexivity). destruct (S _ _ D) as [z ->]. left.
    unfold has_kind. rewrite map_app. apply in_or_app. right. now left.
Qed.

(** ** The same run *)
Definition same_look (a : option (Z * string)) (b : option (kind * string)) : Prop :=
  match a, b with
  | None, None => True
  | Some (z, v), Some (k, w) => z = token_code k /\ v = w
  | _, _ => False
  end.
Definition quiet (free : bool) (l : list (kind * string)) (allow : bool) : Prop :=
  if free then comment_free l else allow = false.
Definition similar (free : bool) (p : parser) (s : tparser) : Prop :=
  ps_stack p = t_stack s /\ same_look (ps_look p) (t_look s) /\ ps_nesting p = t_nesting s /\ ps_tree p = t_tree s /\
  exists l, follows (ps_tokenizer p) l /\ without_comments l = t_rest s /\ quiet free l (ps_allow p).
Definition agree (free : bool) (r : stepped) (r' : tstepped) : Prop :=
  match r, r' with
  | Next p, TNext s => similar free p s
  | Accept t, TAccept t' => t = t'
  | Reject, TReject | Crash, TCrash | Stuck, TStuck => True
  | _, _ => False
  end.

Lemma look_agrees free p s k k' : similar free p s ->
  (forall z v p' s', similar free p' s' -> ps_stack p' = ps_stack p -> agree free (k z v p') (k' z v s')) ->
  agree free (with_look p k) (t_with_look s k').
Proof.
  intros (S1 & S2 & S3 & S4 & l & S5 & S6 & S7) K. unfold with_look, t_with_look.
  destruct (ps_look p) as [[z v]|] eqn:L; destruct (t_look s) as [[kd w]|] eqn:L'; cbn [same_look] in S2; try contradiction.
  - destruct S2 as [-> ->]. apply K; [|reflexivity]. split; [exact S1|]. rewrite L, L'. cbn. eauto 10.
  - assert (C : comment_free l \/ ps_allow p = false) by (destruct free; [now left|now right]).
    pose proof (lex_follows _ _ _ S5 C) as F. rewrite S6 in F. destruct (t_rest s) as [|[kd v] r].
    + destruct F as (t' & -> & F). apply K; [|reflexivity]. split; [exact S1|]. cbn. repeat (split; [auto|]).
      exists []. split; [exact F|]. split; [reflexivity|]. destruct free; [intros x []|exact S7].
    + destruct F as (_ & _ & t' & l' & -> & F & F1 & F2). apply K; [|reflexivity]. split; [exact S1|]. cbn. repeat (split; [auto|]).
      exists l'. split; [exact F|]. split; [exact F1|]. destruct free; [now apply F2|exact S7].
Qed.

Lemma act_on_agrees free n args p s : similar free p s -> (n = 430 -> free = true) ->
  match act_on_tokenizer n args p, t_act_on n args s with
  | Some p', Some s' => similar free p' s' /\ ps_stack p' = ps_stack p
  | None, None => True
  | _, _ => False
  end.
Proof.
  intros (S1 & S2 & S3 & S4 & l & S5 & S6 & S7) N. unfold act_on_tokenizer, t_act_on, similar.
  destruct (n =? 1); [cbn; eauto 15|].
  destruct (n =? 430) eqn:E430.
  { apply Z.eqb_eq in E430. specialize (N E430). subst n free. cbn. split; [|reflexivity]. repeat (split; [auto|]). exists l. cbn in *. auto. }
  destruct (n =? 431) eqn:E431.
  { apply Z.eqb_eq in E431. subst n. cbn. split; [|reflexivity]. repeat (split; [auto|]). exists l. destruct free; cbn in *; auto. }
  destruct (n =? 993); [rewrite <- S3; destruct (_ =? 200); [exact I|]; cbn; rewrite S3; eauto 15|].
  destruct (n =? 994); [cbn; rewrite S3; eauto 15|].
  destruct ((995 <=? n) && (n <=? 998)); [|split; [|reflexivity]; eauto 15].
  cbn. split; [|reflexivity]. repeat (split; [auto|]). exists []. split.
  - destruct S5 as [T _]. split; [exact T|]. left. auto.
  - split; [reflexivity|]. destruct free; [intros x []|exact S7].
Qed.

Lemma reduce_agrees free n p s : similar free p s -> (n = 430 -> free = true) -> agree free (reduce n p) (t_reduce n s).
Proof.
  intros S N. pose proof (act_on_agrees free n) as A. unfold reduce, t_reduce.
  destruct (at_index yy_r2 n) as [len|]; [|exact I]. destruct (at_index yy_r1 n) as [nt|]; [|exact I].
  pose proof S as (S1 & _). rewrite S1. destruct (skipn (Z.to_nat len) (t_stack s)) as [|[st v0] below]; [exact I|].
  destruct (goto st nt) as [g|]; [|exact I]. specialize (A (rev (map snd (firstn (Z.to_nat len) (t_stack s)))) p s S N).
  destruct (act_on_tokenizer _ _ p) as [p'|]; destruct (t_act_on _ _ s) as [s'|]; try contradiction; [|exact I].
  destruct A as [(A1 & A2 & A3 & A4 & A5) A6]. destruct (act n _); cbn; auto. split; [reflexivity|]. cbn. auto.
Qed.

Definition no_opening (p : parser) : Prop := forall s v rest, ps_stack p = (s, v) :: rest -> ~ In s opening_states.

Lemma default_agrees free p s st v rest : similar free p s -> ps_stack p = (st, v) :: rest -> state st ->
  (free = true \/ ~ In st opening_states) -> agree free (default_action st p) (t_default st s).
Proof.
  intros S E Hst N. unfold default_action, t_default. destruct (state_facts st Hst) as (_ & _ & l0 & D & _).
  assert (Q : forall a, In a l0 -> a = 430 -> free = true).
  { intros a Ha ->. destruct N as [N|N]; [exact N|exfalso]. apply N. pose proof openings_checked as O. rewrite forallb_forall in O.
    specialize (O st (states_in _ Hst)). rewrite D in O. apply orb_true_iff in O. destruct O as [O|O].
    - apply negb_true_iff in O. assert (X : existsb (Z.eqb 430) l0 = true) by (apply existsb_exists; exists 430; split; [exact Ha|reflexivity]). congruence.
    - apply existsb_exists in O. destruct O as (y & Y & Ey). apply Z.eqb_eq in Ey. now subst. }
  unfold defaults in D. destruct (at_index yy_def st) as [n|]; [|exact I]. destruct (n =? -2).
  - apply look_agrees; [exact S|]. intros z w p' s' S' Es'.
    destruct (exception_in st z (length exca_list) exca_list l0 (le_n _) D) as (a & Ea & Ia). rewrite Ea.
    destruct (a <? 0); [apply S'|]. destruct (a =? 0); [exact I|]. apply reduce_agrees; [exact S'|now apply Q].
  - injection D as <-. destruct (n =? 0); [exact I|]. apply reduce_agrees; [exact S|apply Q; now left].
Qed.

Lemma step_agrees free p s : similar free p s -> (forall st v rest, ps_stack p = (st, v) :: rest -> state st) ->
  (free = true \/ no_opening p) -> agree free (step p) (tstep s).
Proof.
  intros S Hst N. unfold step, tstep. pose proof S as (S1 & _). rewrite <- S1. destruct (ps_stack p) as [|[st v] rest] eqn:E; [exact I|].
  assert (N' : free = true \/ ~ In st opening_states) by (destruct N as [N|N]; [now left|right; eapply N, E]).
  specialize (Hst _ _ _ eq_refl). destruct (at_index yy_pact st) as [n|]; [|exact I].
  destruct (n <=? yy_flag); [eapply default_agrees; eassumption|].
  apply look_agrees; [exact S|]. intros z w p' s' S' Es'. rewrite E in Es'.
  destruct (_ || _); [eapply default_agrees; eassumption|].
  destruct (at_index yy_act (n + z)) as [a|]; [|exact I]. destruct (at_index yy_chk a) as [c|]; [|exact I].
  destruct (c =? z); [|eapply default_agrees; eassumption].
  destruct S' as (A1 & A2 & A3 & A4 & A5). cbn. split; [cbn; now rewrite A1|]. cbn. auto.
Qed.

(** ** Whole runs *)
Fixpoint psteps (n : nat) (p : parser) : stepped :=
  match n with
  | O => Next p
  | S m => match step p with Next p' => psteps m p' | r => r end
  end.
Lemma psteps_add a b p : psteps (a + b) p = match psteps a p with Next p' => psteps b p' | r => r end.
Proof. revert p. induction a as [|a IH]; intros p; [reflexivity|]. cbn. destruct (step p); auto. Qed.
Lemma rounds_psteps n : forall p, rounds n p = psteps (2 ^ n) p.
Proof.
  induction n as [|n IH]; intros p; [cbn; now destruct (step p)|]. cbn [rounds]. replace (2 ^ S n)%nat with (2 ^ n + 2 ^ n)%nat by (cbn [Nat.pow]; lia).
  rewrite psteps_add, IH.
  destruct (psteps (2 ^ n) p); auto.
Qed.

Definition permitted (w : list (kind * string)) (free : bool) : Prop := free = true \/ plain_definition w.

Lemma words_kind_of l : words_kind l -> words_kind (words_of l).
Proof.
  assert (H : forall k, is_comment k = false -> has_kind k l -> has_kind k (words_of l)).
  { intros k C H. unfold has_kind in *. apply in_map_iff in H. destruct H as (x & <- & H). apply in_map_iff. exists x. split; [reflexivity|].
    apply filter_In. split; [exact H|]. now rewrite C. }
  intros [K|[K|(k & v & l' & -> & K)]].
  - left. now apply H.
  - right. left. now apply H.
  - right. right. exists k, v, (words_of l'). split; [|exact K]. unfold words_of. cbn [filter fst].
    cbn in K. assert (is_comment k = false) as ->; [|reflexivity]. destruct K as [<-|[<-|[<-|[<-|[<-|[<-|[]]]]]]]; reflexivity.
Qed.
Lemma words_kind_app l l' : words_kind l -> words_kind (l ++ l').
Proof.
  intros [K|[K|(k & v & r & -> & K)]].
  - left. unfold has_kind in *. rewrite map_app. apply in_or_app. now left.
  - right. left. unfold has_kind in *. rewrite map_app. apply in_or_app. now left.
  - right. right. exists k, v, (r ++ l'). now split.
Qed.
Lemma not_plain w : words_kind w -> plain_definition w -> False.
Proof. intros [K|[K|(k & v & r & -> & K)]] (P1 & P2 & P3); [now apply P1|now apply P2|]. eapply P3; [reflexivity|exact K]. Qed.

Lemma psteps_agree free w n : permitted w free -> forall p s, steady (Tokens w) p -> similar free p s -> agree free (psteps n p) (tsteps n s).
Proof.
  intros W. induction n as [|n IH]; intros p s H S; [exact S|]. cbn [psteps tsteps].
  assert (A : agree free (step p) (tstep s)).
  { apply step_agrees; [exact S| |].
    - intros st v rest E. destruct H as (l & ps & St & _). rewrite E in St. eapply stacked_top, St.
    - destruct W as [->|W]; [now left|]. right. intros st v rest E Io. destruct H as (l & ps & St & Rd & _). rewrite E in St.
      pose proof (opened _ _ _ _ _ St Io) as K. destruct (reading_prefix _ _ _ _ Rd) as (r & l2 & Er).
      destruct r as [r| |]; try discriminate. cbn in Er. injection Er as ->. eapply not_plain; [|exact W].
      apply words_kind_app. rewrite words_app. apply words_kind_app. now apply words_kind_of. }
  pose proof (step_ok _ _ H) as O. destruct (step p) as [p'| | | |]; destruct (tstep s) as [s'| | | |]; cbn [agree] in A; try contradiction; auto.
  apply IH; [apply O|exact A].
Qed.

Lemma scans_reads m n s l : scans m n s l -> reads m n s (without_comments l).
Proof.
  induction 1 as [n g Hg|n g text r k v l Hg Hl H IH]; [now constructor|].
  unfold without_comments. cbn [filter fst]. destruct (is_comment k) eqn:C; cbn [negb].
  - apply is_comment_spec in C. subst k. eapply rd_comment; [exact Hg|exact Hl|]. now rewrite (comment_counted _ _ _ _ _ Hl) in IH.
  - apply rd_token; auto. intros ->. discriminate.
Qed.

Lemma start_similar free m sql l : scans m 0 (String c_nul sql) l -> (free = true -> comment_free l) ->
  similar free (new_parser m sql) (tstart (without_comments l)).
Proof.
  intros H F. repeat (split; [reflexivity|]). exists l. split; [|split; [reflexivity|destruct free; [now apply F|reflexivity]]].
  split; [reflexivity|]. right. auto.
Qed.

Lemma psteps_stable a b p : (forall p', psteps a p <> Next p') -> psteps (a + b) p = psteps a p.
Proof. intros H. rewrite psteps_add. destruct (psteps a p) as [p'| | | |]; auto. now destruct (H p'). Qed.

(** The result of the parser on the text is that of the run on the tokens. *)
Definition t_result (r : tstepped) : res statement :=
  match r with
  | TAccept (Some s) => Ok s
  | TAccept None => Ok SOther
  | TReject => Err (EParse "found syntax error when parsing DDL")
  | TCrash => Panic
  | TNext _ | TStuck => Fatal
  end.
Definition trun (l : list (kind * string)) (r : res statement) : Prop :=
  exists n, t_result (tsteps n (tstart l)) = r /\ forall s, tsteps n (tstart l) <> TNext s.

Lemma agree_result free r r' : agree free r r' -> (forall p, r <> Next p) ->
  (forall s, r' <> TNext s) /\ match r with Accept (Some s) => Ok s | Accept None => Ok SOther
    | Reject => Err (EParse "found syntax error when parsing DDL") | Crash => Panic | _ => Fatal end = t_result r'.
Proof.
  destruct r as [p|t| | |]; destruct r' as [s|t'| | |]; cbn; try contradiction; intros A H.
  - now destruct (H p).
  - subst t'. split; [intros s; discriminate|]. now destruct t.
  - split; [intros s; discriminate|reflexivity].
  - split; [intros s; discriminate|reflexivity].
  - split; [intros s; discriminate|reflexivity].
Qed.

Lemma readable_agrees m sql w n : says m sql w -> exists free, agree free (psteps n (new_parser m sql)) (tsteps n (tstart w)).
Proof.
  intros (l & H & <- & P).
  assert (T : tokens m sql = Tokens (without_comments l)) by (apply tokens_exact, scans_reads, H).
  assert (X : exists free, permitted (without_comments l) free /\ (free = true -> comment_free l)).
  { destruct P as [P|P]; [exists true|exists false]; split; auto; [now left|now right|discriminate]. }
  destruct X as (free & X1 & X2). exists free. apply (psteps_agree free (without_comments l)); [exact X1| |].
  - rewrite <- T. apply start_steady.
  - now apply start_similar.
Qed.

Lemma text_runs m sql w : says m sql w -> trun w (parse_strict_ddl m sql).
Proof.
  intros H. exists (2 ^ (String.length sql + 20))%nat. destruct (readable_agrees m sql w (2 ^ (String.length sql + 20)) H) as (free & A).
  unfold parse_strict_ddl, yy_parse. rewrite rounds_psteps. apply agree_result in A; [destruct A as [A1 A2]|].
  - split; [|exact A1]. rewrite <- A2. now destruct (psteps _ _) as [|[|]| | |].
  - intros p E. pose proof (parse_ends m sql) as O. unfold yy_parse in O. rewrite rounds_psteps, E in O. exact O.
Qed.

Lemma tsteps_add a b s : tsteps (a + b) s = match tsteps a s with TNext s' => tsteps b s' | r => r end.
Proof. revert s. induction a as [|a IH]; intros s; [reflexivity|]. cbn. destruct (tstep s); auto. Qed.
Lemma trun_unique w r r' : trun w r -> trun w r' -> r = r'.
Proof.
  intros (a & <- & A) (b & <- & B).
  assert (S : forall a b, (forall s, tsteps a (tstart w) <> TNext s) -> (a <= b)%nat -> tsteps a (tstart w) = tsteps b (tstart w)).
  { clear. intros a b H L. replace b with (a + (b - a))%nat by lia. rewrite tsteps_add. destruct (tsteps a (tstart w)) as [s| | | |]; auto. now destruct (H s). }
  destruct (Nat.le_ge_cases a b) as [L|L]; [f_equal; apply S; assumption|f_equal; symmetry; apply S; assumption].
Qed.
Lemma same_words m m' a b w : says m a w -> says m' b w -> parse_strict_ddl m a = parse_strict_ddl m' b.
Proof. intros A B. eapply trun_unique; apply text_runs; eassumption. Qed.
Lemma text_result m sql w n : says m sql w -> (forall s, tsteps n (tstart w) <> TNext s) ->
  parse_strict_ddl m sql = t_result (tsteps n (tstart w)).
Proof. intros H N. eapply trun_unique; [apply text_runs, H|]. exists n. auto. Qed.

Lemma same_meaning m a b w : says m a w -> says m b w ->
  in_ok without_text (parse_ddl parse_strict_ddl m a) = in_ok without_text (parse_ddl parse_strict_ddl m b).
Proof.
  intros A B. unfold parse_ddl. rewrite (same_words m m a b w A B). destruct (parse_strict_ddl m b) as [st| | |]; try reflexivity.
  cbn [bind]. destruct st as [d|]; [|reflexivity]. cbn [parse_statement].
  repeat match goal with
  | |- context [if ?c then _ else _] => destruct c
  | |- context [match ?c with Some _ => _ | None => _ end] => destruct c
  end; try reflexivity;
  match goal with |- context [bind ?r _] => destruct r; reflexivity end.
Qed.

(** ** Scanning a given text *)
Fixpoint scan_all (n : nat) (t : tokenizer) : option (list (kind * string)) :=
  match n with
  | O => None
  | S n' =>
      match scan_outer (fun _ => ScanPanic) t with
      | Token KEnd _ _ => Some []
      | Token k v t' => if kind_eqb k lex_error then None else option_map (cons (k, v)) (scan_all n' t')
      | _ => None
      end
  end.
Lemma scan_all_scans n : forall t l, tk_force_eof t = false -> tk_multi t = false -> scan_all n t = Some l ->
  scans (tk_mode t) (tk_posvar t) (tk_input t) l.
Proof.
  induction n as [|n IH]; intros t l HF HM; cbn [scan_all]; [discriminate|].
  destruct (scan_outer_outcome (fun _ => ScanPanic) t HF HM) as (g & x & Hi & Hg & Ho).
  destruct (scan_outer (fun _ => ScanPanic) t) as [k v t'| |]; try discriminate.
  inversion Ho as [Hx E1|text r v0 Hx Hn E1|text r k0 v0 Hx Hn Hl E1|body r Hx Hf E1]; subst.
  - intros [= <-]. rewrite Hi, sapp_nil_r. now constructor.
  - discriminate.
  - pose proof (lexeme_kind _ _ _ _ _ _ Hl) as [K1 K2]. intros H.
    assert (X : option_map (cons (k, v)) (scan_all n (after t text r)) = Some l).
    { destruct k as [|c|nm]; [now destruct K1| |]; (destruct (kind_eqb _ lex_error); [discriminate|exact H]). }
    destruct (scan_all n (after t text r)) as [l'|] eqn:E; [|discriminate]. injection X as <-.
    destruct (after_fields t text r) as (A1 & A2 & A3 & A4 & A5 & A6). rewrite Hi. eapply sc_token; [exact Hg|exact Hl|].
    apply IH in E; [|congruence|congruence]. now rewrite A2, A3, A4 in E.
  - unfold special in E1. destruct (extract_mysql_comment body); discriminate.
Qed.

Definition saysb (m : mode) (text : string) (w : list (kind * string)) : bool :=
  match scan_all (S (S (String.length text))) (new_tokenizer m text) with
  | None => false
  | Some l =>
      let same := (fix same a b := match a, b with
        | [], [] => true
        | (k, v) :: a', (k', v') :: b' => kind_eqb k k' && String.eqb v v' && same a' b'
        | _, _ => false end) (without_comments l) w in
      same && (forallb (fun x => negb (is_comment (fst x))) l ||
        (negb (existsb (fun x => kind_eqb (fst x) (KTok "SELECT") || kind_eqb (fst x) (KTok "TRIGGER")) w) &&
         match w with (k, _) :: _ => negb (existsb (kind_eqb k) manipulation) | [] => true end))
  end.
Lemma kind_eqb_refl k : kind_eqb k k = true.
Proof. destruct k as [|c|nm]; cbn; [reflexivity|apply Ascii.eqb_refl|apply String.eqb_refl]. Qed.
Lemma saysb_says m text w : saysb m text w = true -> says m text w.
Proof.
  unfold saysb. destruct (scan_all _ _) as [l|] eqn:E; [|discriminate].
  apply scan_all_scans in E; [|reflexivity|reflexivity]. cbn in E. intros H. apply andb_true_iff in H. destruct H as [H1 H2].
  exists l. split; [exact E|].
  assert (X : without_comments l = w).
  { clear -H1. revert w H1. induction (without_comments l) as [|[k v] a IH]; intros [|[k' v'] w]; try discriminate; auto.
    rewrite !andb_true_iff. intros [[H1 H2] H3]. apply kind_eqb_eq in H1. apply String.eqb_eq in H2. subst. f_equal. now apply IH. }
  split; [exact X|]. apply orb_true_iff in H2. destruct H2 as [H2|H2].
  - left. intros x Hx. rewrite forallb_forall in H2. specialize (H2 x Hx). now apply negb_true_iff in H2.
  - right. apply andb_true_iff in H2. destruct H2 as [H2 H3]. apply negb_true_iff in H2.
    assert (N : forall k, k = KTok "SELECT" \/ k = KTok "TRIGGER" -> ~ In k (map fst w)).
    { intros k Hk Hi. apply in_map_iff in Hi. destruct Hi as (x & Ex & Hx). assert (Y : existsb (fun x => kind_eqb (fst x) (KTok "SELECT") || kind_eqb (fst x) (KTok "TRIGGER")) w = true).
      { apply existsb_exists. exists x. split; [exact Hx|]. rewrite Ex. destruct Hk; subst k; reflexivity. }
      congruence. }
    split; [apply N; auto|]. split; [apply N; auto|]. intros k v l' -> Hi. apply negb_true_iff in H3.
    assert (Y : existsb (kind_eqb k) manipulation = true) by (apply existsb_exists; exists k; split; [exact Hi|apply kind_eqb_refl]). congruence.
Qed.
