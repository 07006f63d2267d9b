(** The parser against the grammar: every step keeps a stack of derived symbols, no step goes
    wrong, and there are boundedly many. *)
From Coq Require Import String Ascii List ZArith Bool Lia.
From Verif Require Import GoStr Ast Generator Keywords Lexer SpecLexer SqlAst ParserTables ParserValues ParserActions Parser
  SpecGrammar ParserCert ProofGrammar ProofActions ProofLexer ProofScan ProofTokens.
Import ListNotations.
Local Open Scope Z_scope.
Local Open Scope list_scope.

(** ** The stack *)
Definition linked (t s : Z) (x : symbol) : Prop :=
  state s /\ s <> 0 /\ access s = code x /\ edge t s = true /\ faithful x /\
  match x with Nonterminal _ => goto t (- code x) = Some s | Terminal _ => True end.

Inductive stacked : list (Z * yval) -> list (kind * string) -> list Z -> Prop :=
| st_bottom v : stacked [(0, v)] [] []
| st_push t u rest s v x l ps l' ps' : stacked ((t, u) :: rest) l ps -> linked t s x -> derives x l' ps' v ->
    has_type (type_of x) v -> stacked ((s, v) :: (t, u) :: rest) (l ++ l') (ps ++ ps').

Lemma stacked_top s v rest l ps : stacked ((s, v) :: rest) l ps -> state s.
Proof. intros H. inversion H; subst; [unfold state; lia|]. match goal with L : linked _ _ _ |- _ => apply L end. Qed.

(** How many tokens are on the stack. *)
Definition token_state (e : Z * yval) : bool := 0 <? access (fst e).
Definition words (st : list (Z * yval)) : Z := Z.of_nat (length (filter token_state st)).

Lemma derive_snoc xs l ps vs x l' ps' v : derive xs l ps vs -> derives x l' ps' v -> derive (xs ++ [x]) (l ++ l') (ps ++ ps') (vs ++ [v]).
Proof.
  intros D H. induction D as [|y ys l1 l2 ps1 ps2 w ws Hy D IH].
  - cbn. rewrite <- (app_nil_r l'), <- (app_nil_r ps'). apply d_cons; [exact H|constructor].
  - cbn. rewrite <- !app_assoc. apply d_cons; auto.
Qed.

Lemma firstn_snoc {A} (l : list A) : forall n x, nth_error l n = Some x -> firstn (S n) l = firstn n l ++ [x].
Proof.
  induction l as [|y l IH]; intros [|n] x H; try discriminate; [now injection H as <-|]. cbn in H.
  cbn [firstn app]. f_equal. now apply IH.
Qed.
Lemma walk_snoc xs : forall t s x, walk t xs = Some s -> walk t (xs ++ [x]) = goto s (- x).
Proof.
  induction xs as [|y xs IH]; intros t s x H; cbn in *.
  - injection H as <-. now destruct (goto t (- x)).
  - destruct (goto t (- y)) as [t'|]; [|discriminate]. now apply IH.
Qed.

Lemma kernel_start : kernel 0 = [].
Proof. reflexivity. Qed.

Definition positives (l : list Z) : Z := Z.of_nat (length (filter (fun z => 0 <? z) l)).

Lemma words_cons s v st : words ((s, v) :: st) = words st + (if 0 <? access s then 1 else 0).
Proof. unfold words. cbn [filter]. unfold token_state at 1. cbn [fst]. destruct (0 <? access s); cbn [length]; lia. Qed.
Lemma positives_snoc l z : positives (l ++ [z]) = positives l + (if 0 <? z then 1 else 0).
Proof. unfold positives. rewrite filter_app, app_length. cbn [filter]. destruct (0 <? z); cbn [length]; lia. Qed.

Lemma popped d : forall s v rest l ps i, stacked ((s, v) :: rest) l ps -> 1 <= i -> item i (Z.of_nat d) s = true ->
  exists t u below l1 l2 ps1 ps2 xs, skipn d ((s, v) :: rest) = (t, u) :: below /\ stacked ((t, u) :: below) l1 ps1 /\
    derive xs l2 ps2 (rev (map snd (firstn d ((s, v) :: rest)))) /\ l = l1 ++ l2 /\ ps = ps1 ++ ps2 /\
    map code xs = firstn d (rhs_of i) /\ (forall x, In x xs -> faithful x) /\
    Forall2 has_type (map type_of xs) (rev (map snd (firstn d ((s, v) :: rest)))) /\ item i 0 t = true /\
    words ((s, v) :: rest) = words ((t, u) :: below) + positives (firstn d (rhs_of i)) /\
    ((forall z, In z (firstn d (rhs_of i)) -> z < 0) -> walk t (firstn d (rhs_of i)) = Some s).
Proof.
  induction d as [|d IH]; intros s v rest l ps i St Hi I.
  - exists s, v, rest, l, [], ps, [], []. rewrite !app_nil_r. cbn [skipn firstn map rev].
    split; [reflexivity|]. split; [exact St|]. split; [constructor|]. do 2 (split; [reflexivity|]).
    split; [reflexivity|]. split; [intros x []|]. split; [constructor|]. split; [exact I|]. split; [|reflexivity].
    unfold positives. cbn. lia.
  - inversion St as [v0 E1|t u rest' s0 v0 x l1 ps1 l' ps' St' Lk D T E1]; subst.
    { unfold item in I. replace (Z.of_nat (S d) =? 0) with false in I by (symmetry; apply Z.eqb_neq; lia).
      rewrite kernel_start in I. discriminate. }
    destruct Lk as (Ls & L0 & La & Le & Lf & Lg).
    destruct (edge_item t s i (Z.of_nat (S d)) Le ltac:(lia) I Hi) as [N I'].
    replace (Z.of_nat (S d) - 1) with (Z.of_nat d) in I', N by lia. rewrite Nat2Z.id in N.
    destruct (IH t u rest' l1 ps1 i St' Hi I') as (t1 & u1 & below & la & lb & pa & pb & xs & E1 & E2 & E3 & E4 & E5 & E6 & E7 & E8 & E9 & E10 & E11).
    exists t1, u1, below, la, (lb ++ l'), pa, (pb ++ ps'), (xs ++ [x]).
    split; [exact E1|]. split; [exact E2|]. rewrite (firstn_snoc _ _ _ N).
    change (firstn (S d) ((s, v) :: (t, u) :: rest')) with ((s, v) :: firstn d ((t, u) :: rest')). cbn [map rev snd].
    split; [now apply derive_snoc|]. subst l1 ps1. rewrite !app_assoc. do 2 (split; [reflexivity|]).
    split; [rewrite map_app, E6; cbn [map]; now rewrite La|].
    split; [intros y Hy; apply in_app_or in Hy; destruct Hy as [Hy|[<-|[]]]; auto|].
    split; [rewrite map_app; apply Forall2_app; [exact E8|cbn [map]; constructor; [exact T|constructor]]|].
    split; [exact E9|]. split.
    + rewrite words_cons, positives_snoc, E10. lia.
    + intros Hz. rewrite (walk_snoc _ _ t); [|apply E11; intros z Hz'; apply Hz; apply in_or_app; now left].
      destruct x as [k|name].
      * exfalso. assert (access s < 0) by (apply Hz, in_or_app; right; now left). rewrite La in H. cbn [code] in H.
        pose proof (token_range k). lia.
      * now rewrite La.
Qed.

(** ** What is left of the text *)
Definition from (t : tokenizer) : stream := tokens_fuel (S (size t)) t.
Definition before (l : list (kind * string)) (s : stream) : stream :=
  match s with Tokens r => Tokens (l ++ r) | x => x end.
Definition words_of (l : list (kind * string)) : list (kind * string) := filter (fun x => negb (is_comment (fst x))) l.

Lemma before_app a b s : before (a ++ b) s = before a (before b s).
Proof. destruct s; cbn; [now rewrite app_assoc|reflexivity|reflexivity]. Qed.
Lemma before_nil s : before [] s = s.
Proof. now destruct s. Qed.

Lemma lex_more n : forall allow t, lex_fuel n allow t <> OutOfFuel -> lex_fuel (S n) allow t = lex_fuel n allow t.
Proof.
  induction n as [|n IH]; intros allow t H; [now destruct H|]. cbn [lex_fuel] in H. change (lex_fuel (S (S n)) allow t) with
    (match scan_token t with Token k v t' => if is_comment k && negb allow then lex_fuel (S n) allow t' else Token k v t' | x => x end).
  cbn [lex_fuel]. destruct (scan_token t) as [k v t'| |]; [|reflexivity|reflexivity].
  destruct (is_comment k && negb allow); [|reflexivity]. apply IH in H. exact H.
Qed.
Lemma lex_enough n allow t : (size t < n)%nat -> lex_fuel n allow t = lex allow t.
Proof.
  intros L. unfold lex. assert (E : exists d, (n = d + S (size t))%nat) by (exists (n - S (size t))%nat; lia).
  destruct E as [d ->]. clear L. induction d as [|d IH]; [reflexivity|]. cbn [Nat.add]. rewrite lex_more; [exact IH|].
  apply lex_returns. lia.
Qed.
Lemma tokens_more n : forall t, tokens_fuel n t <> StreamFuel -> tokens_fuel (S n) t = tokens_fuel n t.
Proof.
  assert (U : forall n t, tokens_fuel (S n) t = match lex false t with
      | Token KEnd _ _ => Tokens []
      | Token k v t' => match tokens_fuel n t' with Tokens l => Tokens ((k, v) :: l) | x => x end
      | ScanPanic => StreamPanic | OutOfFuel => StreamFuel end) by reflexivity.
  induction n as [|n IH]; intros t H; [now destruct H|]. rewrite (U n t) in H. rewrite (U (S n) t), (U n t).
  destruct (lex false t) as [k v t'| |]; [|reflexivity|reflexivity].
  destruct k; [reflexivity| |]; rewrite IH; try reflexivity; intros E; rewrite E in H; now destruct H.
Qed.
Lemma tokens_enough n t : (size t < n)%nat -> tokens_fuel n t = from t.
Proof.
  intros L. unfold from. assert (E : exists d, (n = d + S (size t))%nat) by (exists (n - S (size t))%nat; lia).
  destruct E as [d ->]. clear L. induction d as [|d IH]; [reflexivity|]. cbn [Nat.add]. rewrite tokens_more; [exact IH|].
  apply tokens_return. lia.
Qed.

Lemma lex_false_token t k v t' : lex false t = Token k v t' -> k <> KEnd -> from t = before [(k, v)] (from t').
Proof.
  intros H N. unfold from at 1. cbn [tokens_fuel]. rewrite H. pose proof (lex_shrinks _ _ _ _ _ _ H) as [->|S]; [now destruct N|].
  destruct k; [now destruct N| |]; rewrite tokens_enough by lia; now destruct (from t').
Qed.
Lemma lex_false_end t v t' : lex false t = Token KEnd v t' -> from t = Tokens [].
Proof. intros H. unfold from. cbn [tokens_fuel]. now rewrite H. Qed.
Lemma lex_false_panic t : lex false t = ScanPanic -> from t = StreamPanic.
Proof. intros H. unfold from. cbn [tokens_fuel]. now rewrite H. Qed.

Lemma lex_unfold allow t : lex allow t =
  match scan_token t with Token k v t' => if is_comment k && negb allow then lex allow t' else Token k v t' | x => x end.
Proof.
  unfold lex at 1. cbn [lex_fuel]. destruct (scan_token t) as [k v t'| |] eqn:E; [|reflexivity|reflexivity].
  destruct (is_comment k && negb allow) eqn:C; [|reflexivity].
  destruct (token_shrinks _ _ _ _ _ E) as [->|S]; [discriminate|]. now apply lex_enough.
Qed.
Lemma from_same t t' : lex false t = lex false t' -> from t = from t'.
Proof.
  intros E. unfold from at 1. cbn [tokens_fuel]. rewrite E. destruct (lex false t') as [k v u| |] eqn:E'.
  - destruct k; [symmetry; eapply lex_false_end, E'| |]; rewrite (lex_false_token t' _ _ _ E') by discriminate;
      destruct (lex_shrinks _ _ _ _ _ _ E) as [X|S]; try discriminate; rewrite tokens_enough by lia; now destruct (from u).
  - symmetry. now apply lex_false_panic.
  - exfalso. revert E'. apply lex_returns. lia.
Qed.

Lemma lexed allow t :
  match lex allow t with
  | Token KEnd _ _ => from t = Tokens []
  | Token k v t' => from t = before (words_of [(k, v)]) (from t')
  | ScanPanic => from t = StreamPanic
  | OutOfFuel => False
  end.
Proof.
  destruct allow.
  - rewrite lex_unfold. destruct (scan_token t) as [k v t'| |] eqn:E.
    + rewrite andb_false_r. pose proof (lex_unfold false t) as F. rewrite E in F. cbn [negb] in F. rewrite andb_true_r in F.
      unfold words_of. cbn [filter fst]. destruct (is_comment k) eqn:C; cbn [negb].
      * assert (X : from t = from t') by now apply from_same. destruct k as [|c|n]; try discriminate. now rewrite before_nil.
      * destruct k; [now apply lex_false_end in F| |]; now apply lex_false_token in F.
    + apply lex_false_panic. rewrite lex_unfold. now rewrite E.
    + revert E. apply scan_token_returns.
  - destruct (lex false t) as [k v t'| |] eqn:E.
    + assert (C : is_comment k = false).
      { clear -E. unfold lex in E. revert E. generalize (S (size t)) as n. intros n. revert t. induction n as [|n IH]; intros t; cbn [lex_fuel]; [discriminate|].
        destruct (scan_token t) as [k0 v0 t0| |]; try discriminate. destruct (is_comment k0) eqn:C; cbn [negb andb].
        - apply IH.
        - intros [= -> -> ->]. exact C. }
      unfold words_of. cbn [filter fst]. rewrite C. cbn [negb]. destruct k; [now apply lex_false_end in E| |]; now apply lex_false_token in E.
    + now apply lex_false_panic.
    + revert E. apply lex_returns. lia.
Qed.

(** No token is the character NUL. *)
Lemma lexeme_nul m n k v text r : lexeme m n k v text r -> k <> KChar c_nul.
Proof.
  assert (W : forall w k v, word w k v -> k <> KChar c_nul) by (intros w k0 v0 [x t H|x H|x H1 H2]; discriminate).
  intros H. destruct H; try discriminate; try (eapply W; eassumption).
  - destruct H; discriminate.
  - destruct H; discriminate.
  - assert (X : forallb (fun x => match snd (fst x) with KChar a => negb (Ascii.eqb a c_nul) | _ => true end) (operators m) = true)
      by (destruct m; reflexivity).
    rewrite forallb_forall in X. specialize (X _ H). cbn [fst snd] in X. intros ->. discriminate.
Qed.
Lemma scan_nul n : forall t k v t', scan n t = Token k v t' -> k <> KChar c_nul.
Proof.
  induction n as [|n IH]; intros t k v t'; cbn [scan]; [discriminate|].
  assert (O : forall u, scan_outer (scan n) u = Token k v t' -> k <> KChar c_nul).
  { intros u H. destruct (scan_outer_any (scan n) u) as (g & x & Hi & [Ho|He]).
    2:{ rewrite H in He. injection He as -> _ _. discriminate. }
    rewrite H in Ho. inversion Ho as [Hx E1|text r v0 Hx Hn E1|text r k0 v0 Hx Hn Hl E1|body r Hx Hf E1]; subst.
    - discriminate.
    - discriminate.
    - eapply lexeme_nul; eassumption.
    - unfold special in E1. destruct (extract_mysql_comment body); [|discriminate]. eapply IH, E1. }
  destruct (tk_special t) as [sp|]; [|apply O].
  destruct (scan n sp) as [k0 v0 sp'| |] eqn:E; try discriminate.
  destruct k0; [apply O| |]; intros [= <- <- <-]; eapply IH, E.
Qed.
Lemma lex_nul allow t k v t' : lex allow t = Token k v t' -> k <> KChar c_nul.
Proof.
  unfold lex. generalize (S (size t)) as n. intros n. revert t. induction n as [|n IH]; intros t; cbn [lex_fuel]; [discriminate|].
  destruct (scan_token t) as [k0 v0 t0| |] eqn:E; try discriminate. destruct (is_comment k0 && negb allow); [apply IH|].
  intros [= -> -> ->]. eapply scan_nul, E.
Qed.

(** ** After the end was forced, only tokens of the text are read. *)
Lemma size_forced t : size (force_eof t) = size t.
Proof. now destruct t. Qed.
Lemma scan_forced n t : (exists v u, scan n (force_eof t) = Token KEnd v u) \/
  (exists k v u, scan n t = Token k v u /\ scan n (force_eof t) = Token k v (force_eof u)) \/
  (scan n t = ScanPanic /\ scan n (force_eof t) = ScanPanic) \/ scan n t = OutOfFuel.
Proof.
  destruct n as [|n]; [auto|]. cbn [scan]. replace (tk_special (force_eof t)) with (tk_special t) by reflexivity.
  assert (O : forall u, tk_force_eof u = true -> exists v w, scan_outer (scan n) u = Token KEnd v w).
  { intros u H. unfold scan_outer. rewrite H. eexists; eexists; reflexivity. }
  destruct (tk_special t) as [sp|]; [|left; now apply O].
  destruct (scan n sp) as [k v sp'| |]; auto.
  destruct k; [left; now apply O| |]; right; left; eexists; eexists; eexists; split; reflexivity.
Qed.
Lemma lex_forced allow t : (exists v u, lex allow (force_eof t) = Token KEnd v u) \/
  (exists k v u, lex allow t = Token k v u /\ lex allow (force_eof t) = Token k v (force_eof u)) \/
  (lex allow t = ScanPanic /\ lex allow (force_eof t) = ScanPanic).
Proof.
  unfold lex. rewrite size_forced.
  assert (G : forall n t, (size t < n)%nat -> (exists v u, lex_fuel n allow (force_eof t) = Token KEnd v u) \/
    (exists k v u, lex_fuel n allow t = Token k v u /\ lex_fuel n allow (force_eof t) = Token k v (force_eof u)) \/
    (lex_fuel n allow t = ScanPanic /\ lex_fuel n allow (force_eof t) = ScanPanic)); [|apply G; lia].
  clear t. intros n.
  induction n as [|n IH]; intros t L; [lia|]. cbn [lex_fuel]. unfold scan_token. rewrite size_forced.
  destruct (scan_forced (S (size t)) t) as [(v & u & E)|[(k & v & u & E1 & E2)|[[E1 E2]|E]]].
  - rewrite E. cbn [is_comment andb]. left. eauto.
  - rewrite E1, E2. destruct (is_comment k && negb allow) eqn:C; [|right; left; eauto 6].
    apply IH. destruct (token_shrinks _ _ _ _ _ E1) as [->|S]; [discriminate|]. lia.
  - rewrite E1, E2. auto.
  - exfalso. revert E. apply scan_token_returns.
Qed.

(** ** Steps *)
Definition skipping (ps : list Z) : Prop := exists i, In i ps /\ skips i.
Lemma skipping_app a b : skipping a -> skipping (a ++ b).
Proof. intros (i & I & S). exists i. split; [apply in_or_app; now left|exact S]. Qed.

(** [text] begins with the words of [l], and the tokenizer will give what follows, unless it was
    told to skip that. *)
Definition unread (text : stream) (p : parser) (l : list (kind * string)) (ps : list Z) : Prop :=
  exists t, text = before (words_of l) (from t) /\ (ps_tokenizer p = t \/ (ps_tokenizer p = force_eof t /\ skipping ps)).
Definition whole (text : stream) (l : list (kind * string)) (ps : list Z) : Prop :=
  text = Tokens (words_of l) \/ (skipping ps /\ exists r, text = before (words_of l) r).
Definition reading (text : stream) (p : parser) (l : list (kind * string)) (ps : list Z) : Prop :=
  match ps_look p with
  | None => unread text p l ps
  | Some (z, v) => exists k, z = token_code k /\ k <> KChar c_nul /\
      match k with KEnd => whole text l ps | _ => unread text p (l ++ [(k, v)]) ps end
  end.
Definition steady (text : stream) (p : parser) : Prop :=
  exists l ps, stacked (ps_stack p) l ps /\ reading text p l ps /\
    (forall v rest, ps_stack p = (1, v) :: rest -> ps_tree p = as_stmt v).

Definition pending (p : parser) : Z :=
  match ps_look p with
  | None => Z.of_nat (size (ps_tokenizer p))
  | Some (z, _) => if z =? 1 then 0 else Z.of_nat (size (ps_tokenizer p)) + 1
  end.
Definition top (st : list (Z * yval)) : Z := match st with (s, _) :: _ => s | [] => 0 end.
Definition measure (p : parser) : Z := 26 * pending p + 13 * words (ps_stack p) + potential (top (ps_stack p)).

Definition accepted (text : stream) (tree : option statement) : Prop :=
  exists l ps v, derives (Nonterminal "any_command") l ps v /\ tree = as_stmt v /\ has_type TStmt v /\ whole text l ps.
Definition crashed (text : stream) : Prop :=
  text = StreamPanic \/
  exists l1 l l2 v1 v2 v3 ps ty r, derives (Nonterminal "column_definition_type") l ps (YType ty) /\ ct_identity ty = None /\
    text = before (words_of (l1 ++ l ++ [(KTok "NOT", v1); (KTok "FOR", v2); (KTok "REPLICATION", v3)] ++ l2)) r.
Definition outcome_ok (text : stream) (p : parser) (r : stepped) : Prop :=
  match r with
  | Next p' => steady text p' /\ measure p' < measure p
  | Accept tree => accepted text tree
  | Reject => True
  | Crash => crashed text
  | Stuck => False
  end.

Lemma words_app a b : words_of (a ++ b) = words_of a ++ words_of b.
Proof. apply filter_app. Qed.
Lemma words_range st : 0 <= words st.
Proof. unfold words. lia. Qed.
Lemma pending_range p : 0 <= pending p.
Proof. unfold pending. destruct (ps_look p) as [[z v]|]; [|lia]. destruct (z =? 1); lia. Qed.

(** The acts on the tokenizer. *)
Lemma act_on_spec i args p p' : act_on_tokenizer i args p = Some p' ->
  ps_stack p' = ps_stack p /\ ps_look p' = ps_look p /\
  (ps_tokenizer p' = ps_tokenizer p \/ (ps_tokenizer p' = force_eof (ps_tokenizer p) /\ skips i)) /\
  (if i =? 1 then ps_tree p' = match args with v :: _ => as_stmt v | [] => None end else ps_tree p' = ps_tree p).
Proof.
  unfold act_on_tokenizer. destruct (i =? 1); [intros [= <-]; cbn; auto|].
  destruct (i =? 430); [intros [= <-]; cbn; auto|]. destruct (i =? 431); [intros [= <-]; cbn; auto|].
  destruct (i =? 993); [destruct (_ =? 200); [discriminate|intros [= <-]; cbn; auto]|].
  destruct (i =? 994); [intros [= <-]; cbn; auto|].
  destruct ((995 <=? i) && (i <=? 998)) eqn:E; intros [= <-]; cbn; auto.
  rewrite andb_true_iff, !Z.leb_le in E. unfold skips. auto 6.
Qed.

Lemma force_twice t : force_eof (force_eof t) = force_eof t.
Proof. reflexivity. Qed.

Lemma unread_more text p p' l ps i : unread text p l ps ->
  (ps_tokenizer p' = ps_tokenizer p \/ (ps_tokenizer p' = force_eof (ps_tokenizer p) /\ skips i)) -> unread text p' l (ps ++ [i]).
Proof.
  intros (t & E & H) [T|[T S]]; exists t; (split; [exact E|]).
  - destruct H as [H|[H K]]; [left; congruence|right]. split; [congruence|now apply skipping_app].
  - right. split; [|exists i; split; [apply in_or_app; right; now left|exact S]].
    destruct H as [H|[H K]]; rewrite T, H; [reflexivity|apply force_twice].
Qed.
Lemma whole_more text l ps i : whole text l ps -> whole text l (ps ++ [i]).
Proof. intros [H|[H K]]; [now left|]. right. split; [now apply skipping_app|exact K]. Qed.
Lemma reading_more text p p' l ps i : reading text p l ps -> ps_look p' = ps_look p ->
  (ps_tokenizer p' = ps_tokenizer p \/ (ps_tokenizer p' = force_eof (ps_tokenizer p) /\ skips i)) -> reading text p' l (ps ++ [i]).
Proof.
  unfold reading. intros H L T. rewrite L. destruct (ps_look p) as [[z v]|]; [|eapply unread_more; eassumption].
  destruct H as (k & E & N & H). exists k. split; [exact E|]. split; [exact N|].
  destruct k; [now apply whole_more|eapply unread_more; eassumption|eapply unread_more; eassumption].
Qed.
Lemma pending_more p p' i : ps_look p' = ps_look p ->
  (ps_tokenizer p' = ps_tokenizer p \/ (ps_tokenizer p' = force_eof (ps_tokenizer p) /\ skips i)) -> pending p' = pending p.
Proof.
  unfold pending. intros L T. rewrite L. assert (E : size (ps_tokenizer p') = size (ps_tokenizer p)).
  { destruct T as [->|[-> _]]; [reflexivity|apply size_forced]. }
  now rewrite E.
Qed.

(** The text read so far, whatever the token in sight. *)
Lemma reading_prefix text p l ps : reading text p l ps -> exists r l2, text = before (words_of (l ++ l2)) r.
Proof.
  unfold reading. destruct (ps_look p) as [[z v]|].
  - intros (k & _ & _ & H). destruct k.
    + destruct H as [H|[_ [r H]]]; [exists (Tokens []), []|exists r, []]; rewrite app_nil_r; [|exact H]. cbn. now rewrite app_nil_r.
    + destruct H as (t & E & _). eauto.
    + destruct H as (t & E & _). eauto.
  - intros (t & E & _). exists (from t), []. now rewrite app_nil_r.
Qed.

Lemma access_one : access 1 = code (Nonterminal "any_command").
Proof. vm_compute. reflexivity. Qed.
Lemma any_command_decodes : decode (code (Nonterminal "any_command")) = Some (Nonterminal "any_command").
Proof. vm_compute. reflexivity. Qed.
Lemma only_first : forallb (fun i => negb (lhs_of i =? lhs_of 1)) (numbers 2 997) = true.
Proof. vm_compute. reflexivity. Qed.
Lemma access_one_lhs : access 1 = - lhs_of 1.
Proof. vm_compute. reflexivity. Qed.

Lemma item_start i t : item i 0 t = true -> In (lhs_of i) (closed t).
Proof. unfold item. cbn [Z.eqb]. intros H. apply existsb_exists in H. destruct H as (y & Y & E). apply Z.eqb_eq in E. now subst. Qed.

Lemma faithful_decode x : decode (code x) = Some x -> faithful x.
Proof. intros H. now right. Qed.

Lemma nil_dereference args : act 139 args = NilDereference -> exists ty r, args = YType ty :: r /\ ct_identity ty = None.
Proof.
  cbv beta iota zeta delta [act column_options Z.leb Z.compare Pos.compare Pos.compare_cont Z.to_pos].
  destruct args as [|v r]; [discriminate|]. unfold get. cbn [nth_error]. destruct v; cbn [as_type]; try discriminate.
  destruct (ct_identity t) eqn:E; [discriminate|]. intros _. eauto.
Qed.

Lemma derive_cons_inv x xs l ps vs : derive (x :: xs) l ps vs -> exists l1 l2 ps1 ps2 v vs', l = l1 ++ l2 /\ ps = ps1 ++ ps2 /\
  vs = v :: vs' /\ derives x l1 ps1 v /\ derive xs l2 ps2 vs'.
Proof. intros H. inversion H; subst. eauto 12. Qed.
Lemma derive_nil_inv l ps vs : derive [] l ps vs -> l = [] /\ ps = [] /\ vs = [].
Proof. intros H. inversion H; subst. auto. Qed.
Lemma derives_token_inv k l ps v : derives (Terminal k) l ps v -> exists s, l = [(k, s)] /\ ps = [] /\ v = YStr s.
Proof. intros H. inversion H; subst. eauto. Qed.

Lemma reduce_ok text p s v rest i l0 : steady text p -> ps_stack p = (s, v) :: rest -> defaults s = Some l0 -> In i l0 ->
  1 <= i <= 998 -> item i (Z.of_nat (length (rhs_of i))) s = true -> outcome_ok text p (reduce i p).
Proof.
  intros (l & ps & St & Rd & Tr) Es D I Hi It. unfold reduce.
  destruct (production_at i Hi) as (name & xs & P & R2 & R1 & C & Lpos & Dn & Dx & Mx). rewrite R2, R1, Nat2Z.id.
  assert (Lx : length (rhs_of i) = length xs) by (rewrite <- Mx; apply map_length). rewrite Lx in It.
  rewrite Es in *.
  destruct (popped (length xs) s v rest l ps i St ltac:(lia) It) as
    (t & u & below & l1 & l2 & ps1 & ps2 & ys & E1 & E2 & E3 & E4 & E5 & E6 & E7 & E8 & E9 & E10 & E11).
  rewrite E1. rewrite <- Lx, firstn_all in E6, E10, E11.
  assert (ys = xs) by (apply same_symbols; [congruence|exact E7|exact Dx]). subst ys.
  pose proof (item_start _ _ E9) as Cl. pose proof (stacked_top _ _ _ _ _ E2) as Ht.
  destruct (goto_facts t (lhs_of i) Ht Cl) as (s' & G & Hs' & A' & Ed & N0). rewrite G.
  destruct (act_on_tokenizer i _ p) as [p'|] eqn:Ac; [|exact Logic.I].
  pose proof (act_typed i name xs _ P E8) as Ty.
  destruct (act_on_spec _ _ _ _ Ac) as (S1 & S2 & S3 & S4).
  rewrite <- Lx in *. set (args := rev (map snd (firstn (length (rhs_of i)) ((s, v) :: rest)))) in *. clearbody args.
  destruct (act i args) as [w| | |] eqn:Aw; cbn [well_typed] in Ty.
  - assert (Lk : linked t s' (Nonterminal name)).
    { split; [exact Hs'|]. split; [exact N0|]. split; [rewrite A'; symmetry; exact C|]. split; [exact Ed|].
      split; [now apply faithful_decode|]. rewrite C, Z.opp_involutive. exact G. }
    cbn [outcome_ok]. split.
    + exists (l1 ++ l2), (ps1 ++ (ps2 ++ [i])). cbn [set_stack ps_stack ps_tree]. split.
      * apply (st_push t u below s' w (Nonterminal name)); [exact E2|exact Lk| |exact Ty].
        eapply d_production; [exact P|exact E3|exact Aw].
      * split.
        -- rewrite app_assoc, <- E5, <- E4. apply (reading_more text p); [exact Rd|exact S2|exact S3].
        -- intros w' r' [= -> <- _]. rewrite access_one_lhs in A'. assert (i = 1).
           { destruct (Z.eq_dec i 1) as [->|Ni]; [reflexivity|exfalso]. pose proof only_first as O. rewrite forallb_forall in O.
             specialize (O i (numbers_in 997 2 i ltac:(lia))). apply negb_true_iff, Z.eqb_neq in O. lia. }
           subst i. cbn [Z.eqb Pos.eqb] in S4. rewrite S4. clear -Aw.
           cbv beta iota zeta delta [act statements Z.leb Z.compare Pos.compare Pos.compare_cont Z.to_pos get] in Aw.
           destruct args as [|a args]; cbn [nth_error] in Aw; [discriminate|]. destruct (as_stmt a); [|discriminate].
           now injection Aw as <-.
    + unfold measure. cbn [set_stack ps_stack top]. unfold pending at 1. cbn [set_stack ps_look ps_tokenizer].
      fold (pending p'). rewrite (pending_more p p' i S2 S3). rewrite Es, E10. cbn [top]. rewrite words_cons.
      replace (0 <? access s') with false by (symmetry; apply Z.ltb_ge; lia).
      pose proof (potential_facts s' Hs'). pose proof (potential_facts s (stacked_top _ _ _ _ _ St)).
      destruct (Z.eq_dec (positives (rhs_of i)) 0) as [Z0|Z0].
      * assert (W : forall z, In z (rhs_of i) -> z < 0).
        { intros z Hz. rewrite <- Mx in Hz. apply in_map_iff in Hz. destruct Hz as (x & <- & Hx).
          assert (code x <> 0) by (specialize (Dx _ Hx); intros Z1; rewrite Z1 in Dx; discriminate).
          assert (~ 0 < code x); [|lia]. intros Hp. unfold positives in Z0.
          assert (In (code x) (filter (fun z => 0 <? z) (rhs_of i))).
          { apply filter_In. split; [rewrite <- Mx; now apply in_map|now apply Z.ltb_lt]. }
          destruct (filter _ _); [contradiction|cbn in Z0; lia]. }
        pose proof (wordless_facts t i s s' Ht Hi Cl W (E11 W) G (ex_intro _ l0 (conj D I))). lia.
      * assert (1 <= positives (rhs_of i)) by (unfold positives in *; lia). lia.
  - exact Logic.I.
  - subst i. cbn [outcome_ok]. right.
    destruct (nil_dereference _ Aw) as (ty & r & Ea & Id). rewrite Ea in E3.
    assert (Px : production 139 = Some ("column_definition_type", [n "column_definition_type"; SpecGrammar.t "NOT"; SpecGrammar.t "FOR"; SpecGrammar.t "REPLICATION"])%string) by reflexivity.
    rewrite P in Px. injection Px as -> ->.
    apply derive_cons_inv in E3. destruct E3 as (la & lb & pa & pb & v0 & vs & -> & -> & [= <- ->] & D1 & E3).
    apply derive_cons_inv in E3. destruct E3 as (lc & ld & pc & pd & v1 & vs1 & -> & -> & -> & D2 & E3).
    apply derive_cons_inv in E3. destruct E3 as (le & lf & pe & pf & v2 & vs2 & -> & -> & -> & D3 & E3).
    apply derive_cons_inv in E3. destruct E3 as (lg & lh & pg & ph & v3 & vs3 & -> & -> & -> & D4 & E3).
    apply derive_nil_inv in E3. destruct E3 as (-> & -> & ->).
    apply derives_token_inv in D2, D3, D4. destruct D2 as (w1 & -> & -> & ->). destruct D3 as (w2 & -> & -> & ->).
    destruct D4 as (w3 & -> & -> & ->).
    destruct (reading_prefix _ _ _ _ Rd) as (r & lz & Hr).
    exists l1, la, lz, w1, w2, w3, pa, ty, r. split; [exact D1|]. split; [exact Id|]. rewrite Hr, E4. f_equal. f_equal.
    rewrite <- !app_assoc. cbn [app]. reflexivity.
  - destruct Ty.
Qed.

Lemma looked text p k0 : steady text p -> (forall z v p', ps_look p' = Some (z, v) -> ps_stack p' = ps_stack p -> steady text p' ->
    measure p' <= measure p -> 1 <= z <= 315 -> outcome_ok text p (k0 z v p')) -> outcome_ok text p (with_look p k0).
Proof.
  intros (l & ps & St & Rd & Tr) K. unfold with_look. unfold reading in Rd. destruct (ps_look p) as [[z v]|] eqn:L.
  - apply K; [exact L|reflexivity| |lia|].
    + exists l, ps. split; [exact St|]. split; [|exact Tr]. unfold reading. now rewrite L.
    + destruct Rd as (k & -> & _). apply token_range.
  - destruct Rd as (t & E & T). pose proof (lexed (ps_allow p) t) as Lx.
    assert (F : match lex (ps_allow p) (ps_tokenizer p) with
      | Token KEnd v t' => whole text l ps
      | Token k v t' => exists t2, text = before (words_of (l ++ [(k, v)])) (from t2) /\ (t' = t2 \/ (t' = force_eof t2 /\ skipping ps))
      | ScanPanic => text = StreamPanic
      | OutOfFuel => False end).
    { assert (X : forall k v u, k <> KEnd -> lex (ps_allow p) t = Token k v u -> text = before (words_of (l ++ [(k, v)])) (from u)).
      { intros k v u N Ek. rewrite Ek in Lx. destruct k; [now destruct N| |]; rewrite E, Lx, words_app, before_app; reflexivity. }
      destruct T as [->|[-> Sk]].
      - destruct (lex (ps_allow p) t) as [k v u| |] eqn:Ek; [|now rewrite E, Lx|exact Lx].
        destruct k; [|exists u; split; [now apply X|now left]|exists u; split; [now apply X|now left]].
        left. rewrite E, Lx. cbn. now rewrite app_nil_r.
      - destruct (lex_forced (ps_allow p) t) as [(v & u & Ek)|[(k & v & u & E1 & E2)|[E1 E2]]].
        + rewrite Ek. right. split; [exact Sk|]. eauto.
        + rewrite E2. destruct k; [right; split; [exact Sk|eauto]| |]; (exists u; split; [now apply X|right; split; [reflexivity|exact Sk]]).
        + rewrite E2. rewrite E1 in Lx. now rewrite E, Lx. }
    destruct (lex (ps_allow p) (ps_tokenizer p)) as [k v t'| |] eqn:Ek; [|left; exact F|destruct F].
    apply K; [reflexivity|reflexivity| | |apply token_range].
    + exists l, ps. split; [exact St|]. split; [|exact Tr]. unfold reading. cbn [ps_look]. exists k. split; [reflexivity|].
      split; [eapply lex_nul, Ek|]. destruct k; [exact F| |]; destruct F as (t2 & F1 & F2); exists t2; split; try exact F1; exact F2.
    + unfold measure, pending. cbn [ps_look ps_stack ps_tokenizer]. rewrite L.
      destruct (token_code k =? 1) eqn:E1; [lia|]. destruct (lex_shrinks _ _ _ _ _ _ Ek) as [->|S]; [discriminate|]. lia.
Qed.

Lemma exception_action_in z : forall n l l0 a, (length l <= n)%nat -> actions_of l = Some l0 -> exception_action z l = Some a -> In a l0.
Proof.
  induction n as [|n IH]; intros [|t [|b l]] l0 a L; cbn in L |- *; try discriminate; [lia|].
  destruct (t <? 0) eqn:T; cbn [orb].
  - intros [= <-] [= <-]. now left.
  - destruct (actions_of l) as [r|] eqn:R; [|discriminate]. intros [= <-]. destruct (t =? z); [intros [= <-]; now left|].
    intros H. right. eapply (IH l); [lia|exact R|exact H].
Qed.
Lemma exception_action_some z : forall n l l0, (length l <= n)%nat -> actions_of l = Some l0 -> exists a, exception_action z l = Some a.
Proof.
  induction n as [|n IH]; intros [|t [|b l]] l0 L; cbn in L |- *; try discriminate; [lia|].
  destruct (t <? 0) eqn:T; cbn [orb]; [eauto|]. destruct (actions_of l) as [r|] eqn:R; [|discriminate]. intros _.
  destruct (t =? z); [eauto|]. eapply (IH l); [lia|exact R].
Qed.
Lemma exception_in s z : forall n l l0, (length l <= n)%nat -> exceptions s l = Some l0 -> exists a, exception s z l = Some a /\ In a l0.
Proof.
  induction n as [|n IH]; intros [|m [|s' l]] l0 L; cbn [length] in L; cbn [exceptions exception]; try discriminate; [lia|].
  destruct ((m =? -1) && (s' =? s)).
  - intros H. destruct (exception_action_some z (length l) l l0 (le_n _) H) as [a E]. exists a. split; [exact E|].
    eapply exception_action_in; [apply le_n|exact H|exact E].
  - intros H. apply IH; [lia|exact H].
Qed.
Lemma exception_one z a : exception 1 z exca_list = Some a -> a < 0 -> z = 1.
Proof.
  change (exception 1 z exca_list) with (if (1 <? 0) || (1 =? z) then Some (-1) else if (-2 <? 0) || (-2 =? z) then Some 0 else exception_action z (skipn 6 exca_list)).
  change (1 <? 0) with false. cbn [orb]. destruct (1 =? z) eqn:E; [intros _ _; apply Z.eqb_eq in E; lia|].
  change (-2 <? 0) with true. cbn [orb]. intros [= <-]. lia.
Qed.

Lemma start_closed : forallb (fun t => negb (item 0 0 t)) states = true.
Proof. vm_compute. reflexivity. Qed.
Lemma kernel_one : kernel 1 = [(0, 1)].
Proof. reflexivity. Qed.

Lemma accept_ok text p v rest z w : steady text p -> ps_stack p = (1, v) :: rest -> ps_look p = Some (z, w) -> z = 1 ->
  accepted text (ps_tree p).
Proof.
  intros (l & ps & St & Rd & Tr) Es L ->. rewrite (Tr v rest Es). rewrite Es in St.
  inversion St as [v0 E1|t u rest' s0 v0 x l1 ps1 l' ps' St' Lk D T E1]; subst.
  destruct Lk as (Ls & L0 & La & Le & Lf & Lg).
  assert (x = Nonterminal "any_command").
  { assert (X : [x] = [Nonterminal "any_command"]); [|now injection X]. apply same_symbols.
    - cbn [map]. now rewrite <- La, access_one.
    - intros y [<-|[]]. exact Lf.
    - intros y [<-|[]]. apply any_command_decodes. }
  subst x.
  assert (t = 0).
  { unfold edge in Le. rewrite kernel_one in Le. cbn [forallb fst snd] in Le. rewrite !andb_true_iff in Le.
    destruct Le as [[_ Le] _]. apply orb_true_iff in Le. change (1 - 1) with 0 in Le. destruct Le as [Le|Le].
    - exfalso. pose proof start_closed as C. rewrite forallb_forall in C.
      specialize (C t (states_in _ (stacked_top _ _ _ _ _ St'))). rewrite Le in C. discriminate.
    - unfold initial in Le. rewrite !andb_true_iff, !Z.eqb_eq in Le. tauto. }
  subst t. inversion St' as [v1 E1|t1 u1 r1 s1 w1 x1 la pa lb pb St1 Lk1]; subst.
  2:{ exfalso. destruct Lk1 as (_ & N & _). now apply N. }
  exists l', ps', v. split; [exact D|]. split; [reflexivity|]. split; [exact T|].
  unfold reading in Rd. rewrite L in Rd. destruct Rd as (k & Ek & N & H). cbn [app] in H.
  assert (k = KEnd) by (apply token_end; [exact N|now symmetry]). subst k. exact H.
Qed.

Lemma outcome_le text p p' r : measure p' <= measure p -> outcome_ok text p' r -> outcome_ok text p r.
Proof. intros L. destruct r; cbn; auto. intros [H1 H2]. split; [exact H1|lia]. Qed.

Lemma default_ok text p s v rest : steady text p -> ps_stack p = (s, v) :: rest -> outcome_ok text p (default_action s p).
Proof.
  intros H Es. assert (Hs : state s) by (destruct H as (l & ps & St & _); rewrite Es in St; eapply stacked_top, St).
  destruct (state_facts s Hs) as (_ & _ & l0 & D & Al). unfold default_action. unfold defaults in D.
  destruct (at_index yy_def s) as [n|] eqn:Ed; [|discriminate].
  assert (D' : defaults s = Some l0) by (unfold defaults; rewrite Ed; exact D).
  destruct (n =? -2) eqn:N2.
  - apply looked; [exact H|]. intros z w p' L1 L2 H' M Hz. rewrite Es in L2.
    destruct (exception_in s z (length exca_list) exca_list l0 (le_n _) D) as (a & E & I). rewrite E.
    destruct (Al a I) as [->|[[A1 ->]|[A1 A2]]].
    + exact Logic.I.
    + replace (a <? 0) with true by (symmetry; apply Z.ltb_lt; lia). cbn [outcome_ok].
      eapply accept_ok; [exact H'|exact L2|exact L1|]. eapply exception_one; [exact E|exact A1].
    + replace (a <? 0) with false by (symmetry; apply Z.ltb_ge; lia). replace (a =? 0) with false by (symmetry; apply Z.eqb_neq; lia).
      eapply outcome_le; [exact M|]. eapply reduce_ok; eassumption.
  - injection D as <-. destruct (Al n (or_introl eq_refl)) as [->|[[A1 ->]|[A1 A2]]].
    + exact Logic.I.
    + exfalso. revert Ed A1 N2. vm_compute. intros [= <-]. discriminate.
    + replace (n =? 0) with false by (symmetry; apply Z.eqb_neq; lia). eapply reduce_ok; try eassumption. now left.
Qed.

Lemma access_zero : access 0 < 0.
Proof. vm_compute. reflexivity. Qed.

Lemma step_ok text p : steady text p -> outcome_ok text p (step p).
Proof.
  intros H. unfold step. destruct (ps_stack p) as [|[s v] rest] eqn:Es.
  { destruct H as (l & ps & St & _). rewrite Es in St. inversion St. }
  assert (Hs : state s) by (destruct H as (l & ps & St & _); rewrite Es in St; eapply stacked_top, St).
  destruct (state_facts s Hs) as ([n Pn] & _ & _). rewrite Pn. destruct (n <=? yy_flag) eqn:F; [eapply default_ok; eassumption|].
  apply looked; [exact H|]. intros z w p' L1 L2 H' M Hz. rewrite Es in L2.
  destruct ((n + z <? 0) || (yy_last <=? n + z)) eqn:B; [eapply outcome_le; [exact M|]; eapply default_ok; eassumption|].
  apply orb_false_iff in B. destruct B as [B1 B2]. rewrite Z.ltb_ge in B1. apply Z.leb_gt in B2. unfold yy_last in B2.
  destruct (act_facts (n + z) ltac:(lia)) as (a & Ea & Sa). rewrite Ea. destruct (state_facts a Sa) as (_ & Ca & _). rewrite Ca.
  destruct (access a =? z) eqn:E; [|eapply outcome_le; [exact M|]; eapply default_ok; eassumption].
  assert (Sh : shift s z = Some a).
  { unfold shift. rewrite Pn. cbn [get_or]. rewrite F. replace (n + z <? 0) with false by (symmetry; apply Z.ltb_ge; lia).
    replace (yy_last <=? n + z) with false by (symmetry; apply Z.leb_gt; exact B2). cbn [orb]. rewrite Ea. cbn [get_or]. now rewrite E. }
  destruct (shift_facts s z a Hs Hz Sh) as (Ed & Ac & Z1).
  destruct H' as (l & ps & St & Rd & Tr). cbn [outcome_ok]. unfold reading in Rd. rewrite L1 in Rd. destruct Rd as (k & Ek & Nk & Rd).
  assert (Kn : k <> KEnd) by (intros ->; change (token_code KEnd) with 1 in Ek; lia).
  split.
  - exists (l ++ [(k, w)]), (ps ++ []). cbn [ps_stack ps_tree]. rewrite L2. rewrite L2 in St. split.
    + apply (st_push s v rest a (YStr w) (Terminal k)); [exact St| |constructor|eexists; reflexivity].
      split; [exact Sa|]. split; [intros ->; pose proof access_zero; lia|]. split; [rewrite Ac; exact Ek|]. split; [exact Ed|].
      split; [apply token_faithful|exact Logic.I].
    + split.
      * unfold reading. cbn [ps_look]. rewrite app_nil_r. assert (U : unread text p' (l ++ [(k, w)]) ps) by (destruct k; [now destruct Kn| |]; exact Rd).
        exact U.
      * intros v' r [= -> _ _]. exfalso. rewrite access_one_lhs in Ac. assert (0 < lhs_of 1) by (vm_compute; reflexivity). lia.
  - eapply Z.lt_le_trans; [|exact M]. unfold measure, pending. cbn [ps_stack ps_look ps_tokenizer top]. rewrite L1, L2. cbn [top].
    replace (z =? 1) with false by (symmetry; apply Z.eqb_neq; lia). rewrite words_cons.
    pose proof (potential_facts a Sa). pose proof (potential_facts s Hs). destruct (0 <? access a); lia.
Qed.

(** ** The whole run *)
Lemma measure_range text p : steady text p -> 0 <= measure p.
Proof.
  intros (l & ps & St & _). unfold measure. pose proof (pending_range p). pose proof (words_range (ps_stack p)).
  destruct (ps_stack p) as [|[s v] rest] eqn:E; [inversion St|]. cbn [top].
  pose proof (potential_facts s (stacked_top _ _ _ _ _ St)). lia.
Qed.

Lemma rounds_ok text n : forall p, steady text p ->
  match rounds n p with
  | Next p' => steady text p' /\ measure p' + 2 ^ Z.of_nat n <= measure p
  | Accept tree => accepted text tree
  | Reject => True
  | Crash => crashed text
  | Stuck => False
  end.
Proof.
  induction n as [|n IH]; intros p H; cbn [rounds].
  - pose proof (step_ok text p H) as O. destruct (step p); cbn in O |- *; auto. destruct O as [O1 O2]. split; [exact O1|].
    change (2 ^ Z.of_nat 0) with 1. lia.
  - pose proof (IH p H) as O. destruct (rounds n p) as [p1| | | |]; auto. destruct O as [O1 O2].
    pose proof (IH p1 O1) as O. destruct (rounds n p1) as [p2| | | |]; auto. destruct O as [O3 O4]. split; [exact O3|].
    rewrite Nat2Z.inj_succ, Z.pow_succ_r by lia. lia.
Qed.

Lemma start_steady m sql : steady (tokens m sql) (new_parser m sql).
Proof.
  exists [], []. split; [constructor|]. split; [|intros v rest [=]]. unfold reading. cbn [new_parser ps_look].
  exists (new_tokenizer m sql). split; [|now left]. cbn [words_of filter]. now rewrite before_nil.
Qed.

Lemma enough n : 26 * Z.of_nat (S n) + 12 < 2 ^ Z.of_nat (n + 20).
Proof.
  induction n as [|n IH]; [reflexivity|]. cbn [Nat.add]. rewrite (Nat2Z.inj_succ (n + 20)), Z.pow_succ_r by lia.
  rewrite (Nat2Z.inj_succ (S n)). lia.
Qed.

Lemma parse_ends m sql :
  match yy_parse m sql with
  | Next _ | Stuck => False
  | Accept tree => accepted (tokens m sql) tree
  | Reject => True
  | Crash => crashed (tokens m sql)
  end.
Proof.
  unfold yy_parse. pose proof (rounds_ok (tokens m sql) (String.length sql + 20) (new_parser m sql) (start_steady m sql)) as O.
  destruct (rounds _ _) as [p'| | | |]; auto. destruct O as [O1 O2]. pose proof (measure_range _ _ O1).
  pose proof (enough (String.length sql)). unfold measure in O2 at 2. unfold pending in O2. cbn [new_parser ps_look ps_tokenizer ps_stack top] in O2.
  rewrite size_eq in O2. cbn [new_tokenizer tk_input tk_special String.length] in O2.
  assert (W : words [(0, YNone)] = 0) by (vm_compute; reflexivity). rewrite W in O2.
  assert (P : 0 <= potential 0 <= 12) by (apply potential_facts; unfold state; lia). lia.
Qed.
