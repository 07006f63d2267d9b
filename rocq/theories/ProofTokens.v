(** The tokens of a whole text. *)
From Coq Require Import String Ascii List ZArith Bool Arith Lia.
From Verif Require Import GoStr GoStrFacts Ast Keywords Lexer SpecLexer SpecReadback ProofLexer ProofScan.
Import ListNotations.
Local Open Scope string_scope.
Local Open Scope list_scope.

(** ** Every call returns *)
Lemma skip_statement_suffix s : exists p, s = (p ++ skip_statement s)%string.
Proof.
  induction s as [|c s IH]; [now exists ""|]. cbn [skip_statement]. destruct (Ascii.eqb c ";"); [now exists ""|].
  destruct IH as [p IH]. exists (String c p). cbn. congruence.
Qed.

Lemma begin_suffix s : exists p, s = (p ++ begin s)%string.
Proof.
  unfold begin. destruct (at_char c_nul s) eqn:E; [|now exists ""]. apply at_char_some in E. destruct E as [r ->].
  now exists (String c_nul "").
Qed.

Lemma scan_outer_any again t : exists g x, tk_input t = (g ++ x)%string /\
  (outcome again t x (scan_outer again t) \/ scan_outer again t = Token KEnd "" (set_input x t)).
Proof.
  destruct (tk_force_eof t) eqn:HF.
  - destruct (begin_suffix (tk_input t)) as [p H]. destruct (skip_statement_suffix (begin (tk_input t))) as [q H2].
    exists (p ++ q)%string, (skip_statement (begin (tk_input t))). split; [rewrite sapp_assoc; congruence|].
    right. unfold scan_outer. fold (begin (tk_input t)). now rewrite HF.
  - destruct (begin_skip (tk_input t)) as (g & x & H1 & H2 & H3 & H4). exists g, x. split; [exact H1|].
    unfold scan_outer. fold (begin (tk_input t)). rewrite HF, H4.
    destruct x as [|c s]; [left; now apply oc_end|].
    destruct (is_letter c) eqn:E1; [left; apply good_outcome; [intros ->; discriminate|now apply good_word]|].
    destruct (is_digit c) eqn:E2; [left; apply good_outcome; [intros ->; discriminate|now apply good_number]|].
    destruct (Ascii.eqb_spec c ":") as [->|N]; [left; apply good_outcome; [discriminate|apply good_bind]|].
    destruct (Ascii.eqb_spec c ";") as [->|N2]; cbn [andb].
    + destruct (tk_multi t); [now right|]. left. now apply scan_other_outcome.
    + left. now apply scan_other_outcome.
Qed.

Lemma size_eq t : size t = String.length (tk_input t) + match tk_special t with Some sp => S (size sp) | None => 0 end.
Proof. now destruct t. Qed.

Lemma extract_length body sql : extract_mysql_comment body = Some sql -> String.length sql <= String.length body.
Proof.
  assert (L : forall s, String.length (trim_left s) <= String.length s)
    by (induction s as [|c s IH]; cbn; [lia|]; destruct (is_space c); cbn; lia).
  assert (R : forall s, String.length (trim_right s) <= String.length s).
  { induction s as [|c s IH]; cbn; [lia|]. destruct (trim_right s); [destruct (is_space c); cbn; lia|cbn in *; lia]. }
  unfold extract_mysql_comment.
  assert (V : forall b n s, after_version n b = Some s -> String.length s <= String.length b).
  { induction b as [|c b IH]; intros n s; cbn [after_version]; [discriminate|].
    destruct (negb (is_digit c) || (Nat.eqb n 6)); [intros [= <-]; lia|]. intros H. apply IH in H. cbn. lia. }
  destruct (after_version 1 body) as [s|] eqn:E; [|discriminate]. intros [= <-]. apply V in E. unfold trim_space.
  pose proof (L (trim_right s)). pose proof (R s). lia.
Qed.

Lemma nonempty_length s : s <> "" -> 1 <= String.length s.
Proof. destruct s; [easy|cbn; lia]. Qed.

Lemma token_shrinks n : forall t k v t', scan n t = Token k v t' -> k = KEnd \/ size t' < size t.
Proof.
  induction n as [|n IH]; intros t k v t'; cbn [scan]; [discriminate|].
  assert (O : forall u, tk_special u = None -> (size u <= size t) -> scan_outer (scan n) u = Token k v t' -> k = KEnd \/ size t' < size t).
  { intros u Hs Hu H. destruct (scan_outer_any (scan n) u) as (g & x & Hi & [Ho|He]).
    2:{ rewrite H in He. injection He as <- _ _. now left. }
    rewrite H in Ho. assert (L : String.length (tk_input u) = String.length g + String.length x) by (rewrite Hi; apply sapp_length).
    rewrite (size_eq u), Hs in Hu.
    inversion Ho as [Hx E1|text r v0 Hx Hn E1|text r k0 v0 Hx Hn Hl E1|body r Hx Hf E1]; subst x.
    - now left.
    - right. rewrite size_eq. cbn [set_input tk_input tk_special]. rewrite Hs. rewrite sapp_length in L.
      apply nonempty_length in Hn. lia.
    - right. rewrite size_eq. unfold after. rewrite sapp_length in L. apply nonempty_length in Hn.
      destruct (String.eqb text "?"); cbn [set_input count_posvar tk_input tk_special]; rewrite Hs; lia.
    - unfold special in E1. destruct (extract_mysql_comment body) as [sql|] eqn:X; [|discriminate].
      apply extract_length in X. apply IH in E1. destruct E1 as [->|E1]; [now left|]. right. 
      rewrite (size_eq (set_special _ _)) in E1. cbn [set_special set_input tk_input tk_special] in E1.
      rewrite (size_eq (new_tokenizer _ _)) in E1. unfold new_tokenizer in E1. cbn [tk_input tk_special String.length] in E1.
      rewrite !sapp_length in L. cbn [String.length] in L. lia. }
  destruct (tk_special t) as [sp|] eqn:Hs.
  - destruct (scan n sp) as [k0 v0 sp'| |] eqn:E; try discriminate.
    assert (T : Token k0 v0 (set_special (Some sp') t) = Token k v t' -> k = KEnd \/ size t' < size t).
    { intros [= <- <- <-]. destruct (IH _ _ _ _ E) as [->|L]; [now left|]. right.
      rewrite (size_eq t), Hs, size_eq. cbn [set_special tk_input tk_special]. lia. }
    destruct k0; [|exact T|exact T]. apply O; [reflexivity|]. rewrite (size_eq t), size_eq. cbn [set_special tk_input tk_special]. lia.
  - apply O; auto.
Qed.

Lemma scan_returns n : forall t, size t < n -> scan n t <> OutOfFuel.
Proof.
  induction n as [|n IH]; intros t L; [lia|]. cbn [scan].
  assert (O : forall u, tk_special u = None -> (size u <= size t) -> scan_outer (scan n) u <> OutOfFuel).
  { intros u Hs Hu H. destruct (scan_outer_any (scan n) u) as (g & x & Hi & [Ho|He]); [|congruence].
    rewrite H in Ho. assert (Lx : String.length (tk_input u) = String.length g + String.length x) by (rewrite Hi; apply sapp_length).
    rewrite (size_eq u), Hs in Hu. inversion Ho as [| | |body r Hx Hf E1]. subst x.
    unfold special in E1. destruct (extract_mysql_comment body) as [sql|] eqn:X; [|discriminate].
    apply extract_length in X. apply IH in E1; [exact E1|].
    rewrite size_eq. cbn [set_special set_input tk_input tk_special]. rewrite size_eq. unfold new_tokenizer. cbn [tk_input tk_special String.length].
    rewrite !sapp_length in Lx. cbn [String.length] in Lx. lia. }
  destruct (tk_special t) as [sp|] eqn:Hs; [|apply O; auto].
  assert (L2 : size sp < n) by (rewrite size_eq, Hs in L; lia).
  destruct (scan n sp) as [k0 v0 sp'| |] eqn:E; try discriminate; [|now apply IH in E].
  destruct k0; try discriminate. apply O; [reflexivity|]. rewrite (size_eq t), size_eq. cbn [set_special tk_input tk_special]. lia.
Qed.

Lemma scan_more n : forall t, scan n t <> OutOfFuel -> scan (S n) t = scan n t.
Proof.
  induction n as [|n IH]; intros t H; [now destruct H|].
  assert (O : forall u, tk_special u = None -> scan_outer (scan n) u <> OutOfFuel -> scan_outer (scan (S n)) u = scan_outer (scan n) u).
  { intros u Hs Hu.
    assert (Sp : forall u s, scan_special_comment (scan n) u s <> OutOfFuel ->
      scan_special_comment (scan (S n)) u s = scan_special_comment (scan n) u s).
    { intros w s Hw. unfold scan_special_comment in *. destruct (comment_body (Lexer.next s)) as [[[|] v] r]; [|reflexivity].
      destruct (extract_mysql_comment v); [|reflexivity]. now apply IH. }
    unfold scan_outer in *. destruct (tk_force_eof u); [reflexivity|].
    destruct (skip_blank _) as [|c r]; [reflexivity|]. destruct (is_letter c); [reflexivity|]. destruct (is_digit c); [reflexivity|].
    destruct (Ascii.eqb c ":"); [reflexivity|]. destruct (Ascii.eqb c ";" && tk_multi u); [reflexivity|].
    unfold scan_other in *.
    destruct (one_of single_chars c); [reflexivity|].
    destruct (Ascii.eqb c "&"); [reflexivity|]. destruct (Ascii.eqb c "|"); [reflexivity|].
    destruct (Ascii.eqb c "?"); [reflexivity|]. destruct (Ascii.eqb c "."); [reflexivity|].
    destruct (Ascii.eqb c "/"); [|reflexivity]. destruct (at_char "/" r); [reflexivity|].
    destruct (at_char "*" r); [|reflexivity]. destruct (at_char "!" (Lexer.next r)); [|reflexivity]. now apply Sp. }
  cbn [scan] in H. change (scan (S (S n)) t) with
    (match tk_special t with
     | Some sp => match scan (S n) sp with
                  | Token KEnd _ _ => scan_outer (scan (S n)) (set_special None t)
                  | Token k v sp' => Token k v (set_special (Some sp') t)
                  | ScanPanic => ScanPanic | OutOfFuel => OutOfFuel end
     | None => scan_outer (scan (S n)) t end).
  change (scan (S n) t) with
    (match tk_special t with
     | Some sp => match scan n sp with
                  | Token KEnd _ _ => scan_outer (scan n) (set_special None t)
                  | Token k v sp' => Token k v (set_special (Some sp') t)
                  | ScanPanic => ScanPanic | OutOfFuel => OutOfFuel end
     | None => scan_outer (scan n) t end).
  destruct (tk_special t) as [sp|] eqn:Hs; [|now apply O].
  assert (Hsp : scan n sp <> OutOfFuel) by (intros E; now rewrite E in H).
  rewrite (IH sp Hsp). destruct (scan n sp) as [k0 v0 sp'| |]; [|reflexivity|reflexivity].
  destruct k0; [|reflexivity|reflexivity]. now apply O.
Qed.

(** The bound on the recursion does not matter. *)
Lemma scan_enough n t : size t < n -> scan n t = scan_token t.
Proof.
  intros L. unfold scan_token. assert (E : exists d, n = d + S (size t)) by (exists (n - S (size t)); lia).
  destruct E as [d ->]. clear L. induction d as [|d IH]; [reflexivity|]. cbn [Nat.add]. rewrite scan_more; [exact IH|].
  apply scan_returns. lia.
Qed.

Lemma scan_token_returns t : scan_token t <> OutOfFuel.
Proof. apply scan_returns. lia. Qed.

Lemma lex_returns n : forall allow t, size t < n -> lex_fuel n allow t <> OutOfFuel.
Proof.
  induction n as [|n IH]; intros allow t L; [lia|]. cbn [lex_fuel].
  destruct (scan_token t) as [k v t'| |] eqn:E; [|discriminate|now apply scan_token_returns in E].
  destruct (is_comment k && negb allow) eqn:C; [|discriminate]. apply IH.
  destruct (token_shrinks _ _ _ _ _ E) as [->|S]; [discriminate|]. lia.
Qed.

Lemma lex_shrinks n : forall allow t k v t', lex_fuel n allow t = Token k v t' -> k = KEnd \/ size t' < size t.
Proof.
  induction n as [|n IH]; intros allow t k v t'; cbn [lex_fuel]; [discriminate|].
  destruct (scan_token t) as [k0 v0 t0| |] eqn:E; try discriminate.
  pose proof (token_shrinks _ _ _ _ _ E) as S. destruct (is_comment k0 && negb allow) eqn:C.
  - intros H. apply IH in H. destruct H as [->|H]; [now left|]. destruct S as [->|S]; [discriminate|]. right. lia.
  - intros [= <- <- <-]. exact S.
Qed.

Lemma tokens_return n : forall t, size t < n -> tokens_fuel n t <> StreamFuel.
Proof.
  induction n as [|n IH]; intros t L; [lia|]. cbn [tokens_fuel].
  destruct (lex false t) as [k v t'| |] eqn:E; [|discriminate|exfalso; revert E; unfold lex; apply lex_returns; lia].
  apply lex_shrinks in E. destruct k; [discriminate| |].
  all: destruct E as [E|E]; [discriminate|]; assert (L' : size t' < n) by lia; specialize (IH t' L');
    destruct (tokens_fuel n t'); congruence.
Qed.

(** ** The grammar and the tokenizer *)
Fixpoint plain (t : tokenizer) : Prop :=
  tk_force_eof t = false /\ tk_multi t = false /\ match tk_special t with Some sp => plain sp | None => True end.

Lemma plain_eq t : plain t <-> tk_force_eof t = false /\ tk_multi t = false /\ match tk_special t with Some sp => plain sp | None => True end.
Proof. now destruct t. Qed.

Inductive treads : tokenizer -> list (kind * string) -> Prop :=
| tr_none t l : tk_special t = None -> reads (tk_mode t) (tk_posvar t) (tk_input t) l -> treads t l
| tr_some t sp l1 l2 : tk_special t = Some sp -> treads sp l1 ->
    reads (tk_mode t) (tk_posvar t) (tk_input t) l2 -> treads t (l1 ++ l2).

Lemma lexeme_kind m n k v text r : lexeme m n k v text r -> k <> KEnd /\ k <> lex_error.
Proof.
  assert (W : forall w k v, word w k v -> k <> KEnd /\ k <> lex_error).
  { intros w k0 v0 [x t H|x H|x H1 H2]; try (split; discriminate). split; [discriminate|]. intros [= ->].
    assert (X : forallb (fun p => negb (String.eqb (snd p) "LEX_ERROR")) keywords = true) by (vm_compute; reflexivity).
    rewrite forallb_forall in X. specialize (X _ H). discriminate. }
  intros H. destruct H; try (split; discriminate); try (eapply W; eassumption).
  - destruct H; split; discriminate.
  - destruct H; split; discriminate.
  - assert (X : forallb (fun x => negb (kind_eqb (snd (fst x)) KEnd) && negb (kind_eqb (snd (fst x)) lex_error)) (operators m) = true)
      by (destruct m; reflexivity).
    rewrite forallb_forall in X. specialize (X _ H). cbn [fst snd] in X. split; intros ->; discriminate.
Qed.

Lemma comment_counted m n v text r : lexeme m n (KTok "COMMENT") v text r -> counted text n = n.
Proof.
  intros Hl. unfold counted. destruct (String.eqb_spec text "?") as [->|N]; [|reflexivity]. exfalso.
  remember (KTok "COMMENT") as k eqn:Ek. remember "?" as q eqn:Eq. destruct Hl; try discriminate.
  - injection Eq as -> _. apply is_letter_spec in H. discriminate.
  - rewrite Eq in H. inversion H; subst; try discriminate; apply is_digit_spec in H2; discriminate.
  - subst s. assert (X : forallb (fun x => negb (String.eqb (fst (fst x)) "?")) (operators m) = true)
      by (destruct m; reflexivity).
    rewrite forallb_forall in X. specialize (X _ H). discriminate.
  - destruct H as [<-|[<-|[<-|[]]]]; discriminate.
  - destruct H as [<-|[<-|[<-|[]]]]; discriminate.
Qed.

Lemma after_fields t text r : tk_special (after t text r) = tk_special t /\ tk_mode (after t text r) = tk_mode t /\
  tk_input (after t text r) = r /\ tk_posvar (after t text r) = counted text (tk_posvar t) /\
  tk_force_eof (after t text r) = tk_force_eof t /\ tk_multi (after t text r) = tk_multi t.
Proof. unfold after, counted. destruct (String.eqb text "?"); cbn; auto 10. Qed.

Lemma after_version_spec b : forall n v s, n + String.length v <= 6 -> after_version n b = Some s ->
  (n <= 6 -> exists w c y, b = (w ++ String c y)%string /\ s = String c y /\ digits w /\ n + String.length w <= 6 /\ (~ digit c \/ n + String.length w = 6)).
Proof.
  induction b as [|c b IH]; intros n v s L; cbn [after_version]; [discriminate|].
  intros H Hn. destruct (is_digit c) eqn:E; cbn [negb orb] in H.
  - destruct (Nat.eqb_spec n 6) as [->|N].
    + injection H as <-. exists "", c, b. split; [reflexivity|]. split; [reflexivity|]. split; [apply all_of_nil|]. cbn. split; [lia|]. now right.
    + destruct (IH (S n) "" s) as (w & d & y & -> & -> & H1 & H2 & H3); [cbn; lia|exact H|lia|].
      exists (String c w), d, y. split; [reflexivity|]. split; [reflexivity|]. split.
      * apply all_of_cons. split; [now apply is_digit_spec|exact H1].
      * cbn [String.length]. split; [lia|]. destruct H3; [now left|right; lia].
  - injection H as <-. exists "", c, b. split; [reflexivity|]. split; [reflexivity|]. split; [apply all_of_nil|]. cbn. split; [lia|].
    left. intros X. apply is_digit_spec in X. congruence.
Qed.

Lemma after_version_app w : forall n c y, digits w -> n + String.length w <= 6 -> (~ digit c \/ n + String.length w = 6) ->
  after_version n (w ++ String c y) = Some (String c y).
Proof.
  induction w as [|d w IH]; intros n c y Hw L Hc; cbn [append after_version].
  - destruct Hc as [Hc|Hc].
    + destruct (is_digit c) eqn:E; [|reflexivity]. apply is_digit_spec in E. now destruct Hc.
    + cbn in Hc. replace (Nat.eqb n 6) with true by (symmetry; apply Nat.eqb_eq; lia). now rewrite orb_true_r.
  - apply all_of_cons in Hw. destruct Hw as [H1 H2]. apply is_digit_spec in H1. rewrite H1. cbn [negb orb String.length] in *.
    replace (Nat.eqb n 6) with false by (symmetry; apply Nat.eqb_neq; lia). apply IH; [exact H2|lia|]. destruct Hc; [now left|right; lia].
Qed.

Lemma extract_spec body sql : extract_mysql_comment body = Some sql <-> mysql_only body sql.
Proof.
  unfold extract_mysql_comment. split.
  - destruct (after_version 1 body) as [s|] eqn:E; [|discriminate]. intros [= <-].
    destruct (after_version_spec body 1 "" s) as (w & c & y & -> & -> & H1 & H2 & H3); [cbn; lia|exact E|lia|].
    apply mo_version; [exact H1|lia|]. destruct H3; [now left|right; lia].
  - intros [w c y H1 H2 H3]. rewrite after_version_app; [reflexivity|exact H1|lia|]. destruct H3; [now left|right; lia].
Qed.

(** What a call gives goes before what is read from the rest. *)
Definition put (k : kind) (v : string) (l : list (kind * string)) : list (kind * string) :=
  if is_comment k then l else (k, v) :: l.

Lemma is_comment_spec k : is_comment k = true <-> k = KTok "COMMENT".
Proof.
  destruct k as [| |n]; cbn; try (split; discriminate). rewrite String.eqb_eq. split; [intros ->; reflexivity|intros [= ->]; reflexivity].
Qed.

Lemma step_back n : forall t k v t', plain t -> scan n t = Token k v t' -> k <> lex_error ->
  plain t' /\ (k = KEnd -> treads t []) /\ (k <> KEnd -> forall l, treads t' l -> treads t (put k v l)).
Proof.
  induction n as [|n IH]; intros t k v t' P; cbn [scan]; [discriminate|]. intros H Hk.
  assert (O : forall u, tk_special u = None -> plain u -> scan_outer (scan n) u = Token k v t' ->
    plain t' /\ (k = KEnd -> treads u []) /\ (k <> KEnd -> forall l, treads t' l -> treads u (put k v l))).
  { clear t P H. intros u Hs P H. pose proof (proj1 (plain_eq u) P) as (P1 & P2 & _).
    destruct (scan_outer_outcome (scan n) u P1 P2) as (g & x & Hi & Hg & Ho). rewrite H in Ho.
    inversion Ho as [Hx E1|text r v0 Hx Hn E1|text r k0 v0 Hx Hn Hl E1|body r Hx Hf E1]; subst x.
    - subst k v t'. split; [apply plain_eq; cbn; rewrite Hs; auto|]. split; [|intros X; now destruct X].
      intros _. apply tr_none; [exact Hs|]. rewrite Hi, sapp_nil_r. now apply rd_end.
    - subst k. now destruct Hk.
    - destruct (after_fields u text r) as (A1 & A2 & A3 & A4 & A5 & A6).
      assert (P' : plain (after u text r)) by (apply plain_eq; rewrite A1, A5, A6, Hs; auto).
      split; [exact P'|]. pose proof (lexeme_kind _ _ _ _ _ _ Hl) as [K1 K2]. split; [intros X; now destruct K1|].
      intros _ l Hr. inversion Hr as [w l0 Hs' Hl'|w sp l1 l2 Hs']; [|congruence]. subst w l0.
      rewrite A2, A3, A4 in Hl'. apply tr_none; [exact Hs|]. rewrite Hi. unfold put. destruct (is_comment k) eqn:C.
      + apply is_comment_spec in C. rewrite C in Hl. apply (rd_comment _ _ g text r v l Hg Hl).
        now rewrite (comment_counted _ _ _ _ _ Hl) in Hl'.
      + apply (rd_token _ _ g text r k v l Hg Hl); [|exact Hl']. intros ->. discriminate.
    - unfold special in E1. destruct (extract_mysql_comment body) as [sql|] eqn:X; [|discriminate].
      apply extract_spec in X. apply IH in E1; [| |exact Hk].
      2:{ apply plain_eq. cbn [set_special set_input tk_special tk_force_eof tk_multi]. split; [exact P1|]. split; [exact P2|].
          apply plain_eq. cbn. auto. }
      destruct E1 as (E1 & E2 & E3). split; [exact E1|].
      assert (B : forall l, treads (set_special (Some (new_tokenizer (tk_mode u) sql)) (set_input r u)) l -> treads u l).
      { intros l Hr. inversion Hr as [w l0 Hs' Hl'|w sp l1 l2 Hs' Hsp Hl']; [discriminate|]. subst w l.
        cbn in Hs'. injection Hs' as <-. inversion Hsp as [w l0 Hs' Hi'|w sp l1' l2' Hs']; [|discriminate]. subst w l0.
        cbn in Hi', Hl'. apply tr_none; [exact Hs|]. rewrite Hi. now apply (rd_special _ _ g body sql r). }
      split; [intros Y; apply B; auto|]. intros Y l Hr. apply B. auto. }
  pose proof (proj1 (plain_eq t) P) as (P1 & P2 & P3).
  destruct (tk_special t) as [sp|] eqn:Hs; [|now apply O].
  destruct (scan n sp) as [k0 v0 sp'| |] eqn:E; try discriminate.
  assert (T : k0 <> KEnd -> Token k0 v0 (set_special (Some sp') t) = Token k v t' ->
    plain t' /\ (k = KEnd -> treads t []) /\ (k <> KEnd -> forall l, treads t' l -> treads t (put k v l))).
  { intros N [= -> -> <-]. destruct (IH _ _ _ _ P3 E Hk) as (I1 & I2 & I3).
    split; [apply plain_eq; cbn; auto|]. split; [intros X; now destruct N|]. intros _ l Hr.
    inversion Hr as [w l0 Hs' Hl'|w sp0 l1 l2 Hs' Hsp Hl']; [discriminate|]. subst w l. cbn in Hs'. injection Hs' as <-.
    cbn in Hl'. replace (put k v (l1 ++ l2)) with (put k v l1 ++ l2) by (unfold put; now destruct (is_comment k)).
    apply (tr_some t sp); auto. }
  destruct k0 as [|c0|n0]; [|apply T; [discriminate|exact H]|apply T; [discriminate|exact H]].
  destruct (O (set_special None t) eq_refl) as (O1 & O2 & O3).
  { apply plain_eq. cbn. auto. }
  { exact H. }
  destruct (IH _ _ _ _ P3 E) as (I1 & I2 & I3); [discriminate|].
  assert (B : forall l, treads (set_special None t) l -> treads t l).
  { intros l Hr. inversion Hr as [w l0 Hs' Hl'|w sp0 l1 l2 Hs' Hsp Hl']; [|discriminate]. subst w l0. cbn in Hl'.
    apply (tr_some t sp [] l Hs); auto. }
  split; [exact O1|]. split; [intros Y; apply B; auto|]. intros Y l Hr. apply B. auto.
Qed.

Lemma step_forward n : forall t l, plain t -> treads t l -> size t < n ->
  (l = [] /\ exists v t', scan n t = Token KEnd v t') \/
  (exists k v t' l', scan n t = Token k v t' /\ k <> KEnd /\ k <> lex_error /\ l = put k v l' /\ plain t' /\ treads t' l').
Proof.
  induction n as [|n IH]; intros t l P R L; [lia|].
  assert (O : forall u l, tk_special u = None -> plain u -> size u <= size t -> reads (tk_mode u) (tk_posvar u) (tk_input u) l ->
    (l = [] /\ exists v t', scan_outer (scan n) u = Token KEnd v t') \/
    (exists k v t' l', scan_outer (scan n) u = Token k v t' /\ k <> KEnd /\ k <> lex_error /\ l = put k v l' /\ plain t' /\ treads t' l')).
  { clear l R P. intros u l Hs P Hu Hr. pose proof (proj1 (plain_eq u) P) as (P1 & P2 & _).
    rewrite (size_eq u), Hs in Hu.
    remember (tk_input u) as s eqn:Es. remember (tk_posvar u) as pv eqn:Ev.
    destruct Hr as [pv g Hg|pv g text r k v l Hg Hl Hc Hr|pv g text r v l Hg Hl Hr|pv g body inner r l1 l2 Hg Hf Hm Hr1 Hr2]; subst pv.
    - left. split; [reflexivity|]. exists "", (set_input "" u). now apply (scan_outer_end _ u g).
    - right. exists k, v, (after u text r), l. pose proof (lexeme_kind _ _ _ _ _ _ Hl) as [K1 K2].
      destruct (after_fields u text r) as (A1 & A2 & A3 & A4 & A5 & A6).
      split; [now apply (scan_outer_lexeme _ u g)|]. split; [exact K1|]. split; [exact K2|]. split.
      + unfold put. destruct (is_comment k) eqn:C; [|reflexivity]. apply is_comment_spec in C. now destruct Hc.
      + split; [apply plain_eq; rewrite A1, A5, A6, Hs; auto|]. apply tr_none; [now rewrite A1|]. now rewrite A2, A3, A4.
    - right. exists (KTok "COMMENT"), v, (after u text r), l.
      destruct (after_fields u text r) as (A1 & A2 & A3 & A4 & A5 & A6).
      split; [now apply (scan_outer_lexeme _ u g)|]. split; [discriminate|]. split; [discriminate|]. split; [reflexivity|].
      split; [apply plain_eq; rewrite A1, A5, A6, Hs; auto|]. apply tr_none; [now rewrite A1|]. rewrite A2, A3, A4.
      now rewrite (comment_counted _ _ _ _ _ Hl).
    - pose proof Hm as Hm'. apply extract_spec in Hm.
      rewrite (scan_outer_special (scan n) u g body r) by auto. unfold special. rewrite Hm.
      apply IH.
      + apply plain_eq. cbn [set_special set_input tk_special tk_force_eof tk_multi]. split; [exact P1|]. split; [exact P2|].
        apply plain_eq. cbn. auto.
      + apply (tr_some _ (new_tokenizer (tk_mode u) inner)); [reflexivity| |exact Hr2]. now apply tr_none.
      + apply extract_length in Hm. rewrite size_eq. cbn [set_special set_input tk_input tk_special]. rewrite size_eq.
        unfold new_tokenizer. cbn [tk_input tk_special String.length]. rewrite !sapp_length in Hu. cbn [String.length] in Hu. lia. }
  cbn [scan]. pose proof (proj1 (plain_eq t) P) as (P1 & P2 & P3).
  destruct R as [t l Hs Hr|t sp l1 l2 Hs Hsp Hr]; rewrite Hs in *.
  - now apply O.
  - assert (L2 : size sp < n) by (rewrite size_eq, Hs in L; lia).
    destruct (IH sp l1 P3 Hsp L2) as [(-> & v & sp' & E)|(k & v & sp' & l' & E & K1 & K2 & -> & P' & R')]; rewrite E.
    + apply O; [reflexivity|apply plain_eq; cbn; auto| |exact Hr].
      rewrite (size_eq t), size_eq. cbn [set_special tk_input tk_special]. lia.
    + right. exists k, v, (set_special (Some sp') t), (l' ++ l2). split; [now destruct k|]. split; [exact K1|]. split; [exact K2|].
      split; [unfold put; now destruct (is_comment k)|]. split; [apply plain_eq; cbn; auto|].
      now apply (tr_some _ sp').
Qed.

Lemma lex_back n : forall t k v t', plain t -> lex_fuel n false t = Token k v t' -> k <> lex_error ->
  plain t' /\ is_comment k = false /\ (k = KEnd -> treads t []) /\ (k <> KEnd -> forall l, treads t' l -> treads t ((k, v) :: l)).
Proof.
  induction n as [|n IH]; intros t k v t' P; cbn [lex_fuel]; [discriminate|].
  destruct (scan_token t) as [k0 v0 t0| |] eqn:E; try discriminate. destruct (is_comment k0) eqn:C; cbn [andb negb].
  - intros H Hk. destruct (step_back _ _ _ _ _ P E) as (S1 & S2 & S3); [intros ->; discriminate|].
    destruct (IH _ _ _ _ S1 H Hk) as (I1 & I2 & I3 & I4). split; [exact I1|]. split; [exact I2|].
    assert (N : k0 <> KEnd) by (intros ->; discriminate).
    assert (B : forall l, treads t0 l -> treads t l) by (intros l Hl; specialize (S3 N l Hl); unfold put in S3; now rewrite C in S3).
    split; [intros X; apply B; auto|intros X l Hl; apply B; auto].
  - intros [= <- <- <-] Hk. destruct (step_back _ _ _ _ _ P E Hk) as (S1 & S2 & S3). split; [exact S1|]. split; [exact C|].
    split; [exact S2|]. intros N l Hl. specialize (S3 N l Hl). unfold put in S3. now rewrite C in S3.
Qed.

Lemma lex_forward n : forall t l, plain t -> treads t l -> size t < n ->
  (l = [] /\ exists v t', lex_fuel n false t = Token KEnd v t') \/
  (exists k v t' l', lex_fuel n false t = Token k v t' /\ k <> KEnd /\ k <> lex_error /\ l = (k, v) :: l' /\ plain t' /\ treads t' l').
Proof.
  induction n as [|n IH]; intros t l P R L; [lia|]. cbn [lex_fuel].
  destruct (step_forward (S (size t)) t l P R) as [(-> & v & t' & E)|(k & v & t' & l' & E & K1 & K2 & -> & P' & R')]; [lia| |].
  - left. split; [reflexivity|]. exists v, t'. unfold scan_token. now rewrite E.
  - unfold scan_token. rewrite E. unfold put. destruct (is_comment k) eqn:C; cbn [andb negb].
    + apply IH; auto. destruct (token_shrinks _ _ _ _ _ E) as [X|X]; [now destruct K1|lia].
    + right. exists k, v, t', l'. auto 10.
Qed.

Lemma tokens_sound n : forall t l, plain t -> tokens_fuel n t = Tokens l -> no_errors l -> treads t l.
Proof.
  induction n as [|n IH]; intros t l P; cbn [tokens_fuel]; [discriminate|].
  destruct (lex false t) as [k v t'| |] eqn:E; try discriminate. intros H Hn.
  assert (G : k <> KEnd -> (exists l', tokens_fuel n t' = Tokens l' /\ l = (k, v) :: l') -> treads t l).
  { intros N (l' & E' & ->). assert (Hk : k <> lex_error) by (intros ->; apply (Hn v); now left).
    destruct (lex_back _ _ _ _ _ P E Hk) as (L1 & L2 & L3 & L4). apply (L4 N). apply IH; auto.
    intros w Hw. apply (Hn w). now right. }
  destruct k as [|c|m].
  - injection H as <-. destruct (lex_back _ _ _ _ _ P E) as (L1 & L2 & L3 & L4); [discriminate|]. now apply L3.
  - apply G; [discriminate|]. destruct (tokens_fuel n t') as [l'| |]; try discriminate. injection H as <-. now exists l'.
  - apply G; [discriminate|]. destruct (tokens_fuel n t') as [l'| |]; try discriminate. injection H as <-. now exists l'.
Qed.

Lemma tokens_complete n : forall t l, plain t -> treads t l -> size t < n -> tokens_fuel n t = Tokens l /\ no_errors l.
Proof.
  induction n as [|n IH]; intros t l P R L; [lia|]. cbn [tokens_fuel]. unfold lex.
  destruct (lex_forward (S (size t)) t l P R) as [(-> & v & t' & E)|(k & v & t' & l' & E & K1 & K2 & -> & P' & R')]; [lia| |].
  - rewrite E. split; [reflexivity|]. intros w [].
  - rewrite E. destruct (lex_shrinks _ _ _ _ _ _ E) as [X|X]; [now destruct K1|].
    destruct (IH t' l' P' R') as [I1 I2]; [lia|]. rewrite I1. split; [now destruct k|].
    intros w [X'|Hw]; [injection X' as X' _; now destruct K2|now apply (I2 w)].
Qed.

(** The tokenizer reads exactly what the lexical grammar says. *)
Theorem tokens_exact m sql l : (tokens m sql = Tokens l /\ no_errors l) <-> reads m 0 (String c_nul sql) l.
Proof.
  unfold tokens. assert (P : plain (new_tokenizer m sql)) by (apply plain_eq; cbn; auto). split.
  - intros [H1 H2]. apply tokens_sound in H1; auto. inversion H1 as [t l0 Hs Hr|t sp l1 l2 Hs]; [exact Hr|discriminate].
  - intros H. apply (tokens_complete _ (new_tokenizer m sql) l P); [|lia]. now apply tr_none.
Qed.

Theorem tokens_total m sql : tokens m sql <> StreamFuel.
Proof. apply tokens_return. lia. Qed.

(** ** The number of tokens *)
Lemma tokens_count n : forall t l, tokens_fuel n t = Tokens l -> List.length l <= size t.
Proof.
  induction n as [|n IH]; intros t l; cbn [tokens_fuel]; [discriminate|].
  destruct (lex false t) as [k v t'| |] eqn:E; try discriminate. apply lex_shrinks in E.
  destruct k; [intros [= <-]; cbn; lia| |]; (destruct E as [E|E]; [discriminate|]);
    (destruct (tokens_fuel n t') as [l'| |] eqn:T; try discriminate); intros [= <-]; apply IH in T; cbn [List.length]; lia.
Qed.

Theorem tokens_bounded m sql l : tokens m sql = Tokens l -> List.length l <= S (String.length sql).
Proof.
  unfold tokens. intros H. apply tokens_count in H. cbn in H. lia.
Qed.
